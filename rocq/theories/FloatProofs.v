(** Facts about binary64 used by FloatProps.v. *)
From Coq Require Import ZArith Reals List Bool Lra Lia Psatz.
From Flocq Require Import Core IEEE754.BinarySingleNaN Relative Plus_error.
From Verif Require Import FloatModel.
Import ListNotations.
Open Scope R_scope.

Notation val := (@B2R 53 1024).
Notation fin := (@is_finite 53 1024).
Notation fe := (FLT_exp (-1074) 53).
Notation fmt := (generic_format radix2 fe).
Definition rnd (x : R) : R := round radix2 fe ZnearestE x.

Lemma rnd_le x y : x <= y -> rnd x <= rnd y.
Proof. intros H. apply round_le; [apply FLT_exp_valid; easy | apply valid_rnd_N | exact H]. Qed.

Lemma rnd_id x : fmt x -> rnd x = x.
Proof. intros H. apply round_generic; [apply valid_rnd_N | exact H]. Qed.

Lemma fmt_val x : fmt (val x).
Proof. exact (generic_format_B2R 53 1024 x). Qed.

Lemma fmt_bpow e : (-1074 <= e)%Z -> fmt (bpow radix2 e).
Proof. intros H. apply generic_format_FLT_bpow; [easy | exact H]. Qed.

Lemma fmt_int z : (Z.abs z <= 2 ^ 53)%Z -> fmt (IZR z).
Proof.
  intros H. destruct (Z.eq_dec (Z.abs z) (2 ^ 53)) as [E|E].
  - assert (A : fmt (IZR (2 ^ 53))) by (change (IZR (2 ^ 53)) with (IZR (Zpower radix2 53)); rewrite (IZR_Zpower radix2) by lia; apply fmt_bpow; lia).
    destruct (Z.abs_or_opp_abs z) as [e|e]; rewrite e, E; [|rewrite opp_IZR; apply generic_format_opp]; exact A.
  - apply generic_format_FLT. exists (Float radix2 z 0).
    + unfold F2R; cbn. ring.
    + cbn [Fnum]. change (radix2 ^ 53)%Z with (2 ^ 53)%Z. lia.
    + cbn. lia.
Qed.

Lemma fmt_0 : fmt 0.
Proof. apply generic_format_0. Qed.

Lemma rnd_abs_le x e : (-1074 <= e)%Z -> Rabs x <= bpow radix2 e -> Rabs (rnd x) <= bpow radix2 e.
Proof.
  intros He H. apply abs_round_le_generic; [apply FLT_exp_valid; easy | apply valid_rnd_N | | exact H].
  apply fmt_bpow, He.
Qed.

Lemma big_enough x : Rabs x <= bpow radix2 1023 -> Rlt_bool (Rabs (rnd x)) (bpow radix2 1024) = true.
Proof.
  intros H. apply Rlt_bool_true. apply Rle_lt_trans with (bpow radix2 1023).
  - apply rnd_abs_le; [lia | exact H].
  - apply bpow_lt. lia.
Qed.

Lemma fadd_val x y : fin x = true -> fin y = true -> Rabs (val x + val y) <= bpow radix2 1023 ->
  fin (fadd x y) = true /\ val (fadd x y) = rnd (val x + val y).
Proof.
  intros Fx Fy H. pose proof (Bplus_correct 53 1024 prec53 emax1024 mode_NE x y Fx Fy) as C.
  change (round radix2 (SpecFloat.fexp 53 1024) (round_mode mode_NE)) with rnd in C.
  rewrite (big_enough _ H) in C. destruct C as (C1 & C2 & _). split; assumption.
Qed.

Lemma fsub_val x y : fin x = true -> fin y = true -> Rabs (val x - val y) <= bpow radix2 1023 ->
  fin (fsub x y) = true /\ val (fsub x y) = rnd (val x - val y).
Proof.
  intros Fx Fy H. pose proof (Bminus_correct 53 1024 prec53 emax1024 mode_NE x y Fx Fy) as C.
  change (round radix2 (SpecFloat.fexp 53 1024) (round_mode mode_NE)) with rnd in C.
  rewrite (big_enough _ H) in C. destruct C as (C1 & C2 & _). split; assumption.
Qed.

Lemma fmul_val x y : fin x = true -> fin y = true -> Rabs (val x * val y) <= bpow radix2 1023 ->
  fin (fmul x y) = true /\ val (fmul x y) = rnd (val x * val y).
Proof.
  intros Fx Fy H. pose proof (Bmult_correct 53 1024 prec53 emax1024 mode_NE x y) as C.
  change (round radix2 (SpecFloat.fexp 53 1024) (round_mode mode_NE)) with rnd in C.
  rewrite (big_enough _ H), Fx, Fy in C. destruct C as (C1 & C2 & _). split; assumption.
Qed.

Lemma fdiv_val x y : fin x = true -> val y <> 0 -> Rabs (val x / val y) <= bpow radix2 1023 ->
  fin (fdiv x y) = true /\ val (fdiv x y) = rnd (val x / val y).
Proof.
  intros Fx Fy H. pose proof (Bdiv_correct 53 1024 prec53 emax1024 mode_NE x y Fy) as C.
  change (round radix2 (SpecFloat.fexp 53 1024) (round_mode mode_NE)) with rnd in C.
  rewrite (big_enough _ H), Fx in C. destruct C as (C1 & C2 & _). split; assumption.
Qed.

Lemma of_int_val z : (Z.abs z <= 2 ^ 53)%Z -> fin (of_int z) = true /\ val (of_int z) = IZR z.
Proof.
  intros H. pose proof (binary_normalize_correct 53 1024 eq_refl eq_refl mode_NE z 0 false) as C.
  cbv zeta in C. change (round radix2 (SpecFloat.fexp 53 1024) (round_mode mode_NE)) with rnd in C.
  assert (E : F2R (Float radix2 z 0) = IZR z) by (unfold F2R; cbn; ring). rewrite E in C.
  assert (B : Rabs (IZR z) <= bpow radix2 1023).
  { apply Rle_trans with (bpow radix2 53); [|apply bpow_le; lia]. rewrite <- abs_IZR.
    rewrite <- (IZR_Zpower radix2) by lia. apply IZR_le. exact H. }
  rewrite (big_enough _ B) in C. destruct C as (C1 & C2 & _). split; [exact C2|].
  unfold of_int. rewrite C1. apply rnd_id, fmt_int, H.
Qed.

(** Rounding errors. *)
Lemma rnd_err x e : (-1021 <= e)%Z -> Rabs x <= bpow radix2 e -> Rabs (rnd x - x) <= bpow radix2 (e - 54).
Proof.
  intros He [H|H].
  - apply Rle_trans with (/ 2 * ulp radix2 fe x).
    + apply error_le_half_ulp. apply FLT_exp_valid. easy.
    + replace (bpow radix2 (e - 54)) with (/ 2 * bpow radix2 (e - 53)).
      * apply Rmult_le_compat_l; [lra|]. destruct (Req_dec x 0) as [->|N].
        -- rewrite ulp_FLT_0 by easy. apply bpow_le. lia.
        -- rewrite ulp_neq_0 by exact N. apply bpow_le. unfold cexp, FLT_exp.
           pose proof (mag_le_bpow radix2 x e N H). lia.
      * replace (e - 53)%Z with (1 + (e - 54))%Z by ring. rewrite bpow_plus. change (bpow radix2 1) with 2. field.
  - assert (F : fmt x).
    { destruct (Rcase_abs x) as [n|n]; [rewrite Rabs_left in H by exact n | rewrite Rabs_right in H by exact n].
      - replace x with (- bpow radix2 e) by lra. apply generic_format_opp, fmt_bpow. lia.
      - rewrite H. apply fmt_bpow. lia. }
    rewrite (rnd_id x F), Rminus_diag_eq, Rabs_R0 by reflexivity. apply bpow_ge_0.
Qed.

Definition u : R := bpow radix2 (-53).
Definition tiny : R := bpow radix2 (-1075).

Lemma u_pos : 0 < u. Proof. apply bpow_gt_0. Qed.
Lemma tiny_pos : 0 < tiny. Proof. apply bpow_gt_0. Qed.

Lemma u_ro_eq : u_ro radix2 53 = u.
Proof. unfold u_ro, u. replace (-53)%Z with (-1 + (-53 + 1))%Z by ring. rewrite (bpow_plus radix2 (-1)). f_equal. Qed.

Lemma u_div : u / (1 + u) <= u.
Proof. pose proof u_pos. apply Rmult_le_reg_r with (1 + u); [lra|]. unfold Rdiv. rewrite Rmult_assoc, Rinv_l by lra. nra. Qed.

Lemma rnd_rel x : Rabs (rnd x - x) <= u * Rabs x + tiny.
Proof.
  destruct (relative_error_N_FLT'_ex radix2 (-1074) 53 eq_refl (fun t => negb (Z.even t)) x) as (eps & eta & A & B & _ & E).
  unfold rnd. rewrite E. rewrite u_ro_eq in A. pose proof u_div.
  replace (x * (1 + eps) + eta - x) with (eps * x + eta) by ring.
  apply Rle_trans with (1 := Rabs_triang _ _). rewrite Rabs_mult. apply Rplus_le_compat.
  - apply Rmult_le_compat_r; [apply Rabs_pos | lra].
  - apply Rle_trans with (1 := B). unfold tiny. replace (-1075)%Z with (-1 + -1074)%Z by ring.
    rewrite bpow_plus. change (bpow radix2 (-1)) with (/ 2). lra.
Qed.

Lemma rnd_rel_add x y : fmt x -> fmt y -> Rabs (rnd (x + y) - (x + y)) <= u * Rabs (x + y).
Proof.
  intros Hx Hy. destruct (FLT_plus_error_N_ex radix2 (-1074) 53 (fun t => negb (Z.even t)) x y Hx Hy) as (eps & A & E).
  unfold rnd. rewrite E. rewrite u_ro_eq in A. pose proof u_div.
  replace ((x + y) * (1 + eps) - (x + y)) with (eps * (x + y)) by ring. rewrite Rabs_mult.
  apply Rmult_le_compat_r; [apply Rabs_pos | lra].
Qed.

Lemma rnd_rel_sub x y : fmt x -> fmt y -> Rabs (rnd (x - y) - (x - y)) <= u * Rabs (x - y).
Proof. intros Hx Hy. apply (rnd_rel_add x (- y) Hx). apply generic_format_opp, Hy. Qed.

Lemma rnd_ex x : exists e h, Rabs e <= u /\ Rabs h <= tiny /\ rnd x = x * (1 + e) + h.
Proof.
  destruct (relative_error_N_FLT'_ex radix2 (-1074) 53 eq_refl (fun t => negb (Z.even t)) x) as (eps & eta & A & B & _ & E).
  exists eps, eta. rewrite u_ro_eq in A. pose proof u_div. split; [lra|]. split; [|exact E].
  apply Rle_trans with (1 := B). unfold tiny. replace (-1075)%Z with (-1 + -1074)%Z by ring.
  rewrite bpow_plus. change (bpow radix2 (-1)) with (/ 2). lra.
Qed.

Lemma rnd_ex_normal x : bpow radix2 (-1022) <= Rabs x -> exists e, Rabs e <= u /\ rnd x = x * (1 + e).
Proof.
  intros H. destruct (relative_error_N_FLT_ex radix2 (-1074) 53 eq_refl (fun t => negb (Z.even t)) x H) as (e & A & E).
  exists e. split; [|exact E]. apply Rle_trans with (1 := A). change (- (53) + 1)%Z with (-53 + 1)%Z. replace (/ 2 * bpow radix2 (-53 + 1)) with u; [apply Rle_refl|]. rewrite (bpow_plus radix2 (-53) 1). change (bpow radix2 1) with 2. unfold u. field.
Qed.

Lemma rnd_add_ex x y : fmt x -> fmt y -> exists e, Rabs e <= u /\ rnd (x + y) = (x + y) * (1 + e).
Proof.
  intros Hx Hy. destruct (FLT_plus_error_N_ex radix2 (-1074) 53 (fun t => negb (Z.even t)) x y Hx Hy) as (eps & A & E).
  exists eps. rewrite u_ro_eq in A. pose proof u_div. split; [lra | exact E].
Qed.

Lemma rnd_sub_ex x y : fmt x -> fmt y -> exists e, Rabs e <= u /\ rnd (x - y) = (x - y) * (1 + e).
Proof. intros Hx Hy. apply (rnd_add_ex x (- y) Hx). apply generic_format_opp, Hy. Qed.

(** Comparisons. *)
Lemma flt_val x y : fin x = true -> fin y = true -> (flt x y = true <-> val x < val y).
Proof. intros A B. unfold flt. rewrite (Bltb_correct 53 1024 x y A B). split; [intros H; destruct (Rlt_bool_spec (val x) (val y)); [assumption|discriminate] | apply Rlt_bool_true]. Qed.
Lemma fle_val x y : fin x = true -> fin y = true -> (fle x y = true <-> val x <= val y).
Proof. intros A B. unfold fle. rewrite (Bleb_correct 53 1024 x y A B). split; [intros H; destruct (Rle_bool_spec (val x) (val y)); [assumption|discriminate] | apply Rle_bool_true]. Qed.
Lemma feq_val x y : fin x = true -> fin y = true -> (feq x y = true <-> val x = val y).
Proof. intros A B. unfold feq. rewrite (Beqb_correct 53 1024 x y A B). split; [intros H; destruct (Req_bool_spec (val x) (val y)); [assumption|discriminate] | apply Req_bool_true]. Qed.

Lemma sub_nonzero x y : fmt x -> fmt y -> x <> y -> rnd (x - y) <> 0.
Proof.
  intros Hx Hy N E. pose proof (rnd_rel_sub x y Hx Hy) as A. rewrite E in A.
  assert (U : u < 1) by (unfold u; change 1 with (bpow radix2 0); apply bpow_lt; lia).
  rewrite Rminus_0_l, Rabs_Ropp in A. assert (0 < Rabs (x - y)) by (apply Rabs_pos_lt; lra). nra.
Qed.

(** Floor and int. *)
Lemma val_finite s m e H : val (B754_finite s m e H) = IZR (cond_Zopp s (Zpos m)) * bpow radix2 e.
Proof. reflexivity. Qed.

Lemma fl_floor_val x : fin x = true -> fl_floor x = Some (Zfloor (val x)).
Proof.
  destruct x as [s| | |s m e H]; cbn [is_finite]; intros F; try discriminate; cbn [fl_floor].
  - cbn. now rewrite Zfloor_IZR.
  - rewrite val_finite. set (c := cond_Zopp s (Zpos m)). f_equal. destruct (Z.leb_spec 0 e) as [L|L].
    + change (2 ^ e)%Z with (Zpower radix2 e). rewrite <- (IZR_Zpower radix2) by exact L. rewrite <- mult_IZR. now rewrite Zfloor_IZR.
    + symmetry. rewrite <- (Z.opp_involutive e) at 1. rewrite bpow_opp, <- (IZR_Zpower radix2) by lia.
      apply (Zfloor_div c (2 ^ (- e))). apply Z.pow_nonzero; lia.
Qed.

Lemma fl_int_val x : fin x = true -> fl_int x = Some (Ztrunc (val x)).
Proof.
  destruct x as [s| | |s m e H]; cbn [is_finite]; intros F; try discriminate; cbn [fl_int].
  - cbn. now rewrite Ztrunc_IZR.
  - rewrite val_finite. set (c := cond_Zopp s (Zpos m)). f_equal. destruct (Z.leb_spec 0 e) as [L|L].
    + change (2 ^ e)%Z with (Zpower radix2 e). rewrite <- (IZR_Zpower radix2) by exact L. rewrite <- mult_IZR. now rewrite Ztrunc_IZR.
    + symmetry. rewrite <- (Z.opp_involutive e) at 1. rewrite bpow_opp, <- (IZR_Zpower radix2) by lia.
      apply (Ztrunc_div c (2 ^ (- e))). apply Z.pow_nonzero; lia.
Qed.
