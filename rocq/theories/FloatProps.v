(** C251, C252: interpolation, headings, dead reckoning and depth layers in binary64. *)
From Coq Require Import ZArith Reals List Bool Lra Lia Psatz.
From Flocq Require Import Core IEEE754.BinarySingleNaN.
From Verif Require Import FloatModel FloatProofs.
Import ListNotations.
Open Scope R_scope.

Lemma rabs_le' a b : - b <= a <= b -> Rabs a <= b.
Proof. intros H. apply Rabs_le, H. Qed.
Lemma below_1023 x e : (e <= 1023)%Z -> Rabs x <= bpow radix2 e -> Rabs x <= bpow radix2 1023.
Proof. intros H A. apply Rle_trans with (1 := A). apply bpow_le, H. Qed.
Lemma dbl e : bpow radix2 (1 + e) = 2 * bpow radix2 e.
Proof. rewrite bpow_plus. reflexivity. Qed.
Lemma u_small : u <= / 1048576.
Proof. unfold u. change (/ 1048576) with (bpow radix2 (-20)). apply bpow_le. lia. Qed.
Lemma zero_val : fin (of_int 0) = true /\ val (of_int 0) = 0.
Proof. exact (of_int_val 0 ltac:(lia)). Qed.

(** * Interpolation *)

(** interpolate never divides by zero, whatever the floats are: NaN and the
    infinities included. *)
Theorem C251_no_zero_division x a b y y' : finterpolate x a b y y' <> None.
Proof.
  unfold finterpolate. destruct (feq b a) eqn:E; [discriminate|]. unfold pdiv.
  destruct (feq (fsub b a) (of_int 0)) eqn:Z; [exfalso | discriminate].
  destruct (fin b) eqn:Fb; [destruct (fin a) eqn:Fa|].
  - assert (N : val b <> val a). { intros V. apply (feq_val b a Fb Fa) in V. congruence. }
    pose proof (Bminus_correct 53 1024 prec53 emax1024 mode_NE b a Fb Fa) as C.
    destruct (Rlt_bool _ _).
    + destruct C as (C1 & C2 & _). change (Bminus mode_NE b a) with (fsub b a) in *.
      apply (feq_val _ _ C2 (proj1 zero_val)) in Z. rewrite C1, (proj2 zero_val) in Z.
      revert Z. apply sub_nonzero; [apply fmt_val | apply fmt_val | exact N].
    + destruct C as (C1 & _). change (Bminus mode_NE b a) with (fsub b a) in *.
      destruct (fsub b a) as [s|s| |s m e H]; cbn in C1; try discriminate. destruct s; cbn in Z; discriminate.
  - destruct a as [s|s| |s m e H]; cbn in Fa; try discriminate; destruct b as [sb|sb| |sb mb eb Hb]; cbn in Fb; try discriminate;
      cbn in Z; try discriminate; destruct s; discriminate.
  - destruct b as [sb|sb| |sb mb eb Hb]; cbn in Fb; try discriminate; destruct a as [s|s| |s m e H]; cbn in Z; try discriminate;
      destruct sb; try destruct s; try discriminate.
Qed.

(** Numbers that occur: at most 2^200 in size, times not closer than 2^-200. *)
Definition usual (x : b64) : Prop := fin x = true /\ Rabs (val x) <= bpow radix2 200.

Lemma usual_sub x y : usual x -> usual y -> fin (fsub x y) = true /\ val (fsub x y) = rnd (val x - val y) /\ Rabs (val (fsub x y)) <= bpow radix2 201.
Proof.
  intros [Fx Bx] [Fy By].
  assert (B : Rabs (val x - val y) <= bpow radix2 201).
  { change 201%Z with (1 + 200)%Z. rewrite bpow_plus. change (bpow radix2 1) with 2. unfold Rminus.
    apply Rle_trans with (1 := Rabs_triang _ _). rewrite Rabs_Ropp. lra. }
  destruct (fsub_val x y Fx Fy) as [F V]; [apply below_1023 with 201%Z; [lia | exact B]|].
  split; [exact F|]. split; [exact V|]. rewrite V. apply rnd_abs_le; [lia | exact B].
Qed.

Lemma mul_le a b x y : Rabs a <= x -> Rabs b <= y -> Rabs (a * b) <= x * y.
Proof. intros A B. rewrite Rabs_mult. apply Rmult_le_compat; try apply Rabs_pos; assumption. Qed.

(** The pieces of one evaluation with a < b. *)
Lemma pieces x a b y y' : usual x -> usual a -> usual b -> usual y -> usual y' -> bpow radix2 (-200) <= val b - val a ->
  exists r s, finterpolate x a b y y' = Some r /\ fin r = true /\
    s = rnd (rnd (val y' - val y) / rnd (val b - val a)) /\ Rabs s <= bpow radix2 402 /\
    bpow radix2 (-200) <= rnd (val b - val a) /\
    val r = rnd (rnd (s * rnd (val x - val a)) + val y).
Proof.
  intros Ux Ua Ub Uy Uy' G.
  destruct (usual_sub b a Ub Ua) as (FT & VT & BT). destruct (usual_sub y' y Uy' Uy) as (FD & VD & BD). destruct (usual_sub x a Ux Ua) as (FX & VX & BX).
  assert (P0 : 0 < bpow radix2 (-200)) by apply bpow_gt_0.
  assert (GT : bpow radix2 (-200) <= rnd (val b - val a)).
  { rewrite <- (rnd_id (bpow radix2 (-200))) by (apply fmt_bpow; lia). apply rnd_le, G. }
  assert (NT : val (fsub b a) <> 0) by (rewrite VT; lra).
  assert (NE : feq b a = false). { destruct (feq b a) eqn:E; [|reflexivity]. apply (feq_val b a (proj1 Ub) (proj1 Ua)) in E. lra. }
  assert (NZ : feq (fsub b a) (of_int 0) = false). { destruct (feq (fsub b a) (of_int 0)) eqn:E; [|reflexivity]. apply (feq_val _ _ FT (proj1 zero_val)) in E. rewrite (proj2 zero_val) in E. contradiction. }
  assert (BQ : Rabs (val (fsub y' y) / val (fsub b a)) <= bpow radix2 402).
  { unfold Rdiv. change 402%Z with (201 + 201)%Z. rewrite bpow_plus. apply mul_le; [exact BD|]. rewrite VT.
    rewrite Rabs_pos_eq by (apply Rlt_le, Rinv_0_lt_compat; lra). apply Rle_trans with (/ bpow radix2 (-200)).
    - apply Rinv_le; lra.
    - rewrite <- bpow_opp. apply bpow_le. lia. }
  destruct (fdiv_val (fsub y' y) (fsub b a) FD NT) as [FS VS]; [apply below_1023 with 402%Z; [lia | exact BQ]|].
  set (s := fdiv (fsub y' y) (fsub b a)) in *.
  assert (BS : Rabs (val s) <= bpow radix2 402) by (rewrite VS; apply rnd_abs_le; [lia | exact BQ]).
  assert (BP : Rabs (val s * val (fsub x a)) <= bpow radix2 603) by (change 603%Z with (402 + 201)%Z; rewrite bpow_plus; apply mul_le; assumption).
  destruct (fmul_val s (fsub x a) FS FX) as [FP VP]; [apply below_1023 with 603%Z; [lia | exact BP]|].
  assert (BPv : Rabs (val (fmul s (fsub x a))) <= bpow radix2 603) by (rewrite VP; apply rnd_abs_le; [lia | exact BP]).
  destruct (fadd_val (fmul s (fsub x a)) y FP (proj1 Uy)) as [FR VR].
  { apply below_1023 with 604%Z; [lia|]. apply Rle_trans with (1 := Rabs_triang _ _). change 604%Z with (1 + 603)%Z. rewrite (bpow_plus radix2 1 603). change (bpow radix2 1) with 2.
    assert (Rabs (val y) <= bpow radix2 603) by (apply Rle_trans with (1 := proj2 Uy); apply bpow_le; lia). lra. }
  exists (fadd (fmul s (fsub x a)) y), (val s).
  unfold finterpolate. rewrite NE. unfold pdiv. rewrite NZ. fold s. rewrite VS, VT, VD in *. rewrite VP, VX in VR. repeat split; try assumption.
Qed.

(** At the earlier fix the value is the earlier one, exactly. *)
Theorem C251_exact_at_start a b y y' : usual a -> usual b -> usual y -> usual y' ->
  (val b = val a \/ bpow radix2 (-200) <= val b - val a) ->
  exists r, finterpolate a a b y y' = Some r /\ fin r = true /\ val r = val y.
Proof.
  intros Ua Ub Uy Uy' [E|G].
  - exists y. unfold finterpolate. rewrite (proj2 (feq_val b a (proj1 Ub) (proj1 Ua)) E). split; [reflexivity|]. split; [apply Uy | reflexivity].
  - destruct (pieces a a b y y' Ua Ua Ub Uy Uy' G) as (r & s & H & F & _ & _ & _ & V). exists r. split; [exact H|]. split; [exact F|].
    rewrite V, Rminus_diag_eq, (rnd_id 0 fmt_0), Rmult_0_r, (rnd_id 0 fmt_0), Rplus_0_l by reflexivity. apply rnd_id, fmt_val.
Qed.

(** Between equal values there is only that value. *)
Theorem C251_constant x a b y y' : usual x -> usual a -> usual b -> usual y -> usual y' -> val y = val y' ->
  (val b = val a \/ bpow radix2 (-200) <= val b - val a) ->
  exists r, finterpolate x a b y y' = Some r /\ fin r = true /\ val r = val y.
Proof.
  intros Ux Ua Ub Uy Uy' C [E|G].
  - exists y. unfold finterpolate. rewrite (proj2 (feq_val b a (proj1 Ub) (proj1 Ua)) E). split; [reflexivity|]. split; [apply Uy | reflexivity].
  - destruct (pieces x a b y y' Ux Ua Ub Uy Uy' G) as (r & s & H & F & S & _ & _ & V). exists r. split; [exact H|]. split; [exact F|].
    assert (Z : s = 0) by (rewrite S, C, Rminus_diag_eq, (rnd_id 0 fmt_0) by reflexivity; unfold Rdiv; rewrite Rmult_0_l; apply rnd_id, fmt_0).
    rewrite V, Z, Rmult_0_l, (rnd_id 0 fmt_0), Rplus_0_l. apply rnd_id, fmt_val.
Qed.

(** A later query never gets a smaller value on a rising segment, nor a larger one on
    a falling one. *)
Theorem C251_monotone x x' a b y y' r r' : usual x -> usual x' -> usual a -> usual b -> usual y -> usual y' ->
  bpow radix2 (-200) <= val b - val a -> val x <= val x' ->
  finterpolate x a b y y' = Some r -> finterpolate x' a b y y' = Some r' ->
  (val y <= val y' -> val r <= val r') /\ (val y' <= val y -> val r' <= val r).
Proof.
  intros Ux Ux' Ua Ub Uy Uy' G L H H'.
  destruct (pieces x a b y y' Ux Ua Ub Uy Uy' G) as (r1 & s & H1 & _ & S & _ & GT & V). destruct (pieces x' a b y y' Ux' Ua Ub Uy Uy' G) as (r2 & s' & H2 & _ & S' & _ & _ & V').
  assert (r1 = r) by congruence. assert (r2 = r') by congruence. subst r1 r2. rewrite <- S in S'. subst s'. rewrite V, V'.
  assert (P0 : 0 < bpow radix2 (-200)) by apply bpow_gt_0.
  assert (LX : rnd (val x - val a) <= rnd (val x' - val a)) by (apply rnd_le; lra).
  assert (PI : 0 < / rnd (val b - val a)) by (apply Rinv_0_lt_compat; lra).
  split; intros O; apply rnd_le, Rplus_le_compat_r, rnd_le.
  - apply Rmult_le_compat_l; [|exact LX]. rewrite S, <- (rnd_id 0 fmt_0). apply rnd_le.
    assert (0 <= rnd (val y' - val y)) by (rewrite <- (rnd_id 0 fmt_0); apply rnd_le; lra). unfold Rdiv. apply Rmult_le_pos; lra.
  - apply Rmult_le_compat_neg_l; [|exact LX]. rewrite S, <- (rnd_id 0 fmt_0). apply rnd_le.
    assert (rnd (val y' - val y) <= 0) by (rewrite <- (rnd_id 0 fmt_0); apply rnd_le; lra). unfold Rdiv. nra.
Qed.

(** ** How far from the line *)
Lemma factor p e c : 0 <= c <= 16 -> Rabs (p - 1) <= c * u -> Rabs e <= u -> Rabs (p * (1 + e) - 1) <= (c + 1 + / 65536) * u.
Proof.
  intros C A B. pose proof u_small. pose proof u_pos. replace (p * (1 + e) - 1) with ((p - 1) + (p - 1) * e + e) by ring.
  apply Rle_trans with (Rabs (p - 1) + Rabs (p - 1) * Rabs e + Rabs e).
  { apply Rle_trans with (1 := Rabs_triang _ _). apply Rplus_le_compat_r. apply Rle_trans with (1 := Rabs_triang _ _). rewrite Rabs_mult. lra. }
  assert (Rabs (p - 1) * Rabs e <= (c * u) * u) by (apply Rmult_le_compat; try apply Rabs_pos; assumption).
  assert ((c * u) * u <= u * / 65536) by nra. lra.
Qed.

Lemma inverse e : Rabs e <= u -> Rabs (/ (1 + e) - 1) <= (1 + / 65536) * u /\ 1 + e <> 0.
Proof.
  intros A. pose proof u_small. pose proof u_pos. apply Rabs_le_inv in A. split; [|lra].
  replace (/ (1 + e) - 1) with (- e * / (1 + e)) by (field; lra). rewrite Rabs_mult, Rabs_Ropp.
  assert (Rabs e <= u) by (apply Rabs_le; lra).
  assert (Rabs (/ (1 + e)) <= 1 + / 65536).
  { rewrite Rabs_pos_eq by (apply Rlt_le, Rinv_0_lt_compat; lra). apply Rmult_le_reg_r with (1 + e); [lra|]. rewrite Rinv_l by lra. lra. }
  rewrite (Rmult_comm (1 + / 65536)). apply Rmult_le_compat; try apply Rabs_pos; assumption.
Qed.

Theorem C251_close x a b y y' r : usual x -> usual a -> usual b -> usual y -> usual y' ->
  bpow radix2 (-200) <= val b - val a -> val a <= val x <= val b -> finterpolate x a b y y' = Some r ->
  Rabs (val r - (val y + (val y' - val y) * ((val x - val a) / (val b - val a))))
    <= bpow radix2 (-50) * (Rabs (val y) + Rabs (val y')) + bpow radix2 (-800).
Proof.
  intros Ux Ua Ub Uy Uy' G B H. destruct (pieces x a b y y' Ux Ua Ub Uy Uy' G) as (r1 & s & H1 & _ & S & _ & GT & V).
  assert (r1 = r) by congruence. subst r1. clear H H1. pose proof u_small as US. pose proof u_pos as UP.
  assert (P0 : 0 < bpow radix2 (-200)) by apply bpow_gt_0.
  destruct (usual_sub x a Ux Ua) as (_ & VX & BX). rewrite VX in BX. clear VX.
  destruct (rnd_sub_ex (val y') (val y) (fmt_val _) (fmt_val _)) as (e1 & E1 & Q1).
  destruct (rnd_sub_ex (val b) (val a) (fmt_val _) (fmt_val _)) as (e2 & E2 & Q2).
  destruct (rnd_sub_ex (val x) (val a) (fmt_val _) (fmt_val _)) as (e3 & E3 & Q3).
  destruct (rnd_ex (rnd (val y' - val y) / rnd (val b - val a))) as (e4 & h4 & E4 & T4 & Q4). rewrite <- S in Q4.
  destruct (rnd_ex (s * rnd (val x - val a))) as (e5 & h5 & E5 & T5 & Q5).
  assert (FP : fmt (rnd (s * rnd (val x - val a)))) by (apply generic_format_round; [apply FLT_exp_valid; easy | apply valid_rnd_N]).
  destruct (rnd_add_ex _ (val y) FP (fmt_val _)) as (e6 & E6 & Q6). rewrite <- V in Q6.
  set (P := rnd (s * rnd (val x - val a))) in *. set (X := rnd (val x - val a)) in *.
  set (d := val y' - val y) in *. set (g := val b - val a) in *. set (w := (val x - val a) / g).
  assert (W : 0 <= w <= 1).
  { unfold w. split; [apply Rmult_le_pos; [lra | apply Rlt_le, Rinv_0_lt_compat; lra]|]. apply Rmult_le_reg_r with g; [lra|]. unfold Rdiv. rewrite Rmult_assoc, Rinv_l by lra. unfold g. lra. }
  assert (XW : val x - val a = w * g) by (unfold w; field; lra).
  destruct (inverse e2 E2) as [I2 N2].
  pose proof (factor _ e1 (1 + / 65536) ltac:(lra) I2 E1) as K1. pose proof (factor _ e3 ((1 + / 65536) + 1 + / 65536) ltac:(lra) K1 E3) as K2. pose proof (factor _ e4 (((1 + / 65536) + 1 + / 65536) + 1 + / 65536) ltac:(lra) K2 E4) as K3. pose proof (factor _ e5 ((((1 + / 65536) + 1 + / 65536) + 1 + / 65536) + 1 + / 65536) ltac:(lra) K3 E5) as K4.
  set (K := / (1 + e2) * (1 + e1) * (1 + e3) * (1 + e4) * (1 + e5)) in *.
  assert (QP : P - d * w = d * w * (K - 1) + (h4 * X * (1 + e5) + h5)).
  { rewrite Q5, Q4, Q1, Q2. unfold K. rewrite Q3, XW. field. split; [exact N2 | lra]. }
  assert (HT : Rabs (h4 * X * (1 + e5) + h5) <= bpow radix2 (-872) + tiny).
  { apply Rle_trans with (1 := Rabs_triang _ _). apply Rplus_le_compat; [|exact T5]. rewrite Rabs_mult.
    apply Rle_trans with (bpow radix2 (-874) * 2).
    - apply Rmult_le_compat; try apply Rabs_pos.
      + apply Rle_trans with (tiny * bpow radix2 201); [apply mul_le; assumption|]. unfold tiny. rewrite <- bpow_plus. apply bpow_le. lia.
      + apply Rabs_le. apply Rabs_le_inv in E5. lra.
    - rewrite Rmult_comm, <- dbl. apply bpow_le. lia. }
  assert (HT2 : bpow radix2 (-872) + tiny <= / 2 * bpow radix2 (-800)).
  { apply Rle_trans with (bpow radix2 (-872) * 2).
    - assert (tiny <= bpow radix2 (-872)) by (unfold tiny; apply bpow_le; lia). lra.
    - assert (bpow radix2 (1 + -871) <= bpow radix2 (-800)) as D1 by (apply bpow_le; lia). rewrite dbl in D1.
      assert (bpow radix2 (1 + -872) = bpow radix2 (-871)) as D2 by reflexivity. rewrite dbl in D2. pose proof (bpow_gt_0 radix2 (-872)). lra. }
  set (M := Rabs (val y) + Rabs (val y')). set (tau := bpow radix2 (-800)) in *. assert (TP : 0 < tau) by apply bpow_gt_0.
  assert (DM : Rabs d <= M) by (unfold d, M, Rminus; apply Rle_trans with (1 := Rabs_triang _ _); rewrite Rabs_Ropp; lra).
  assert (DW : Rabs (d * w) <= M). { rewrite Rabs_mult. assert (Rabs w <= 1) by (apply Rabs_le; lra). pose proof (Rabs_pos d). pose proof (Rabs_pos w). nra. }
  assert (MP : 0 <= M) by (pose proof (Rabs_pos (d * w)); lra).
  assert (YW : Rabs (val y + d * w) <= M).
  { replace (val y + d * w) with (val y * (1 - w) + val y' * w) by (unfold d; ring). apply Rle_trans with (1 := Rabs_triang _ _). rewrite !Rabs_mult.
    assert (Rabs w <= 1) by (apply Rabs_le; lra). assert (Rabs (1 - w) <= 1) by (apply Rabs_le; lra). unfold M. pose proof (Rabs_pos (val y)). pose proof (Rabs_pos (val y')). nra. }
  assert (EP : Rabs (P - d * w) <= (5 + / 4096) * u * M + / 2 * tau).
  { rewrite QP. apply Rle_trans with (1 := Rabs_triang _ _). apply Rplus_le_compat; [|lra]. rewrite Rabs_mult, Rmult_comm.
    apply Rmult_le_compat; try apply Rabs_pos; [|exact DW]. eapply Rle_trans; [exact K4|]. apply Rmult_le_compat_r; lra. }
  assert (Q : val r - (val y + d * w) = (P - d * w) + (P - d * w) * e6 + (val y + d * w) * e6) by (rewrite Q6; ring).
  rewrite Q. set (A := Rabs (P - d * w)) in *.
  apply Rle_trans with (A + A * u + M * u).
  { apply Rle_trans with (1 := Rabs_triang _ _). apply Rplus_le_compat; [apply Rle_trans with (1 := Rabs_triang _ _); apply Rplus_le_compat; [apply Rle_refl|]|].
    - apply mul_le; [apply Rle_refl | exact E6].
    - apply mul_le; [exact YW | exact E6]. }
  change (bpow radix2 (-50)) with (bpow radix2 (3 + -53)). rewrite bpow_plus. fold u. change (bpow radix2 3) with 8.
  assert (A0 : 0 <= A) by apply Rabs_pos. assert (A * u <= A * / 1048576) by (apply Rmult_le_compat_l; assumption).
  assert (0 <= u * M) by (apply Rmult_le_pos; lra). nra.
Qed.

(** in particular at the later fix *)
Theorem C251_close_at_end a b y y' r : usual a -> usual b -> usual y -> usual y' ->
  bpow radix2 (-200) <= val b - val a -> finterpolate b a b y y' = Some r ->
  Rabs (val r - val y') <= bpow radix2 (-50) * (Rabs (val y) + Rabs (val y')) + bpow radix2 (-800).
Proof.
  intros Ua Ub Uy Uy' G H. assert (P0 : 0 < bpow radix2 (-200)) by apply bpow_gt_0.
  pose proof (C251_close b a b y y' r Ub Ua Ub Uy Uy' G ltac:(lra) H) as C.
  replace (val y + (val y' - val y) * ((val b - val a) / (val b - val a))) with (val y') in C by (field; lra). exact C.
Qed.

(** * Headings *)
Theorem C251_yaw yaw : fin yaw = true -> -360 <= val yaw <= 720 ->
  fin (yaw_wrap yaw) = true /\ 0 <= val (yaw_wrap yaw) <= 360 /\
  exists k, (-1 <= k <= 1)%Z /\ Rabs (val (yaw_wrap yaw) - (val yaw + 360 * IZR k)) <= bpow radix2 (-44).
Proof.
  intros F B. destruct (of_int_val 360 ltac:(lia)) as [F3 V3]. destruct zero_val as [F0 V0].
  assert (I3 : fmt 360) by (apply (fmt_int 360); lia).
  assert (E0 : 0 <= bpow radix2 (-44)) by apply bpow_ge_0.
  unfold yaw_wrap. destruct (flt (of_int 360) yaw) eqn:H.
  - apply (flt_val _ _ F3 F) in H. rewrite V3 in H.
    assert (A : Rabs (val yaw - val (of_int 360)) <= bpow radix2 10) by (rewrite V3; change (bpow radix2 10) with 1024; apply rabs_le'; lra).
    destruct (fsub_val yaw (of_int 360) F F3) as [Fs Vs]; [apply below_1023 with 10%Z; [lia | exact A]|]. rewrite V3 in *.
    assert (P : 0 <= val (fsub yaw (of_int 360)) <= 360).
    { rewrite Vs. split; [rewrite <- (rnd_id 0 fmt_0); apply rnd_le; lra | apply Rle_trans with (rnd 360); [apply rnd_le; lra | rewrite (rnd_id 360 I3); lra]]. }
    cbv zeta. destruct (flt (fsub yaw (of_int 360)) (of_int 0)) eqn:H2; [apply (flt_val _ _ Fs F0) in H2; lra|].
    split; [exact Fs|]. split; [exact P|]. exists (-1)%Z. split; [lia|]. rewrite Vs.
    replace (val yaw + 360 * IZR (-1)) with (val yaw - 360) by lra. apply (rnd_err _ 10); [lia | exact A].
  - assert (H1 : val yaw <= 360). { destruct (Rle_or_lt (val yaw) 360) as [l|l]; [exact l|]. rewrite <- V3 in l. apply (flt_val _ _ F3 F) in l. congruence. }
    cbv zeta. destruct (flt yaw (of_int 0)) eqn:H2.
    + apply (flt_val _ _ F F0) in H2. rewrite V0 in H2.
      assert (A : Rabs (val yaw + val (of_int 360)) <= bpow radix2 10) by (rewrite V3; change (bpow radix2 10) with 1024; apply rabs_le'; lra).
      destruct (fadd_val yaw (of_int 360) F F3) as [Fs Vs]; [apply below_1023 with 10%Z; [lia | exact A]|]. rewrite V3 in *.
      split; [exact Fs|]. split.
      { rewrite Vs. split; [rewrite <- (rnd_id 0 fmt_0); apply rnd_le; lra | apply Rle_trans with (rnd 360); [apply rnd_le; lra | rewrite (rnd_id 360 I3); lra]]. }
      exists 1%Z. split; [lia|]. rewrite Vs. replace (val yaw + 360 * 1) with (val yaw + 360) by lra. apply (rnd_err _ 10); [lia | exact A].
    + assert (H3 : 0 <= val yaw). { destruct (Rle_or_lt 0 (val yaw)) as [l|l]; [exact l|]. rewrite <- V0 in l. apply (flt_val _ _ F F0) in l. congruence. }
      split; [exact F|]. split; [lra|]. exists 0%Z. split; [lia|]. replace (val yaw - (val yaw + 360 * 0)) with 0 by ring. rewrite Rabs_R0. exact E0.
Qed.

(** * Dead reckoning *)

(** What is computed without rounding: trapezoids between consecutive fixes. *)
Fixpoint steps (l : list (R * R)) : list R :=
  match l with
  | p :: (q :: _) as m => (fst q - fst p) * (snd p + snd q) / 2 :: steps m
  | _ => []
  end.
Fixpoint total (l : list R) : R := match l with [] => 0 | s :: m => s + total m end.
Fixpoint travelled (l : list R) : R := match l with [] => 0 | s :: m => Rabs s + travelled m end.

Definition fix_ok (f : b64 * b64) : Prop :=
  fin (fst f) = true /\ Rabs (val (fst f)) <= bpow radix2 100 /\ fin (snd f) = true /\ Rabs (val (snd f)) <= bpow radix2 100.
Definition fix_val (f : b64 * b64) : R * R := (val (fst f), val (snd f)).

Lemma two_val : fin (of_int 2) = true /\ val (of_int 2) = 2.
Proof. exact (of_int_val 2 ltac:(lia)). Qed.

Lemma one_step t v t' v' : fix_ok (t, v) -> fix_ok (t', v') ->
  let p := fdiv (fmul (fsub t' t) (fadd v v')) (of_int 2) in
  let s := (val t' - val t) * (val v + val v') / 2 in
  fin p = true /\ Rabs s <= bpow radix2 202 /\ Rabs (val p - s) <= 5 * u * Rabs s + 2 * tiny.
Proof.
  intros (Ft & Bt & Fv & Bv) (Ft' & Bt' & Fv' & Bv') p s. cbn [fst snd] in *.
  pose proof u_small as US. pose proof u_pos as UP. pose proof tiny_pos as TP.
  assert (D : bpow radix2 101 = 2 * bpow radix2 100) by exact (dbl 100).
  assert (B1 : Rabs (val t' - val t) <= bpow radix2 101) by (unfold Rminus; apply Rle_trans with (1 := Rabs_triang _ _); rewrite Rabs_Ropp; lra).
  assert (B2 : Rabs (val v + val v') <= bpow radix2 101) by (apply Rle_trans with (1 := Rabs_triang _ _); lra).
  destruct (fsub_val t' t Ft' Ft) as [Fd Vd]; [apply below_1023 with 101%Z; [lia | exact B1]|].
  destruct (fadd_val v v' Fv Fv') as [Fw Vw]; [apply below_1023 with 101%Z; [lia | exact B2]|].
  assert (B3 : Rabs (val (fsub t' t) * val (fadd v v')) <= bpow radix2 202).
  { change 202%Z with (101 + 101)%Z. rewrite bpow_plus, Vd, Vw. apply mul_le; apply rnd_abs_le; (lia || assumption). }
  destruct (fmul_val _ _ Fd Fw) as [Fm Vm]; [apply below_1023 with 202%Z; [lia | exact B3]|].
  destruct two_val as [F2 V2].
  assert (B4 : Rabs (val (fmul (fsub t' t) (fadd v v')) / val (of_int 2)) <= bpow radix2 202).
  { rewrite V2. unfold Rdiv. rewrite Rabs_mult. assert (Rabs (/ 2) <= 1) by (apply Rabs_le; lra).
    assert (Rabs (val (fmul (fsub t' t) (fadd v v'))) <= bpow radix2 202) by (rewrite Vm; apply rnd_abs_le; [lia | exact B3]).
    pose proof (Rabs_pos (val (fmul (fsub t' t) (fadd v v')))). pose proof (Rabs_pos (/ 2)). nra. }
  destruct (fdiv_val (fmul (fsub t' t) (fadd v v')) (of_int 2) Fm) as [Fp Vp]; [rewrite V2; lra | apply below_1023 with 202%Z; [lia | exact B4]|].
  fold p in Fp, Vp. split; [exact Fp|]. split.
  { unfold s, Rdiv. rewrite Rabs_mult. assert (Rabs (/ 2) <= 1) by (apply Rabs_le; lra).
    assert (Rabs ((val t' - val t) * (val v + val v')) <= bpow radix2 202) by (change 202%Z with (101 + 101)%Z; rewrite bpow_plus; apply mul_le; assumption).
    pose proof (Rabs_pos ((val t' - val t) * (val v + val v'))). pose proof (Rabs_pos (/ 2)). nra. }
  rewrite V2 in Vp.
  destruct (rnd_sub_ex (val t') (val t) (fmt_val _) (fmt_val _)) as (e1 & E1 & Q1). rewrite <- Vd in Q1.
  destruct (rnd_add_ex (val v) (val v') (fmt_val _) (fmt_val _)) as (e2 & E2 & Q2). rewrite <- Vw in Q2.
  destruct (rnd_ex (val (fsub t' t) * val (fadd v v'))) as (e3 & h3 & E3 & T3 & Q3). rewrite <- Vm in Q3.
  destruct (rnd_ex (val (fmul (fsub t' t) (fadd v v')) / 2)) as (e4 & h4 & E4 & T4 & Q4). rewrite <- Vp in Q4.
  assert (K0 : Rabs ((1 + e1) - 1) <= 1 * u) by (replace (1 + e1 - 1) with e1 by ring; lra).
  pose proof (factor _ e2 1 ltac:(lra) K0 E2) as K1. pose proof (factor _ e3 (1 + 1 + / 65536) ltac:(lra) K1 E3) as K2.
  pose proof (factor _ e4 (1 + 1 + / 65536 + 1 + / 65536) ltac:(lra) K2 E4) as K3.
  set (K := (1 + e1) * (1 + e2) * (1 + e3) * (1 + e4)) in *.
  assert (Q : val p - s = s * (K - 1) + (h3 * / 2 * (1 + e4) + h4)) by (rewrite Q4, Q3, Q1, Q2; unfold K, s; field).
  rewrite Q. apply Rle_trans with (1 := Rabs_triang _ _). apply Rplus_le_compat.
  - rewrite Rabs_mult, Rmult_comm. apply Rmult_le_compat_r; [apply Rabs_pos|]. eapply Rle_trans; [exact K3|]. apply Rmult_le_compat_r; lra.
  - apply Rle_trans with (1 := Rabs_triang _ _). rewrite Rabs_mult.
    assert (Rabs (h3 * / 2) <= tiny * / 2) by (apply mul_le; [exact T3 | apply Rabs_le; lra]).
    assert (Rabs (1 + e4) <= 2) by (apply Rabs_le; apply Rabs_le_inv in E4; lra).
    assert (Rabs (h3 * / 2) * Rabs (1 + e4) <= tiny * / 2 * 2) by (apply Rmult_le_compat; try apply Rabs_pos; assumption). lra.
Qed.

Lemma total_travelled l : Rabs (total l) <= travelled l.
Proof. induction l as [|s m IH]; cbn; [rewrite Rabs_R0; lra|]. apply Rle_trans with (1 := Rabs_triang _ _). lra. Qed.
Lemma travelled_nonneg l : 0 <= travelled l.
Proof. induction l as [|s m IH]; cbn; [lra|]. pose proof (Rabs_pos s). lra. Qed.

Definition near (i : nat) (pos : b64) (X A : R) : Prop :=
  fin pos = true /\ Rabs X <= A /\ A <= INR i * bpow radix2 202 /\
  Rabs (val pos - X) <= 2 * u * (INR i + 4) * A + INR i * (8 * tiny).

Lemma near_step i t v t' v' pos X A : (Z.of_nat i < 2 ^ 50)%Z -> fix_ok (t, v) -> fix_ok (t', v') -> near i pos X A ->
  let s := (val t' - val t) * (val v + val v') / 2 in near (S i) (dr_step t' t v' v pos) (X + s) (A + Rabs s).
Proof.
  intros I O O' (Fp & BX & BA & E) s. destruct (one_step t v t' v' O O') as (Fs & Bs & Es). fold s in Bs, Es.
  set (p := fdiv (fmul (fsub t' t) (fadd v v')) (of_int 2)) in *.
  pose proof u_small as US. pose proof u_pos as UP. pose proof tiny_pos as TP. pose proof (Rabs_pos s) as SP. pose proof (Rabs_pos X) as XP.
  assert (TB : tiny <= 1) by (unfold tiny; change 1 with (bpow radix2 0); apply bpow_le; lia).
  assert (J0 : 0 <= INR i) by apply pos_INR.
  assert (J1 : INR i + 1 <= bpow radix2 50).
  { rewrite INR_IZR_INZ. change (bpow radix2 50) with (IZR (2 ^ 50)). change 1 with (IZR 1). rewrite <- plus_IZR. apply IZR_le. lia. }
  assert (J2 : 2 * u * (INR i + 4) <= 1).
  { apply Rle_trans with (2 * u * (4 * bpow radix2 50)); [apply Rmult_le_compat_l; lra|]. unfold u.
    replace (2 * bpow radix2 (-53) * (4 * bpow radix2 50)) with (8 * (bpow radix2 (-53) * bpow radix2 50)) by ring. rewrite <- bpow_plus. change (bpow radix2 (-53 + 50)) with (/ 8). lra. }
  assert (P2 : 1 <= bpow radix2 202) by (change 1 with (bpow radix2 0); apply bpow_le; lia).
  assert (AP : 0 <= A) by lra.
  assert (BIG : 16 * ((INR i + 1) * bpow radix2 202) <= bpow radix2 256).
  { apply Rle_trans with (16 * (bpow radix2 50 * bpow radix2 202)).
    - apply Rmult_le_compat_l; [lra|]. apply Rmult_le_compat_r; lra.
    - change 16 with (bpow radix2 4). rewrite <- !bpow_plus. apply bpow_le. lia. }
  assert (EP : Rabs (val pos) <= 2 * A + 8 * INR i).
  { replace (val pos) with ((val pos - X) + X) by ring. apply Rle_trans with (1 := Rabs_triang _ _). assert (2 * u * (INR i + 4) * A <= 1 * A) by (apply Rmult_le_compat_r; lra).
    assert (INR i * (8 * tiny) <= INR i * 8) by (apply Rmult_le_compat_l; lra). lra. }
  assert (PP : Rabs (val p) <= 2 * Rabs s + 2).
  { replace (val p) with ((val p - s) + s) by ring. apply Rle_trans with (1 := Rabs_triang _ _). assert (5 * u * Rabs s <= 1 * Rabs s) by (apply Rmult_le_compat_r; lra). lra. }
  assert (BS : Rabs (val p + val pos) <= bpow radix2 256).
  { apply Rle_trans with (1 := Rabs_triang _ _). assert (INR i * 1 <= INR i * bpow radix2 202) by (apply Rmult_le_compat_l; lra). lra. }
  destruct (fadd_val p pos Fs Fp) as [Fr Vr]; [apply below_1023 with 256%Z; [lia | exact BS]|].
  change (dr_step t' t v' v pos) with (fadd p pos). unfold near. split; [exact Fr|]. split.
  { apply Rle_trans with (1 := Rabs_triang _ _). lra. }
  split. { rewrite S_INR. lra. }
  rewrite Vr. destruct (rnd_add_ex (val p) (val pos) (fmt_val _) (fmt_val _)) as (e & E6 & Q). rewrite Q.
  set (a := Rabs (val pos - X)) in *. set (b := Rabs (val p - s)) in *.
  assert (Z1 : Rabs ((val p + val pos) * (1 + e) - (X + s)) <= (a + b) + (a + b) * u + (A + Rabs s) * u).
  { replace ((val p + val pos) * (1 + e) - (X + s)) with (((val pos - X) + (val p - s)) + ((val pos - X) + (val p - s)) * e + (X + s) * e) by ring.
    assert (AB : Rabs ((val pos - X) + (val p - s)) <= a + b) by apply Rabs_triang.
    apply Rle_trans with (1 := Rabs_triang _ _). apply Rplus_le_compat; [apply Rle_trans with (1 := Rabs_triang _ _); apply Rplus_le_compat; [exact AB|]|].
    - apply mul_le; [exact AB | exact E6].
    - apply mul_le; [apply Rle_trans with (1 := Rabs_triang _ _); lra | exact E6]. }
  apply Rle_trans with (1 := Z1). rewrite S_INR.
  assert (ap : 0 <= a) by apply Rabs_pos. assert (bp : 0 <= b) by apply Rabs_pos.
  set (n := INR i) in *. set (c := Rabs s) in *.
  assert (W1 : a * u <= (1 * A + n * (8 * tiny)) * u).
  { apply Rmult_le_compat_r; [lra|]. apply Rle_trans with (1 := E). apply Rplus_le_compat_r. apply Rmult_le_compat_r; lra. }
  assert (W2 : b * u <= b * / 1048576) by (apply Rmult_le_compat_l; lra).
  assert (W3 : n * u <= / 4). { assert (2 * u * (n + 4) = 2 * (n * u) + 8 * u) by ring. assert ((n + 1) * u <= bpow radix2 50 * u) by (apply Rmult_le_compat_r; lra).
    unfold u in H0 at 2. rewrite <- bpow_plus in H0. change (bpow radix2 (50 + -53)) with (/ 8) in H0. lra. }
  assert (W4 : n * (8 * tiny) * u <= 2 * tiny). { replace (n * (8 * tiny) * u) with ((n * u) * (8 * tiny)) by ring. apply Rle_trans with (/ 4 * (8 * tiny)); [apply Rmult_le_compat_r; lra | lra]. }
  assert (W5 : 0 <= n * (u * c)) by (apply Rmult_le_pos; [exact J0 | apply Rmult_le_pos; lra]).
  assert (W6 : 0 <= u * A) by (apply Rmult_le_pos; lra). assert (W7 : 0 <= u * c) by (apply Rmult_le_pos; lra).
  replace (2 * u * (n + 1 + 4) * (A + c)) with (2 * u * (n + 4) * A + 2 * (u * A) + 2 * (n * (u * c)) + 10 * (u * c)) by ring.
  replace ((A + c) * u) with (u * A + u * c) by ring. replace ((1 * A + n * (8 * tiny)) * u) with (u * A + n * (8 * tiny) * u) in W1 by ring.
  replace (5 * u * c) with (5 * (u * c)) in Es by ring. lra.
Qed.

Lemma near_from l : forall i t v pos X A, (Z.of_nat (i + length l) < 2 ^ 50)%Z -> fix_ok (t, v) -> (forall f, In f l -> fix_ok f) -> near i pos X A ->
  forall k p, nth_error (dr_from t v pos l) k = Some p ->
  let st := firstn (S k) (steps (map fix_val ((t, v) :: l))) in near (i + S k) p (X + total st) (A + travelled st).
Proof.
  induction l as [|[t' v'] m IH]; intros i t v pos X A I O Ol N k p H; cbn [dr_from] in H; [destruct k; discriminate|].
  pose proof (near_step i t v t' v' pos X A) as NS. cbn [length] in I.
  specialize (NS ltac:(lia) O (Ol _ (or_introl eq_refl)) N). cbv zeta in NS.
  destruct k as [|k]; cbn [nth_error] in H.
  - injection H as <-. cbn. replace (i + 1)%nat with (S i) by lia.
    rewrite !Rplus_0_r. exact NS.
  - specialize (IH (S i) t' v' _ _ _ ltac:(lia) (Ol _ (or_introl eq_refl)) (fun f Hf => Ol f (or_intror Hf)) NS k p H). cbv zeta in IH |- *.
    replace (i + S (S k))%nat with (S i + S k)%nat by lia.
    change (steps (map fix_val ((t, v) :: (t', v') :: m))) with ((val t' - val t) * (val v + val v') / 2 :: steps (map fix_val ((t', v') :: m))).
    rewrite firstn_cons. cbn [total travelled]. rewrite <- !Rplus_assoc. exact IH.
Qed.

(** Every position is a finite number within (k + 4) * 2^-52 of the distance travelled
    so far from the exact trapezoidal sum. *)
Theorem C251_dead_reckoning fixes k p : (Z.of_nat (length fixes) < 2 ^ 50)%Z -> (forall f, In f fixes -> fix_ok f) ->
  nth_error (dr_track fixes) k = Some p ->
  let st := firstn k (steps (map fix_val fixes)) in
  fin p = true /\
  Rabs (val p - total st) <= (INR k + 4) * bpow radix2 (-52) * travelled st + INR k * bpow radix2 (-1072).
Proof.
  intros L O H st. destruct fixes as [|[t v] m]; [destruct k; discriminate|]. cbn [dr_track] in H. destruct zero_val as [F0 V0].
  assert (U2 : bpow radix2 (-52) = 2 * u) by exact (dbl (-53)).
  assert (T2 : bpow radix2 (-1072) = 8 * tiny). { change (-1072)%Z with (3 + -1075)%Z. rewrite bpow_plus. reflexivity. }
  rewrite U2, T2. destruct k as [|k]; cbn [nth_error] in H.
  - assert (p = of_int 0) by congruence. subst p. split; [exact F0|]. unfold st. cbn [firstn total travelled INR]. rewrite V0, Rminus_diag_eq, Rabs_R0 by reflexivity. lra.
  - assert (N0 : near 0 (of_int 0) 0 0).
    { split; [exact F0|]. rewrite (proj2 zero_val), Rminus_diag_eq, Rabs_R0 by reflexivity. cbn [INR]. lra. }
    pose proof (near_from m 0 t v (of_int 0) 0 0 ltac:(cbn [length] in L; lia) (O _ (or_introl eq_refl)) (fun f Hf => O f (or_intror Hf)) N0 k p H) as (F & _ & _ & E).
    fold st in E. split; [exact F|]. rewrite !Rplus_0_l in E. change (0 + S k)%nat with (S k) in E.
    replace ((INR (S k) + 4) * (2 * u) * travelled st) with (2 * u * (INR (S k) + 4) * travelled st) by ring. exact E.
Qed.

Theorem C251_every_fix fixes : length (dr_track fixes) = length fixes.
Proof.
  destruct fixes as [|[t v] m]; [reflexivity|]. cbn [dr_track length]. f_equal. generalize (of_int 0). revert t v.
  induction m as [|[t' v'] m IH]; intros t v pos; [reflexivity|]. cbn [dr_from length]. f_equal. apply IH.
Qed.

(** * Depth layers *)

Theorem C251_layer_outside min_z max_z n z : (1 <= n <= 2 ^ 20)%Z -> fin min_z = true -> fin max_z = true -> fin z = true ->
  (val z < val min_z \/ val max_z <= val z) -> layer_of min_z max_z n z = Outside.
Proof.
  intros Bn F1 F2 F3 H. unfold layer_of, pdiv. destruct (of_int_val n ltac:(lia)) as [Fn Vn].
  destruct (feq (of_int n) (of_int 0)) eqn:E.
  { apply (feq_val _ _ Fn (proj1 zero_val)) in E. rewrite Vn, (proj2 zero_val) in E. apply eq_IZR in E. lia. }
  destruct (fle min_z z) eqn:E1; [|reflexivity]. apply (fle_val _ _ F1 F3) in E1.
  destruct (flt z max_z) eqn:E2; [|reflexivity]. apply (flt_val _ _ F3 F2) in E2. lra.
Qed.

(** A point not in the topmost 2^-50 of the range has a layer, and the right one up to
    rounding at the borders. *)
Theorem C251_layer min_z max_z n z : (1 <= n <= 2 ^ 20)%Z -> usual min_z -> usual max_z -> usual z ->
  bpow radix2 (-200) <= val max_z - val min_z ->
  val min_z <= val z -> val z <= val max_z - (val max_z - val min_z) * bpow radix2 (-50) ->
  exists i, layer_of min_z max_z n z = Layer i /\ (0 <= i < n)%Z /\
    let e := (val z - val min_z) / ((val max_z - val min_z) / IZR n) in e - 1 - / 1048576 < IZR i <= e + / 1048576.
Proof.
  intros Bn U1 U2 U3 G L H. pose proof u_small as US. pose proof u_pos as UP. pose proof tiny_pos as TP.
  assert (P0 : 0 < bpow radix2 (-200)) by apply bpow_gt_0.
  destruct (of_int_val n ltac:(lia)) as [Fn Vn]. assert (N1 : 1 <= IZR n) by (apply IZR_le; lia). assert (N2 : IZR n <= 1048576) by (apply IZR_le; lia).
  destruct (usual_sub max_z min_z U2 U1) as (Fg & Vg & Bg). destruct (usual_sub z min_z U3 U1) as (Fz & Vz & Bz).
  set (g := val max_z - val min_z) in *.
  assert (Gg : bpow radix2 (-200) <= val (fsub max_z min_z)).
  { rewrite Vg, <- (rnd_id (bpow radix2 (-200))) by (apply fmt_bpow; lia). apply rnd_le, G. }
  assert (S1 : bpow radix2 (-221) <= val (fsub max_z min_z) / IZR n).
  { assert (D : bpow radix2 (-221) <= bpow radix2 (-200) * / 1048576). { change (/ 1048576) with (bpow radix2 (-20)). rewrite <- bpow_plus. apply bpow_le. lia. }
    apply Rle_trans with (1 := D). unfold Rdiv. apply Rmult_le_compat; [lra | lra | exact Gg | apply Rinv_le; lra]. }
  assert (P1 : 0 < bpow radix2 (-221)) by apply bpow_gt_0.
  assert (S2 : Rabs (val (fsub max_z min_z) / IZR n) <= bpow radix2 201).
  { unfold Rdiv. rewrite Rabs_mult. assert (Rabs (/ IZR n) <= 1). { rewrite Rabs_pos_eq by (apply Rlt_le, Rinv_0_lt_compat; lra). rewrite <- Rinv_1. apply Rinv_le; lra. }
    pose proof (Rabs_pos (val (fsub max_z min_z))). pose proof (Rabs_pos (/ IZR n)). nra. }
  destruct (fdiv_val (fsub max_z min_z) (of_int n) Fg) as [Fs Vs]; [rewrite Vn; lra | rewrite Vn; apply below_1023 with 201%Z; [lia | exact S2]|]. rewrite Vn in Vs.
  set (size := fdiv (fsub max_z min_z) (of_int n)) in *.
  assert (S3 : bpow radix2 (-221) <= val size) by (rewrite Vs, <- (rnd_id (bpow radix2 (-221))) by (apply fmt_bpow; lia); apply rnd_le, S1).
  assert (Q1 : Rabs (val (fsub z min_z) / val size) <= bpow radix2 422).
  { unfold Rdiv. change 422%Z with (201 + 221)%Z. rewrite bpow_plus. apply mul_le; [exact Bz|]. rewrite Rabs_pos_eq by (apply Rlt_le, Rinv_0_lt_compat; lra).
    apply Rle_trans with (/ bpow radix2 (-221)); [apply Rinv_le; lra|]. rewrite <- bpow_opp. apply bpow_le. lia. }
  destruct (fdiv_val (fsub z min_z) size Fz) as [Fq Vq]; [lra | apply below_1023 with 422%Z; [lia | exact Q1]|].
  set (q := fdiv (fsub z min_z) size) in *.
  destruct (rnd_sub_ex (val max_z) (val min_z) (fmt_val _) (fmt_val _)) as (e1 & E1 & R1). fold g in R1. rewrite <- Vg in R1.
  destruct (rnd_ex_normal (val (fsub max_z min_z) / IZR n)) as (e2 & E2 & R2). { rewrite Rabs_pos_eq by lra. apply Rle_trans with (2 := S1). apply bpow_le. lia. }
  rewrite <- Vs in R2.
  destruct (rnd_sub_ex (val z) (val min_z) (fmt_val _) (fmt_val _)) as (e3 & E3 & R3). rewrite <- Vz in R3.
  destruct (rnd_ex (val (fsub z min_z) / val size)) as (e4 & h4 & E4 & T4 & R4). rewrite <- Vq in R4.
  destruct (inverse e1 E1) as [I1 M1]. destruct (inverse e2 E2) as [I2 M2].
  set (e := (val z - val min_z) / (g / IZR n)) in *.
  (* /(1+e2) as a factor *)
  assert (I2' : Rabs (/ (1 + e2) - 1) <= 2 * u) by (apply Rle_trans with (1 := I2); apply Rmult_le_compat_r; lra).
  assert (K1 : Rabs (/ (1 + e1) * / (1 + e2) - 1) <= 4 * u).
  { replace (/ (1 + e1) * / (1 + e2) - 1) with ((/ (1 + e1) - 1) + (/ (1 + e2) - 1) + (/ (1 + e1) - 1) * (/ (1 + e2) - 1)) by ring.
    apply Rle_trans with (1 := Rabs_triang _ _). apply Rle_trans with ((1 + / 65536) * u + (1 + / 65536) * u + (2 * u) * (2 * u)).
    - apply Rplus_le_compat; [apply Rle_trans with (1 := Rabs_triang _ _); lra|]. apply mul_le; [|exact I2']. apply Rle_trans with (1 := I1). apply Rmult_le_compat_r; lra.
    - assert (u * u <= u * / 1048576) by (apply Rmult_le_compat_l; lra). nra. }
  pose proof (factor _ e3 4 ltac:(lra) K1 E3) as K2. pose proof (factor _ e4 (4 + 1 + / 65536) ltac:(lra) K2 E4) as K3.
  set (K := / (1 + e1) * / (1 + e2) * (1 + e3) * (1 + e4)) in *.
  assert (QE : val q = e * K + h4).
  { rewrite R4, R3, R2, R1. unfold K, e. field. repeat split; try assumption; lra. }
  assert (EB : 0 <= e <= IZR n * (1 - 8 * u)).
  { assert (G8 : bpow radix2 (-50) = 8 * u) by (change (-50)%Z with (3 + -53)%Z; rewrite bpow_plus; reflexivity). rewrite G8 in H.
    assert (e = IZR n * ((val z - val min_z) / g)) as EE by (unfold e; field; lra).
    assert (W : 0 <= (val z - val min_z) / g <= 1 - 8 * u).
    { split; [apply Rmult_le_pos; [lra | apply Rlt_le, Rinv_0_lt_compat; lra]|]. apply Rmult_le_reg_r with g; [lra|]. unfold Rdiv. rewrite Rmult_assoc, Rinv_l by lra. unfold g in *. lra. }
    rewrite EE. split; [apply Rmult_le_pos; lra | apply Rmult_le_compat_l; lra]. }
  assert (K4 : Rabs (K - 1) <= 7 * u) by (eapply Rle_trans; [exact K3|]; apply Rmult_le_compat_r; lra).
  assert (UT : tiny <= u / 1048576). { unfold tiny, u, Rdiv. change (/ 1048576) with (bpow radix2 (-20)). rewrite <- bpow_plus. apply bpow_le. lia. }
  apply Rabs_le_inv in K4. apply Rabs_le_inv in T4.
  assert (NU : 0 <= IZR n * u) by (apply Rmult_le_pos; lra). assert (NU1 : u <= IZR n * u) by nra.
  assert (EU : e <= IZR n) by nra.
  assert (QL : val q < IZR n).
  { rewrite QE. assert (e * K <= e * (1 + 7 * u)) by (apply Rmult_le_compat_l; lra). assert (e * (1 + 7 * u) <= IZR n * (1 - 8 * u) * (1 + 7 * u)) by (apply Rmult_le_compat_r; lra).
    assert (IZR n * (1 - 8 * u) * (1 + 7 * u) = IZR n - IZR n * u - 56 * (IZR n * u) * u) as X by ring. assert (0 <= IZR n * u * u) by (apply Rmult_le_pos; lra). lra. }
  assert (QP : 0 <= val q). { rewrite Vq, <- (rnd_id 0 fmt_0). apply rnd_le. rewrite Vz. assert (0 <= rnd (val z - val min_z)) by (rewrite <- (rnd_id 0 fmt_0); apply rnd_le; lra).
    unfold Rdiv. apply Rmult_le_pos; [assumption | apply Rlt_le, Rinv_0_lt_compat; lra]. }
  assert (QD : e - / 1048576 <= val q <= e + / 1048576).
  { assert (U53 : 8 * (1048576 * u) <= / 1048576). { unfold u. change 1048576 with (bpow radix2 20) at 1. change 8 with (bpow radix2 3). change (/ 1048576) with (bpow radix2 (-20)). rewrite <- !bpow_plus. apply bpow_le. lia. }
    assert (IZR n * u <= 1048576 * u) by (apply Rmult_le_compat_r; lra). rewrite QE. replace (e * K) with (e + e * (K - 1)) by ring.
    assert (e * (K - 1) <= e * (7 * u)) by (apply Rmult_le_compat_l; lra). assert (e * - (7 * u) <= e * (K - 1)) by (apply Rmult_le_compat_l; lra).
    assert (e * (7 * u) <= IZR n * (7 * u)) by (apply Rmult_le_compat_r; lra). lra. }
  unfold layer_of, pdiv.
  destruct (feq (of_int n) (of_int 0)) eqn:Z0. { apply (feq_val _ _ Fn (proj1 zero_val)) in Z0. rewrite Vn, (proj2 zero_val) in Z0. lra. }
  fold size. rewrite (proj2 (fle_val min_z z (proj1 U1) (proj1 U3)) L).
  assert (ZM : val z < val max_z). { pose proof (bpow_gt_0 radix2 (-50)). assert (0 < g * bpow radix2 (-50)) by (apply Rmult_lt_0_compat; lra). unfold g in *. lra. }
  rewrite (proj2 (flt_val z max_z (proj1 U3) (proj1 U2)) ZM). cbn [andb].
  destruct (feq size (of_int 0)) eqn:Z1. { apply (feq_val _ _ Fs (proj1 zero_val)) in Z1. rewrite (proj2 zero_val) in Z1. lra. }
  fold q. rewrite (fl_floor_val q Fq). exists (Zfloor (val q)).
  assert (FL : (Zfloor (val q) < n)%Z) by (apply lt_IZR; apply Rle_lt_trans with (val q); [apply Zfloor_lb | exact QL]).
  rewrite (proj2 (Z.ltb_lt _ _) FL). split; [reflexivity|]. split; [split; [apply Zfloor_lub; exact QP | exact FL]|]. cbv zeta.
  pose proof (Zfloor_lb (val q)). pose proof (Zfloor_ub (val q)). lra.
Qed.

(** Values. *)
Example C251_interp_ex : match finterpolate (of_int 3) (of_int 1) (of_int 5) (of_int 10) (of_int 20) with Some r => feq r (of_int 15) | None => false end = true.
Proof. vm_compute. reflexivity. Qed.
Example C251_equal_times_ex : match finterpolate (of_int 3) (of_int 1) (of_int 1) (of_int 10) (of_int 20) with Some r => feq r (of_int 10) | None => false end = true.
Proof. vm_compute. reflexivity. Qed.
Example C251_usual_ex : usual (of_int 5).
Proof. destruct (of_int_val 5 ltac:(lia)) as [F V]. split; [exact F|]. rewrite V. apply Rle_trans with (bpow radix2 3); [apply rabs_le'; change (bpow radix2 3) with 8; lra | apply bpow_le; lia]. Qed.
Example C251_yaw_ex : feq (yaw_wrap (of_int 361)) (of_int 1) = true /\ feq (yaw_wrap (of_int (-90))) (of_int 270) = true /\ feq (yaw_wrap (of_int 360)) (of_int 360) = true.
Proof. vm_compute. repeat split; reflexivity. Qed.
Example C251_dr_ex : match dr_track [(of_int 0, of_int 1); (of_int 2, of_int 3); (of_int 3, of_int (-3))] with
  [a; b; c] => feq a (of_int 0) && feq b (of_int 4) && feq c (of_int 4) | _ => false end = true.
Proof. vm_compute. reflexivity. Qed.
Example C251_layer_ex : layer_of (of_int 1) (of_int 15) 5 (of_int 10) = Layer 3 /\ layer_of (of_int 1) (of_int 15) 5 (of_int 1) = Layer 0 /\ layer_of (of_int 1) (of_int 15) 5 (of_int 15) = Outside.
Proof. vm_compute. repeat split; reflexivity. Qed.

(** * C252 *)

(** A z just below max_z falls outside the list of layers: IndexError. *)
Theorem C252_layer_refuted : exists z, flt z (of_int 15) = true /\ fle (of_int 1) z = true /\ layer_of (of_int 1) (of_int 15) 5 z = Index_error.
Proof. exists (Bpred (of_int 15)). vm_compute. repeat split; reflexivity. Qed.

(** At the later fix the value is not the later one, but a little above it. *)
Theorem C252_end_refuted : exists a b y y' r, flt a b = true /\ flt y y' = true /\ finterpolate b a b y y' = Some r /\ flt y' r = true.
Proof.
  set (a := of_int 50). set (b := of_int 64). set (y := fdiv (of_int (-76)) (of_int 10)). set (y' := fdiv (of_int 24) (of_int 10)).
  assert (H : match finterpolate b a b y y' with Some r => flt y' r | None => false end = true) by (vm_compute; reflexivity).
  exists a, b, y, y'. destruct (finterpolate b a b y y') as [r|]; [exists r | discriminate H].
  split; [vm_compute; reflexivity|]. split; [vm_compute; reflexivity|]. split; [reflexivity | exact H].
Qed.

(** A heading an instant west of north becomes 360, not something below. *)
Theorem C252_yaw_refuted : exists yaw, flt yaw (of_int 0) = true /\ feq (yaw_wrap yaw) (of_int 360) = true.
Proof. exists (fdiv (of_int (-1)) (of_int 1000000000000000000)). vm_compute. split; reflexivity. Qed.

Print Assumptions C251_no_zero_division.
Print Assumptions C251_exact_at_start.
Print Assumptions C251_constant.
Print Assumptions C251_monotone.
Print Assumptions C251_close.
Print Assumptions C251_close_at_end.
Print Assumptions C251_yaw.
Print Assumptions C251_dead_reckoning.
Print Assumptions C251_every_fix.
Print Assumptions C251_layer_outside.
Print Assumptions C251_layer.
Print Assumptions C252_layer_refuted.
Print Assumptions C252_end_refuted.
Print Assumptions C252_yaw_refuted.
