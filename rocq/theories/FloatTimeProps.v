(** C249, C250: the time stamps in binary64. *)
From Coq Require Import ZArith Reals List Bool Lra Lia Psatz.
From Flocq Require Import Core IEEE754.BinarySingleNaN.
From Verif Require Import FloatModel FloatProofs.
Import ListNotations.
Open Scope R_scope.

Lemma b_30 : bpow radix2 (-30) = / 1073741824. Proof. reflexivity. Qed.
Lemma b_22 : bpow radix2 (-22) = / 4194304. Proof. reflexivity. Qed.
Lemma b_21 : bpow radix2 (-21) = / 2097152. Proof. reflexivity. Qed.
Lemma b_23 : bpow radix2 (-23) = / 8388608. Proof. reflexivity. Qed.
Lemma b_53 : bpow radix2 (-53) = / 9007199254740992. Proof. reflexivity. Qed.
Lemma b_54 : bpow radix2 (-54) = / 18014398509481984. Proof. reflexivity. Qed.
Lemma b_83 : bpow radix2 (-83) = / 9671406556917033397649408. Proof. reflexivity. Qed.
Lemma b_73 : bpow radix2 (-73) = / 9444732965739290427392. Proof. reflexivity. Qed.
Lemma b31 : bpow radix2 31 = 2147483648. Proof. reflexivity. Qed.
Lemma b32 : bpow radix2 32 = 4294967296. Proof. reflexivity. Qed.
Lemma b30 : bpow radix2 30 = 1073741824. Proof. reflexivity. Qed.
Lemma b0 : bpow radix2 0 = 1. Proof. reflexivity. Qed.
Lemma b53 : bpow radix2 53 = 9007199254740992. Proof. reflexivity. Qed.
Lemma b60 : bpow radix2 60 = 1152921504606846976. Proof. reflexivity. Qed.

Lemma to_1023 x e : (e <= 1023)%Z -> Rabs x <= bpow radix2 e -> Rabs x <= bpow radix2 1023.
Proof. intros H A. apply Rle_trans with (1 := A). apply bpow_le, H. Qed.

Lemma rabs_le a b : - b <= a <= b -> Rabs a <= b.
Proof. intros H. apply Rabs_le, H. Qed.

(** The quotient of two small integers. *)
Lemma ratio_val a b : (Z.abs a <= 2 ^ 53)%Z -> (1 <= b <= 2 ^ 53)%Z ->
  fin (fdiv (of_int a) (of_int b)) = true /\ val (fdiv (of_int a) (of_int b)) = rnd (IZR a / IZR b).
Proof.
  intros A B. destruct (of_int_val a A) as [Fa Va]. destruct (of_int_val b ltac:(lia)) as [Fb Vb].
  assert (Pb : 1 <= IZR b) by (apply (IZR_le 1); lia).
  rewrite <- Va, <- Vb. apply fdiv_val; [exact Fa | rewrite Vb; lra |].
  rewrite Va, Vb. apply to_1023 with 53%Z; [lia|]. rewrite b53. unfold Rdiv. rewrite Rabs_mult, <- abs_IZR.
  assert (IZR (Z.abs a) <= 9007199254740992) by (apply IZR_le; lia).
  assert (0 <= IZR (Z.abs a)) by (apply (IZR_le 0); lia).
  assert (Rabs (/ IZR b) <= 1). { rewrite Rabs_pos_eq by (apply Rlt_le, Rinv_0_lt_compat; lra). rewrite <- Rinv_1. apply Rinv_le; lra. }
  assert (0 <= Rabs (/ IZR b)) by apply Rabs_pos. nra.
Qed.

Lemma lit9 : fin lit_1em9 = true /\ Rabs (val lit_1em9 - / 1000000000) <= / 9671406556917033397649408.
Proof.
  destruct (ratio_val 1 1000000000) as [F V]; try lia. split; [exact F|].
  unfold lit_1em9. rewrite V, <- b_83. replace (/ 1000000000) with (1 / 1000000000) by lra.
  apply (rnd_err _ (-29)); [lia|]. apply rabs_le. change (bpow radix2 (-29)) with (/ 536870912). lra.
Qed.

Lemma lit6 : fin lit_1em6 = true /\ Rabs (val lit_1em6 - / 1000000) <= / 9444732965739290427392.
Proof.
  destruct (ratio_val 1 1000000) as [F V]; try lia. split; [exact F|].
  unfold lit_1em6. rewrite V, <- b_73. replace (/ 1000000) with (1 / 1000000) by lra.
  apply (rnd_err _ (-19)); [lia|]. apply rabs_le. change (bpow radix2 (-19)) with (/ 524288). lra.
Qed.

Ltac unabs := repeat match goal with H : Rabs ?x <= ?b |- _ => apply Rabs_le_inv in H end.

(** The fraction of a second. *)
Lemma frac9 n : (0 <= n < 1000000000)%Z ->
  fin (fmul (of_int n) lit_1em9) = true /\ val (fmul (of_int n) lit_1em9) = rnd (IZR n * val lit_1em9) /\
  Rabs (val (fmul (of_int n) lit_1em9) - IZR n / 1000000000) <= / 4503599627370496 /\
  0 <= val (fmul (of_int n) lit_1em9) <= 1.
Proof.
  intros N. destruct lit9 as [F9 V9]. destruct (of_int_val n ltac:(lia)) as [Fn Vn].
  assert (L : 0 <= IZR n) by (apply (IZR_le 0); lia). assert (U : IZR n <= 999999999) by (apply IZR_le; lia).
  unabs.
  assert (B : Rabs (IZR n * val lit_1em9) <= bpow radix2 0) by (apply rabs_le; rewrite b0; nra).
  destruct (fmul_val (of_int n) lit_1em9 Fn F9) as [Fm Vm]. { rewrite Vn. apply to_1023 with 0%Z; [lia | exact B]. }
  rewrite Vn in Vm. split; [exact Fm|]. split; [exact Vm|]. rewrite Vm. split.
  - pose proof (rnd_err _ 0 ltac:(lia) B) as E. change (0 - 54)%Z with (-54)%Z in E. rewrite b_54 in E. unabs. apply rabs_le. nra.
  - split.
    + rewrite <- (rnd_id 0 fmt_0). apply rnd_le. nra.
    + rewrite <- (rnd_id 1 (fmt_int 1 ltac:(lia))). apply rnd_le. rewrite b0 in B. unabs. lra.
Qed.

Lemma frac6 n : (0 <= n < 1000000)%Z ->
  fin (fmul (of_int n) lit_1em6) = true /\ val (fmul (of_int n) lit_1em6) = rnd (IZR n * val lit_1em6) /\
  Rabs (val (fmul (of_int n) lit_1em6) - IZR n / 1000000) <= / 4503599627370496 /\
  0 <= val (fmul (of_int n) lit_1em6) <= 1.
Proof.
  intros N. destruct lit6 as [F9 V9]. destruct (of_int_val n ltac:(lia)) as [Fn Vn].
  assert (L : 0 <= IZR n) by (apply (IZR_le 0); lia). assert (U : IZR n <= 999999) by (apply IZR_le; lia).
  unabs.
  assert (B : Rabs (IZR n * val lit_1em6) <= bpow radix2 0) by (apply rabs_le; rewrite b0; nra).
  destruct (fmul_val (of_int n) lit_1em6 Fn F9) as [Fm Vm]. { rewrite Vn. apply to_1023 with 0%Z; [lia | exact B]. }
  rewrite Vn in Vm. split; [exact Fm|]. split; [exact Vm|]. rewrite Vm. split.
  - pose proof (rnd_err _ 0 ltac:(lia) B) as E. change (0 - 54)%Z with (-54)%Z in E. rewrite b_54 in E. unabs. apply rabs_le. nra.
  - split.
    + rewrite <- (rnd_id 0 fmt_0). apply rnd_le. nra.
    + rewrite <- (rnd_id 1 (fmt_int 1 ltac:(lia))). apply rnd_le. rewrite b0 in B. unabs. lra.
Qed.

Lemma frac3 n : (0 <= n < 1000)%Z ->
  fin (fdiv (of_int n) (of_int 1000)) = true /\
  Rabs (val (fdiv (of_int n) (of_int 1000)) - IZR n / 1000) <= / 4503599627370496 /\
  0 <= val (fdiv (of_int n) (of_int 1000)) <= 1.
Proof.
  intros N. destruct (ratio_val n 1000 ltac:(lia) ltac:(lia)) as [Fm Vm].
  assert (L : 0 <= IZR n) by (apply (IZR_le 0); lia). assert (U : IZR n <= 999) by (apply IZR_le; lia).
  assert (B : Rabs (IZR n / 1000) <= bpow radix2 0) by (apply rabs_le; rewrite b0; lra).
  split; [exact Fm|]. rewrite Vm. split.
  - pose proof (rnd_err _ 0 ltac:(lia) B) as E. change (0 - 54)%Z with (-54)%Z in E. rewrite b_54 in E. unabs. apply rabs_le. lra.
  - split.
    + rewrite <- (rnd_id 0 fmt_0). apply rnd_le. lra.
    + rewrite <- (rnd_id 1 (fmt_int 1 ltac:(lia))). apply rnd_le. lra.
Qed.

(** A whole number of seconds and a fraction. *)
Lemma whole_plus secs f : (0 <= secs < 2 ^ 31)%Z -> fin f = true -> 0 <= val f <= 1 ->
  fin (fadd (of_int secs) f) = true /\ val (fadd (of_int secs) f) = rnd (IZR secs + val f) /\
  Rabs (val (fadd (of_int secs) f) - (IZR secs + val f)) <= / 8388608.
Proof.
  intros S F V. destruct (of_int_val secs ltac:(lia)) as [Fs Vs].
  assert (L : 0 <= IZR secs) by (apply (IZR_le 0); lia). assert (U : IZR secs <= 2147483647) by (apply IZR_le; lia).
  assert (B : Rabs (IZR secs + val f) <= bpow radix2 31) by (apply rabs_le; rewrite b31; lra).
  destruct (fadd_val (of_int secs) f Fs F) as [Fm Vm]. { rewrite Vs. apply to_1023 with 31%Z; [lia | exact B]. }
  rewrite Vs in Vm. split; [exact Fm|]. split; [exact Vm|]. rewrite Vm.
  pose proof (rnd_err _ 31 ltac:(lia) B) as E. change (31 - 54)%Z with (-23)%Z in E. rewrite b_23 in E. exact E.
Qed.

(** * C249 *)

(** Every stamp is within a quarter of a microsecond (2^-22 s) of the time meant. *)
Theorem C249_ros_close secs nsecs : (0 <= secs < 2 ^ 31)%Z -> (0 <= nsecs < 1000000000)%Z ->
  fin (ros_stamp secs nsecs) = true /\
  Rabs (val (ros_stamp secs nsecs) - (IZR secs + IZR nsecs / 1000000000)) <= / 4194304.
Proof.
  intros S N. destruct (frac9 nsecs N) as (Ff & _ & Ef & Bf). destruct (whole_plus secs _ S Ff Bf) as (Fm & _ & Em).
  split; [exact Fm|]. unfold ros_stamp. unabs. apply rabs_le. lra.
Qed.

Theorem C249_name_close secs us : (0 <= secs < 2 ^ 31)%Z -> (0 <= us < 1000000)%Z ->
  fin (name_stamp secs us) = true /\
  Rabs (val (name_stamp secs us) - (IZR secs + IZR us / 1000000)) <= / 4194304.
Proof.
  intros S N. destruct (frac6 us N) as (Ff & _ & Ef & Bf). destruct (whole_plus secs _ S Ff Bf) as (Fm & _ & Em).
  split; [exact Fm|]. unfold name_stamp. unabs. apply rabs_le. lra.
Qed.

(** with the clock offset of the sensor, up to 34 years, half a microsecond *)
Theorem C249_offset_close secs ms off : (0 <= secs < 2 ^ 31)%Z -> (0 <= ms < 1000)%Z ->
  fin off = true -> Rabs (val off) <= 1073741824 ->
  fin (ms_stamp secs ms off) = true /\
  Rabs (val (ms_stamp secs ms off) - (IZR secs + IZR ms / 1000 + val off)) <= / 2097152.
Proof.
  intros S N Fo Bo. destruct (frac3 ms N) as (Ff & Ef & Bf). destruct (whole_plus secs _ S Ff Bf) as (Fm & _ & Em).
  assert (L : 0 <= IZR secs) by (apply (IZR_le 0); lia). assert (U : IZR secs <= 2147483647) by (apply IZR_le; lia).
  set (a := fadd (of_int secs) (fdiv (of_int ms) (of_int 1000))) in *.
  assert (B : Rabs (val a + val off) <= bpow radix2 32) by (unabs; apply rabs_le; rewrite b32; lra).
  destruct (fadd_val a off Fm Fo) as [Fr Vr]. { apply to_1023 with 32%Z; [lia | exact B]. }
  unfold ms_stamp. fold a. split; [exact Fr|]. rewrite Vr.
  pose proof (rnd_err _ 32 ltac:(lia) B) as E. change (32 - 54)%Z with (-22)%Z in E. rewrite b_22 in E. unabs. apply rabs_le. lra.
Qed.

(** Rounding never swaps two ROS stamps. *)
Theorem C249_ros_order s n s' n' : (0 <= s < 2 ^ 31)%Z -> (0 <= s' < 2 ^ 31)%Z ->
  (0 <= n < 1000000000)%Z -> (0 <= n' < 1000000000)%Z ->
  (s * 1000000000 + n <= s' * 1000000000 + n')%Z -> fle (ros_stamp s n) (ros_stamp s' n') = true.
Proof.
  intros S S' N N' H. destruct (frac9 n N) as (Ff & Vf & Ef & Bf). destruct (frac9 n' N') as (Ff' & Vf' & Ef' & Bf').
  destruct (whole_plus s _ S Ff Bf) as (Fm & Vm & _). destruct (whole_plus s' _ S' Ff' Bf') as (Fm' & Vm' & _).
  apply fle_val; [exact Fm | exact Fm' |]. unfold ros_stamp. rewrite Vm, Vm'. apply rnd_le.
  destruct (Z.eq_dec s s') as [->|D].
  - apply Rplus_le_compat_l. rewrite Vf, Vf'. apply rnd_le. apply Rmult_le_compat_r.
    + destruct lit9 as [_ V9]. unabs. lra.
    + apply IZR_le. lia.
  - assert (IZR s + 1 <= IZR s') by (rewrite <- plus_IZR; apply IZR_le; lia). lra.
Qed.

(** Two instants a microsecond or more apart are told apart. *)
Theorem C249_ros_distinct s n s' n' : (0 <= s < 2 ^ 31)%Z -> (0 <= s' < 2 ^ 31)%Z ->
  (0 <= n < 1000000000)%Z -> (0 <= n' < 1000000000)%Z ->
  (s * 1000000000 + n + 1000 <= s' * 1000000000 + n')%Z -> flt (ros_stamp s n) (ros_stamp s' n') = true.
Proof.
  intros S S' N N' H. destruct (C249_ros_close s n S N) as (F & E). destruct (C249_ros_close s' n' S' N') as (F' & E').
  apply flt_val; [exact F | exact F' |]. apply IZR_le in H. rewrite !plus_IZR, !mult_IZR in H. unabs. lra.
Qed.

Theorem C249_name_distinct s n s' n' : (0 <= s < 2 ^ 31)%Z -> (0 <= s' < 2 ^ 31)%Z ->
  (0 <= n < 1000000)%Z -> (0 <= n' < 1000000)%Z ->
  (s * 1000000 + n < s' * 1000000 + n')%Z -> flt (name_stamp s n) (name_stamp s' n') = true.
Proof.
  intros S S' N N' H. destruct (C249_name_close s n S N) as (F & E). destruct (C249_name_close s' n' S' N') as (F' & E').
  apply flt_val; [exact F | exact F' |]. assert (H1 : (s * 1000000 + n + 1 <= s' * 1000000 + n')%Z) by lia.
  apply IZR_le in H1. rewrite !plus_IZR, !mult_IZR in H1. unabs. lra.
Qed.

Theorem C249_offset_distinct s n s' n' off : (0 <= s < 2 ^ 31)%Z -> (0 <= s' < 2 ^ 31)%Z ->
  (0 <= n < 1000)%Z -> (0 <= n' < 1000)%Z -> fin off = true -> Rabs (val off) <= 1073741824 ->
  (s * 1000 + n < s' * 1000 + n')%Z -> flt (ms_stamp s n off) (ms_stamp s' n' off) = true.
Proof.
  intros S S' N N' Fo Bo H. destruct (C249_offset_close s n off S N Fo Bo) as (F & E). destruct (C249_offset_close s' n' off S' N' Fo Bo) as (F' & E').
  apply flt_val; [exact F | exact F' |]. assert (H1 : (s * 1000 + n + 1 <= s' * 1000 + n')%Z) by lia.
  apply IZR_le in H1. rewrite !plus_IZR, !mult_IZR in H1. unabs. lra.
Qed.

(** One microsecond earlier is earlier: the filter of C247 starts before the image. *)
Theorem C249_starts_before t : fin t = true -> 0 <= val t < 4294967296 ->
  fin (ekf_start t) = true /\ val t - / 500000 <= val (ekf_start t) < val t.
Proof.
  intros F B. destruct lit6 as [F6 V6]. unabs.
  assert (A : Rabs (val t - val lit_1em6) <= bpow radix2 32) by (apply rabs_le; rewrite b32; lra).
  destruct (fsub_val t lit_1em6 F F6) as [Fr Vr]. { apply to_1023 with 32%Z; [lia | exact A]. }
  split; [exact Fr|]. unfold ekf_start. rewrite Vr.
  pose proof (rnd_err _ 32 ltac:(lia) A) as E. change (32 - 54)%Z with (-22)%Z in E. rewrite b_22 in E. unabs. lra.
Qed.

(** Koyo milliseconds: at most one microsecond is lost, none is added. *)
Theorem C249_koyo k : (0 <= k <= 1000000000)%Z -> exists r, koyo_us k = Some r /\ (k - 1 <= r <= k)%Z.
Proof.
  intros K. destruct (ratio_val k 1000 ltac:(lia) ltac:(lia)) as [Fq Vq]. destruct (of_int_val 1000 ltac:(lia)) as [Ft Vt].
  assert (L : 0 <= IZR k) by (apply (IZR_le 0); lia). assert (U : IZR k <= 1000000000) by (apply IZR_le; lia).
  assert (B : Rabs (IZR k / 1000) <= bpow radix2 30) by (apply rabs_le; rewrite b30; lra).
  pose proof (rnd_err _ 30 ltac:(lia) B) as E. rewrite <- Vq in E. change (30 - 54)%Z with (-24)%Z in E. change (bpow radix2 (-24)) with (/ 16777216) in E.
  set (q := fdiv (of_int k) (of_int 1000)) in *.
  assert (B2 : Rabs (val q * val (of_int 1000)) <= bpow radix2 31) by (rewrite Vt; unabs; apply rabs_le; rewrite b31; lra).
  destruct (fmul_val q (of_int 1000) Fq Ft) as [Fr Vr]. { apply to_1023 with 31%Z; [lia | exact B2]. }
  pose proof (rnd_err _ 31 ltac:(lia) B2) as E2. rewrite <- Vr, Vt in E2. change (31 - 54)%Z with (-23)%Z in E2. rewrite b_23 in E2.
  unfold koyo_us. fold q. rewrite (fl_int_val _ Fr). eexists. split; [reflexivity|].
  set (v := val (fmul q (of_int 1000))) in *.
  assert (P : 0 <= v). { rewrite Vr. rewrite <- (rnd_id 0 fmt_0). apply rnd_le. rewrite Vt. apply Rmult_le_pos; [|lra].
    rewrite Vq, <- (rnd_id 0 fmt_0). apply rnd_le. lra. }
  rewrite Ztrunc_floor by exact P. unabs.
  assert (A1 : IZR (k - 1) <= v) by (rewrite minus_IZR; lra). assert (A2 : v < IZR (k + 1)) by (rewrite plus_IZR; lra).
  split.
  - apply Zfloor_lub. exact A1.
  - assert ((Zfloor v < k + 1)%Z); [|lia]. apply lt_IZR. apply Rle_lt_trans with v; [apply Zfloor_lb | exact A2].
Qed.

(** whole milliseconds come out exactly *)
Theorem C249_koyo_whole ms : (0 <= ms <= 1000000)%Z -> koyo_us (ms * 1000) = Some (ms * 1000)%Z.
Proof.
  intros K. destruct (ratio_val (ms * 1000) 1000 ltac:(lia) ltac:(lia)) as [Fq Vq]. destruct (of_int_val 1000 ltac:(lia)) as [Ft Vt].
  assert (Q1 : IZR (ms * 1000) / 1000 = IZR ms) by (rewrite mult_IZR; field). rewrite Q1, (rnd_id (IZR ms) (fmt_int ms ltac:(lia))) in Vq.
  set (q := fdiv (of_int (ms * 1000)) (of_int 1000)) in *.
  assert (Q2 : val q * val (of_int 1000) = IZR (ms * 1000)) by (rewrite Vq, Vt, mult_IZR; ring).
  assert (L : 0 <= IZR (ms * 1000)) by (apply (IZR_le 0); lia). assert (U : IZR (ms * 1000) <= 1000000000) by (apply IZR_le; lia).
  destruct (fmul_val q (of_int 1000) Fq Ft) as [Fr Vr]. { rewrite Q2. apply to_1023 with 30%Z; [lia|]. apply rabs_le; rewrite b30; lra. }
  rewrite Q2, (rnd_id _ (fmt_int (ms * 1000) ltac:(lia))) in Vr. unfold koyo_us. fold q. now rewrite (fl_int_val _ Fr), Vr, Ztrunc_IZR.
Qed.

(** ** The same instant from different parsers *)

(** From 2004 to 2038 the floats are multiples of 2^-22. *)
Lemma rnd_epoch x n : 1073741824 <= x < 2147483648 -> Rabs (x * 4194304 - IZR n) < / 2 -> rnd x = IZR n / 4194304.
Proof.
  intros B H. unfold rnd, round, scaled_mantissa.
  assert (C : cexp radix2 fe x = (-22)%Z).
  { unfold cexp. rewrite (mag_unique_pos radix2 x 31). reflexivity. split; [exact (proj1 B) | exact (proj2 B)]. }
  rewrite C. change (bpow radix2 (- -22)) with 4194304. rewrite (Znearest_imp _ _ n H). unfold F2R. cbn [Fnum Fexp]. rewrite b_22. unfold Rdiv. ring.
Qed.

Lemma grid_exists us : (0 <= us < 1000000)%Z -> exists n, (0 <= n <= 4194304)%Z /\ Rabs (IZR us / 1000000 * 4194304 - IZR n) <= / 2 - / 31250.
Proof.
  intros U. exists ((us * 131072 + 15625) / 31250)%Z.
  pose proof (Z.div_mod (us * 131072 + 15625) 31250 ltac:(lia)) as D. pose proof (Z.mod_pos_bound (us * 131072 + 15625) 31250 ltac:(lia)) as M.
  set (n := ((us * 131072 + 15625) / 31250)%Z) in *. set (r := ((us * 131072 + 15625) mod 31250)%Z) in *. split; [nia|].
  assert (O : (r <> 0)%Z). { intros Z0. rewrite Z0 in D. assert (((us * 131072 + 15625) mod 2 = (31250 * n + 0) mod 2)%Z) as P by now rewrite D.
    replace (us * 131072 + 15625)%Z with (1 + (us * 65536 + 7812) * 2)%Z in P by ring. replace (31250 * n + 0)%Z with (0 + (15625 * n) * 2)%Z in P by ring.
    rewrite !Z.mod_add in P by lia. discriminate. }
  assert (D1 : IZR us * 131072 + 15625 = 31250 * IZR n + IZR r) by (rewrite <- !mult_IZR, <- !plus_IZR; now f_equal).
  assert (M1 : 1 <= IZR r) by (apply IZR_le; lia). assert (M2 : IZR r <= 31249) by (apply IZR_le; lia).
  apply rabs_le. lra.
Qed.

Lemma near_grid secs f us n x : (2 ^ 30 <= secs < 2 ^ 31)%Z -> (0 <= us < 1000000)%Z -> x = IZR secs + f -> 0 <= f <= 1 -> x < 2147483648 ->
  Rabs (f - IZR us / 1000000) <= / 4503599627370496 ->
  Rabs (IZR us / 1000000 * 4194304 - IZR n) <= / 2 - / 31250 -> rnd x = IZR (secs * 4194304 + n) / 4194304.
Proof.
  intros S U X F L E G. assert (1073741824 <= IZR secs) by (apply (IZR_le 1073741824); lia).
  apply rnd_epoch; [lra|]. rewrite plus_IZR, mult_IZR. unabs. apply Rabs_lt. lra.
Qed.

Lemma val_inj x y : fin x = true -> fin y = true -> val x = val y -> val x <> 0 -> x = y.
Proof.
  intros Fx Fy E N. apply B2R_inj; [| |exact E].
  - apply is_finite_strict_B2R. exact N.
  - apply is_finite_strict_B2R. rewrite <- E. exact N.
Qed.

(** An instant given in microseconds gets the very same float from a ROS message,
    from a file name and from the datetime of date_time_to_epoch. *)
Theorem C249_same_instant secs us : (2 ^ 30 <= secs < 2 ^ 31)%Z -> (0 <= us < 1000000)%Z ->
  ros_stamp secs (us * 1000) = name_stamp secs us /\ utc_stamp secs us = name_stamp secs us.
Proof.
  intros S U. assert (S' : (0 <= secs < 2 ^ 31)%Z) by lia.
  assert (SL : 1073741824 <= IZR secs) by (apply (IZR_le 1073741824); lia). assert (SU : IZR secs <= 2147483647) by (apply IZR_le; lia).
  assert (UL : 0 <= IZR us) by (apply (IZR_le 0); lia). assert (UU : IZR us <= 999999) by (apply IZR_le; lia).
  destruct (grid_exists us U) as (n & Bn & G).
  destruct (frac6 us U) as (F6 & _ & E6 & B6). destruct (whole_plus secs _ S' F6 B6) as (Fn & Vn & _).
  destruct (frac9 (us * 1000) ltac:(lia)) as (F9 & _ & E9 & B9). destruct (whole_plus secs _ S' F9 B9) as (Fr & Vr & _).
  assert (Q9 : IZR (us * 1000) / 1000000000 = IZR us / 1000000) by (rewrite mult_IZR; field). rewrite Q9 in E9.
  assert (Vn' : val (name_stamp secs us) = IZR (secs * 4194304 + n) / 4194304).
  { unfold name_stamp. rewrite Vn. apply (near_grid secs (val (fmul (of_int us) lit_1em6)) us n _ S U); try assumption; [reflexivity|]. unabs; lra. }
  assert (Vr' : val (ros_stamp secs (us * 1000)) = IZR (secs * 4194304 + n) / 4194304).
  { unfold ros_stamp. rewrite Vr. apply (near_grid secs (val (fmul (of_int (us * 1000)) lit_1em9)) us n _ S U); try assumption; [reflexivity|]. unabs; lra. }
  destruct (ratio_val (secs * 1000000 + us) 1000000 ltac:(lia) ltac:(lia)) as [Fu Vu].
  assert (Vu' : val (utc_stamp secs us) = IZR (secs * 4194304 + n) / 4194304).
  { unfold utc_stamp. rewrite Vu. apply (near_grid secs (IZR us / 1000000) us n _ S U); try assumption.
    - rewrite plus_IZR, mult_IZR. field.
    - lra.
    - rewrite plus_IZR, mult_IZR. lra.
    - apply rabs_le. lra. }
  assert (NZ : IZR (secs * 4194304 + n) / 4194304 <> 0). { rewrite plus_IZR, mult_IZR. assert (0 <= IZR n) by (apply (IZR_le 0); lia). lra. }
  split; apply val_inj; try assumption; congruence.
Qed.

(** and an instant in milliseconds the same from every text log (no offset) *)
Theorem C249_same_instant_ms secs ms : (2 ^ 30 <= secs < 2 ^ 31)%Z -> (0 <= ms < 1000)%Z ->
  ms_stamp secs ms (of_int 0) = name_stamp secs (ms * 1000).
Proof.
  intros S U. assert (S' : (0 <= secs < 2 ^ 31)%Z) by lia. assert (U' : (0 <= ms * 1000 < 1000000)%Z) by lia.
  assert (SL : 1073741824 <= IZR secs) by (apply (IZR_le 1073741824); lia). assert (SU : IZR secs <= 2147483647) by (apply IZR_le; lia).
  assert (UL : 0 <= IZR ms) by (apply (IZR_le 0); lia). assert (UU : IZR ms <= 999) by (apply IZR_le; lia).
  destruct (grid_exists (ms * 1000) U') as (n & Bn & G).
  destruct (frac6 (ms * 1000) U') as (F6 & _ & E6 & B6). destruct (whole_plus secs _ S' F6 B6) as (Fn & Vn & _).
  destruct (frac3 ms U) as (F3 & E3 & B3). destruct (whole_plus secs _ S' F3 B3) as (Fm & Vm & _).
  assert (Q9 : IZR (ms * 1000) / 1000000 = IZR ms / 1000) by (rewrite mult_IZR; field).
  assert (Vn' : val (name_stamp secs (ms * 1000)) = IZR (secs * 4194304 + n) / 4194304).
  { unfold name_stamp. rewrite Vn. apply (near_grid secs (val (fmul (of_int (ms * 1000)) lit_1em6)) (ms * 1000) n _ S U'); try assumption; [reflexivity|]. rewrite Q9 in E6. unabs; lra. }
  set (a := fadd (of_int secs) (fdiv (of_int ms) (of_int 1000))) in *.
  assert (Vm' : val a = IZR (secs * 4194304 + n) / 4194304).
  { rewrite Vm. apply (near_grid secs (val (fdiv (of_int ms) (of_int 1000))) (ms * 1000) n _ S U'); try assumption; [reflexivity | unabs; lra |]. rewrite Q9. exact E3. }
  assert (NL : 0 <= IZR n) by (apply (IZR_le 0); lia). assert (NU : IZR n <= 4194304) by (apply IZR_le; lia).
  destruct (of_int_val 0 ltac:(lia)) as [F0 V0].
  destruct (fadd_val a (of_int 0) Fm F0) as [Ff Vf].
  { rewrite V0, Rplus_0_r, Vm'. apply to_1023 with 32%Z; [lia|]. apply rabs_le. rewrite b32, plus_IZR, mult_IZR. lra. }
  rewrite V0, Rplus_0_r, (rnd_id _ (fmt_val a)) in Vf.
  assert (NZ : IZR (secs * 4194304 + n) / 4194304 <> 0). { rewrite plus_IZR, mult_IZR. lra. }
  unfold ms_stamp. fold a. apply val_inj; try assumption; rewrite Vf, Vm'; [|exact NZ]. congruence.
Qed.

(** Values: half a second, neighbouring stamps, and a start one microsecond earlier. *)
Example C249_ros_ex : feq (ros_stamp 1600000000 500000000) (fdiv (of_int 3200000001) (of_int 2)) = true.
Proof. vm_compute. reflexivity. Qed.
Example C249_distinct_ex :
  flt (ros_stamp 1600000000 999999000) (ros_stamp 1600000001 0) = true /\
  flt (name_stamp 1600000000 123456) (name_stamp 1600000000 123457) = true /\
  flt (ms_stamp 1600000000 123 (fdiv (of_int (-1)) (of_int 3))) (ms_stamp 1600000000 124 (fdiv (of_int (-1)) (of_int 3))) = true.
Proof. vm_compute. repeat split; reflexivity. Qed.
Example C249_start_ex : flt (ekf_start (name_stamp 1600000000 123457)) (name_stamp 1600000000 123457) = true /\
  feq (ekf_start (name_stamp 1600000000 123457)) (name_stamp 1600000000 123456) = true.
Proof. vm_compute. repeat split; reflexivity. Qed.
Example C249_koyo_ex : koyo_us 1500 = Some 1500%Z /\ koyo_us 12000 = Some 12000%Z.
Proof. vm_compute. repeat split; reflexivity. Qed.
Example C249_same_ex : B2SF (ros_stamp 1600000000 123457000) = B2SF (utc_stamp 1600000000 123457) /\
  B2SF (utc_stamp 1600000000 123457) = SpecFloat.S754_finite false 6710886400517816 (-22).
Proof. vm_compute. repeat split; reflexivity. Qed.

(** * C250 *)

(** Two ROS stamps 100 ns apart become one time. *)
Theorem C250_ros_distinct_refuted : exists s n n', (0 <= n < n')%Z /\ (n' < 1000000000)%Z /\
  feq (ros_stamp s n) (ros_stamp s n') = true.
Proof. exists 1600000000%Z, 0%Z, 100%Z. vm_compute. repeat split; try reflexivity; discriminate. Qed.

(** "1.001" ms is read as 1000 us. *)
Theorem C250_koyo_refuted : exists k, (0 <= k < 1000000)%Z /\ koyo_us k <> Some k.
Proof. exists 1001%Z. split; [lia|]. vm_compute. discriminate. Qed.

Print Assumptions C249_ros_close.
Print Assumptions C249_name_close.
Print Assumptions C249_offset_close.
Print Assumptions C249_ros_order.
Print Assumptions C249_ros_distinct.
Print Assumptions C249_name_distinct.
Print Assumptions C249_offset_distinct.
Print Assumptions C249_starts_before.
Print Assumptions C249_koyo.
Print Assumptions C249_koyo_whole.
Print Assumptions C249_same_instant.
Print Assumptions C249_same_instant_ms.
Print Assumptions C250_ros_distinct_refuted.
Print Assumptions C250_koyo_refuted.
