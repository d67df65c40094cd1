(** C277, continued: the laser detector finds the line of the virtual images. *)
From Coq Require Import Qfield.
From Verif Require Import PyBase LaserModel LaserProps.
From Coq Require Import Reals Qreals.
From Coq Require Lqa Lra.
From Verif Require VirtualModel VirtualProps.
Open Scope Q_scope.

Lemma sum_zero : forall k f, (forall i, (i < k)%nat -> f i == 0) -> sum_upto k f == 0.
Proof. induction k as [|k IH]; intros f H; cbn; [reflexivity|]. rewrite IH, (H k) by (intros; try apply H; lia). reflexivity. Qed.
Lemma sum_single : forall k f j, (j < k)%nat -> (forall i, (i < k)%nat -> i <> j -> f i == 0) -> sum_upto k f == f j.
Proof.
  induction k as [|k IH]; intros f j J H; cbn; [lia|]. destruct (Nat.eq_dec j k) as [ -> |N].
  - rewrite sum_zero; [ring|]. intros i I. apply H; lia.
  - rewrite (IH f j), (H k) by (intros; try apply H; lia). ring.
Qed.
Lemma sum_pair : forall k f j, (S j < k)%nat -> (forall i, (i < k)%nat -> i <> j -> i <> S j -> f i == 0) -> sum_upto k f == f j + f (S j).
Proof.
  induction k as [|k IH]; intros f j J H; cbn; [lia|]. destruct (Nat.eq_dec (S j) k) as [E|N].
  - subst k. rewrite (sum_single (S j) f j); [reflexivity|lia|]. intros i I D. apply H; lia.
  - rewrite (IH f j), (H k) by (intros; try apply H; lia). ring.
Qed.
(** A column of two rows *)
Section Two.
Variables (col : nat -> Q) (n k : nat) (a b : Q).
Hypothesis A : col (S n) == a.
Hypothesis B : col n == b.
Hypothesis Z : forall v, v <> n -> v <> S n -> col v == 0.
Hypothesis A0 : 0 <= a.
Hypothesis B0 : 0 <= b.
Hypothesis AB : 0 < a + b.
Hypothesis K : (3 <= k)%nat.
Lemma weighed : forall g w, (w <= n)%nat -> (S n < w + k)%nat -> sum_upto k (fun i => g i * col (w + i)%nat) == g (n - w)%nat * b + g (S (n - w)) * a.
Proof.
  intros g w L U. rewrite (sum_pair k _ (n - w)); [|lia|intros i I D1 D2; rewrite Z by lia; ring].
  replace (w + (n - w))%nat with n by lia. replace (w + S (n - w))%nat with (S n) by lia. rewrite A, B. reflexivity.
Qed.
Lemma k_pos : 3 <= qn k.
Proof. change 3 with (qn 3). unfold qn. rewrite <- Zle_Qle. lia. Qed.
Lemma tent_edge : forall i, i = 0%nat \/ i = (k - 1)%nat -> tent k i == 1 / qn k.
Proof.
  intros i H. unfold tent. pose proof k_pos as P. assert (qn k == qn (k - 1) + 1) as E by (rewrite <- qn_S; replace (S (k - 1)) with k by lia; reflexivity).
  assert (Qabs (qn k - 1 - 2 * qn i) == qn k - 1) as ->; [|field; lra]. destruct H as [ -> | -> ].
  - change (qn 0) with 0. rewrite Qabs_pos; lra.
  - rewrite Qabs_neg; lra.
Qed.
Lemma tent_centre : forall i, i = ((k - 1) / 2)%nat -> (qn k - 1) / qn k <= tent k i.
Proof.
  intros i H. unfold tent. pose proof k_pos as P. assert (Qabs (qn k - 1 - 2 * qn i) <= 1) as L.
  { pose proof (Nat.div_mod (k - 1) 2 ltac:(lia)) as M. pose proof (Nat.mod_upper_bound (k - 1) 2 ltac:(lia)) as U. rewrite <- H in M. assert (qn k == 2 * qn i + qn ((k - 1) mod 2) + 1) as E.
    { transitivity (qn (i + i + (k - 1) mod 2 + 1)); [replace (i + i + (k - 1) mod 2 + 1)%nat with k by lia; reflexivity|]. rewrite !qn_add. change (qn 1) with 1. ring. }
    assert (qn ((k - 1) mod 2) <= 1) by (change 1 with (qn 1); unfold qn; rewrite <- Zle_Qle; lia). pose proof (qn_nonneg ((k - 1) mod 2)). rewrite Qabs_pos; lra. }
  unfold Qdiv. apply Qmult_le_compat_r; [lra|]. apply Qinv_le_0_compat. lra.
Qed.
Lemma edge_sum : forall w, ~ ((w <= n)%nat /\ (S n < w + k)%nat) -> wsum col k w <= a / qn k \/ wsum col k w <= b / qn k.
Proof.
  intros w N. pose proof k_pos as P. unfold wsum. destruct (Nat.eq_dec w (S n)) as [E|D1]; [left|destruct (Nat.eq_dec (w + k) (S n)) as [E|D2]; [right|left]].
  - rewrite (sum_single k _ 0); [|lia|intros i I D; rewrite Z by lia; ring]. rewrite Nat.add_0_r, E, A, (tent_edge 0) by now left. apply Qle_lteq. right. field. lra.
  - rewrite (sum_single k _ (k - 1)); [|lia|intros i I D; rewrite Z by lia; ring]. replace (w + (k - 1))%nat with n by lia. rewrite B, (tent_edge (k - 1)) by now right. apply Qle_lteq. right. field. lra.
  - rewrite sum_zero; [|intros i I; rewrite Z by lia; ring]. apply Qle_shift_div_l; lra.
Qed.
Lemma bright_two : bright col.
Proof. intros v. destruct (Nat.eq_dec v n) as [ -> |D1]; [lra|]. destruct (Nat.eq_dec v (S n)) as [ -> |D2]; [lra|]. rewrite Z by assumption. lra. Qed.
Lemma detect_two : forall start stop h, (start + k <= n)%nat -> (n + k < stop)%nat -> 0 <= h -> (h < (qn k - 1) / qn k * a \/ h < (qn k - 1) / qn k * b) ->
  exists r, detect col k start stop h = Some r /\ r * (a + b) == qn n * b + qn (S n) * a.
Proof.
  intros start stop h L U H T. pose proof k_pos as P. set (i0 := ((k - 1) / 2)%nat).
  assert (1 <= i0 < k - 1)%nat as I0 by (unfold i0; pose proof (Nat.div_mod (k - 1) 2 ltac:(lia)); pose proof (Nat.mod_upper_bound (k - 1) 2 ltac:(lia)); lia).
  pose proof (tent_centre i0 eq_refl) as C. assert (0 <= (qn k - 1) / qn k) as C0 by (apply Qle_shift_div_l; lra).
  assert ((qn k - 1) / qn k * b <= wsum col k (n - i0)) as W1.
  { unfold wsum. rewrite weighed by lia. replace (n - (n - i0))%nat with i0 by lia. destruct (tent_bound k (S i0) ltac:(lia)) as [T1 _]. assert (0 <= tent k (S i0) * a) by (apply Qmult_le_0_compat; lra). assert ((qn k - 1) / qn k * b <= tent k i0 * b) by (apply Qmult_le_compat_r; assumption). lra. }
  assert ((qn k - 1) / qn k * a <= wsum col k (S n - i0)) as W2.
  { unfold wsum. rewrite weighed by lia. replace (n - (S n - i0))%nat with (i0 - 1)%nat by lia. replace (S (i0 - 1)) with i0 by lia. destruct (tent_bound k (i0 - 1) ltac:(lia)) as [T1 _]. assert (0 <= tent k (i0 - 1) * b) by (apply Qmult_le_0_compat; lra). assert ((qn k - 1) / qn k * a <= tent k i0 * a) by (apply Qmult_le_compat_r; assumption). lra. }
  destruct (proj2 (C58_detected col k start stop h bright_two H)) as (r & E).
  { destruct T as [T|T]; [exists (S n - i0)%nat|exists (n - i0)%nat]; (split; [lia|]); (split; [lia|]); lra. }
  exists r. split; [exact E|]. destruct (C58_best _ _ _ _ _ _ bright_two E) as (w & R1 & R2 & _ & M & _ & Best & _).
  pose proof (Best (n - i0)%nat ltac:(lia) ltac:(lia)) as M1. pose proof (Best (S n - i0)%nat ltac:(lia) ltac:(lia)) as M2.
  assert ((w <= n)%nat /\ (S n < w + k)%nat) as [Wl Wu].
  { destruct (le_lt_dec w n) as [X|X]; [destruct (le_lt_dec (w + k) (S n)) as [Y|Y]; [exfalso|now split]|exfalso].
    all: assert ((qn k - 1) / qn k == 1 - 1 / qn k) as Q by (field; lra); assert (0 < 1 / qn k) as V by (apply Qlt_shift_div_l; lra); assert (1 / qn k <= 1 # 3) as V' by (apply Qle_shift_div_r; lra).
    all: destruct (edge_sum w ltac:(lia)) as [G|G].
    1,3: assert (a / qn k == 1 / qn k * a) as F by (field; lra). 3,4: assert (b / qn k == 1 / qn k * b) as F by (field; lra).
    all: rewrite F in G; rewrite Q in W1, W2; set (u := 1 / qn k) in *; clearbody u; nra. }
  unfold centroid in M. rewrite (weighed qn w Wl Wu) in M. assert (sum_upto k (fun i => col (w + i)%nat) == b + a) as S0.
  { rewrite (sum_ext k _ (fun i => 1 * col (w + i)%nat)) by (intros; ring). rewrite (weighed (fun _ => 1)) by assumption. ring. }
  rewrite S0 in M. assert (qn n == qn (n - w) + qn w) as Qn by (rewrite <- qn_add; replace (n - w + w)%nat with n by lia; reflexivity). rewrite !qn_S in *. rewrite Qn. lra.
Qed.
End Two.

(** A column of a virtual image that shows the line at height [y] (VirtualProps): findLaserInImage finds it within 1/254 of a pixel, if the rows searched
    go [k] rows above and below it and the threshold is at most 80. *)
Import VirtualModel VirtualProps.
Open Scope Q_scope.
Ltac lin := first [Lqa.lra | Lra.lra].
Theorem C277_detected : forall i c y k start stop h, shows_line i c y -> (3 <= k)%nat -> 0 <= h <= 80 ->
  (INR (start + k) <= y)%R -> (y <= INR stop - INR k - 1)%R ->
  exists r, detect (fun v => inject_Z (pixels i (Z.of_nat v) c)) k start stop h = Some r /\ (Rabs (Q2R r - y) <= 1 / 254)%R.
Proof.
  intros i c y k start stop h (m & [M1 M2] & A & B & S0 & D & Z) K [H0 H1] L U. cbv zeta in *.
  assert (0 <= m)%Z as M0. { apply Z.lt_succ_r, lt_IZR. rewrite succ_IZR. rewrite plus_IZR in M2. pose proof (pos_INR (start + k)). lin. }
  set (n := Z.to_nat m). assert (Z.of_nat n = m) as E by (unfold n; lia). assert (Z.of_nat (S n) = (m + 1)%Z) as E' by lia.
  set (a := inject_Z (pixels i (m + 1) c)). set (b := inject_Z (pixels i m c)).
  assert (0 <= a) as A0. { unfold a. change 0 with (inject_Z 0). rewrite <- Zle_Qle. apply le_IZR. lin. }
  assert (0 <= b) as B0. { unfold b. change 0 with (inject_Z 0). rewrite <- Zle_Qle. apply le_IZR. lin. }
  assert (254 <= a + b) as AB. { unfold a, b. rewrite <- inject_Z_plus. change 254 with (inject_Z 254). rewrite <- Zle_Qle. apply le_IZR. rewrite plus_IZR. lin. }
  assert (3 <= qn k) as Kq by (change 3 with (qn 3); unfold qn; rewrite <- Zle_Qle; lia).
  assert (2 # 3 <= (qn k - 1) / qn k) as Kf by (apply Qle_shift_div_l; lin).
  destruct (detect_two (fun v => inject_Z (pixels i (Z.of_nat v) c)) n k a b) with (start := start) (stop := stop) (h := h) as (r & R1 & R2); try assumption.
  - cbv beta. now rewrite E'.
  - cbv beta. now rewrite E.
  - intros v V1 V2. rewrite Z by lia. reflexivity.
  - lin.
  - apply Nat.lt_succ_r, INR_lt. rewrite S_INR. rewrite <- E, plus_IZR, <- INR_IZR_INZ in M2. lin.
  - apply INR_lt. rewrite plus_INR. rewrite <- E, <- INR_IZR_INZ in M1. lin.
  - destruct (Qlt_le_dec 120 a) as [G|G]; [left|right].
    + apply Qlt_le_trans with ((2 # 3) * a); [lin|]. now apply Qmult_le_compat_r.
    + apply Qlt_le_trans with ((2 # 3) * b); [lin|]. apply Qmult_le_compat_r; [assumption|lin].
  - exists r. split; [exact R1|]. apply Qeq_eqR in R2. rewrite !Q2R_mult, !Q2R_plus, !Q2R_mult in R2. unfold a, b, qn in R2. rewrite E', E in R2.
    assert (forall z, Q2R (inject_Z z) = IZR z) as QZ by (intros z; unfold Q2R, inject_Z; cbn; field). rewrite !QZ in R2.
    enough (Q2R r = ((IZR (m + 1) * IZR (pixels i (m + 1) c) + IZR m * IZR (pixels i m c)) / (IZR (pixels i (m + 1) c) + IZR (pixels i m c)))%R) as -> by exact D.
    apply Rmult_eq_reg_r with (IZR (pixels i (m + 1) c) + IZR (pixels i m c))%R; [|lin]. rewrite R2. field. lin.
Qed.
Print Assumptions C277_detected.
Example C277_example_detected : exists r, detect (fun v => if (v =? 14)%nat then 204 else if (v =? 15)%nat then 51 else 0) 5 0 30 80 = Some r /\ r == 142 # 10.
Proof. eexists. split; vm_compute; reflexivity. Qed.
