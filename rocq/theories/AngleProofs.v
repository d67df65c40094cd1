From Coq Require Import Reals Lra Lia ZArith.
From Verif Require Import AngleModel.
Open Scope R_scope.

Lemma turn_back_spec n : forall r, r <= PI + INR n * (2 * PI) ->
  exists k, (k <= n)%nat /\ (forall f, (n < f)%nat -> turn_back f r = Some (r - INR k * (2 * PI))) /\
    r - INR k * (2 * PI) <= PI /\ (r <= PI -> k = 0%nat) /\ (PI < r -> - PI < r - INR k * (2 * PI)).
Proof.
  pose proof PI_RGT_0 as P. induction n as [|n IH]; intros r H.
  - exists 0%nat. cbn [INR] in *. split; [lia|]. split; [|split; [lra|split; [reflexivity|lra]]].
    intros [|f] F; [lia|]. cbn [turn_back]. destruct (Rlt_dec PI r); [lra|]. f_equal. lra.
  - destruct (Rlt_dec PI r) as [L|L].
    + destruct (IH (r - 2 * PI)) as (k & K & F & B & Z & W). { rewrite S_INR in H. lra. }
      exists (S k). rewrite S_INR. split; [lia|]. split; [|split; [lra|split; [lra|]]].
      * intros [|f] Hf; [lia|]. cbn [turn_back]. destruct (Rlt_dec PI r); [|lra]. rewrite F by lia. f_equal. lra.
      * intros _. destruct (Rle_dec (r - 2 * PI) PI) as [E|E].
        -- rewrite (Z E). cbn [INR]. lra.
        -- lra.
    + exists 0%nat. cbn [INR]. split; [lia|]. split; [|split; [lra|split; [reflexivity|lra]]].
      intros [|f] Hf; [lia|]. cbn [turn_back]. destruct (Rlt_dec PI r); [lra|]. f_equal. lra.
Qed.

Lemma turn_forth_spec n : forall r, - PI - INR n * (2 * PI) <= r ->
  exists k, (k <= n)%nat /\ (forall f, (n < f)%nat -> turn_forth f r = Some (r + INR k * (2 * PI))) /\
    - PI <= r + INR k * (2 * PI) /\ (- PI <= r -> k = 0%nat) /\ (r < - PI -> r + INR k * (2 * PI) < PI).
Proof.
  pose proof PI_RGT_0 as P. induction n as [|n IH]; intros r H.
  - exists 0%nat. cbn [INR] in *. split; [lia|]. split; [|split; [lra|split; [reflexivity|lra]]].
    intros [|f] F; [lia|]. cbn [turn_forth]. destruct (Rlt_dec r (- PI)); [lra|]. f_equal. lra.
  - destruct (Rlt_dec r (- PI)) as [L|L].
    + destruct (IH (r + 2 * PI)) as (k & K & F & B & Z & W). { rewrite S_INR in H. lra. }
      exists (S k). rewrite S_INR. split; [lia|]. split; [|split; [lra|split; [lra|]]].
      * intros [|f] Hf; [lia|]. cbn [turn_forth]. destruct (Rlt_dec r (- PI)); [|lra]. rewrite F by lia. f_equal. lra.
      * intros _. destruct (Rle_dec (- PI) (r + 2 * PI)) as [E|E].
        -- rewrite (Z E). cbn [INR]. lra.
        -- lra.
    + exists 0%nat. cbn [INR]. split; [lia|]. split; [|split; [lra|split; [reflexivity|lra]]].
      intros [|f] Hf; [lia|]. cbn [turn_forth]. destruct (Rlt_dec r (- PI)); [lra|]. f_equal. lra.
Qed.

Lemma big_enough r : exists n, r <= PI + INR n * (2 * PI) /\ - PI - INR n * (2 * PI) <= r.
Proof.
  pose proof PI_RGT_0 as P.
  assert (U : exists n, INR n > Rabs r / (2 * PI)).
  { exists (Z.to_nat (up (Rabs r / (2 * PI)))). destruct (archimed (Rabs r / (2 * PI))) as [A _].
    rewrite INR_IZR_INZ, Z2Nat.id; [exact A|]. apply le_IZR.
    assert (0 <= Rabs r / (2 * PI)); [|lra]. apply Rmult_le_pos; [apply Rabs_pos|]. apply Rlt_le, Rinv_0_lt_compat. lra. }
  destruct U as [n H]. exists n.
  assert (Rabs r < INR n * (2 * PI)).
  { apply Rmult_gt_compat_r with (r := 2 * PI) in H; [|lra]. unfold Rdiv in H. rewrite Rmult_assoc, Rinv_l, Rmult_1_r in H by lra. lra. }
  pose proof (Rle_abs r). pose proof (Rle_abs (- r)) as A. rewrite Rabs_Ropp in A. lra.
Qed.

Lemma clamp_spec r : exists n v (k : Z), (forall f, (n < f)%nat -> clamp_rotation f r = Some v) /\
  - PI <= v <= PI /\ v = r + IZR k * (2 * PI) /\ (- PI <= r <= PI -> v = r).
Proof.
  pose proof PI_RGT_0 as P. destruct (big_enough r) as (n & H1 & H2).
  destruct (turn_back_spec n r H1) as (k1 & K1 & F1 & B1 & Z1 & W1).
  assert (H2' : - PI - INR n * (2 * PI) <= r - INR k1 * (2 * PI)).
  { destruct (Rlt_dec PI r) as [L|L].
    - specialize (W1 L). pose proof (pos_INR n). nra.
    - rewrite (Z1 ltac:(lra)). cbn [INR]. lra. }
  destruct (turn_forth_spec n _ H2') as (k2 & K2 & F2 & B2 & Z2 & W2).
  exists n, (r - INR k1 * (2 * PI) + INR k2 * (2 * PI)), (Z.of_nat k2 - Z.of_nat k1)%Z.
  split; [|split; [|split]].
  - intros f Hf. unfold clamp_rotation. rewrite F1 by exact Hf. now apply F2.
  - split; [exact B2|]. destruct (Rlt_dec (r - INR k1 * (2 * PI)) (- PI)) as [L|L].
    + specialize (W2 L). lra.
    + rewrite (Z2 ltac:(lra)). cbn [INR]. lra.
  - rewrite minus_IZR, <- !INR_IZR_INZ. lra.
  - intros [A B]. rewrite (Z1 B) in *. cbn [INR] in *. rewrite Z2 by lra. cbn [INR]. lra.
Qed.
