(** C20: wrapping of angles. *)
From Coq Require Import Reals Lra Lia ZArith.
From Verif Require Import AngleModel AngleProofs.
Open Scope R_scope.

(** Wrapping terminates for every angle; the result is in the closed range, a
    whole number of turns away, and unchanged if it was in the range. *)
Theorem C20_wrap : forall r, exists n v (k : Z), (forall f, (n < f)%nat -> clamp_rotation f r = Some v) /\
  - PI <= v <= PI /\ v = r + IZR k * (2 * PI) /\ (- PI <= r <= PI -> v = r).
Proof. exact clamp_spec. Qed.
Print Assumptions C20_wrap.

(** Same direction. *)
Theorem C20_same_direction : forall r f v, clamp_rotation f r = Some v -> cos v = cos r /\ sin v = sin r.
Proof.
  intros r f v H. destruct (clamp_spec r) as (n & w & k & F & _ & E & _).
  assert (W : v = w).
  { assert (M : forall f r v, turn_back f r = Some v -> turn_back (S f) r = Some v).
    { induction f0 as [|f0 IH]; intros r0 v0 X; [discriminate|]. cbn [turn_back] in X.
      change (turn_back (S (S f0)) r0) with (if Rlt_dec PI r0 then turn_back (S f0) (r0 - 2 * PI) else Some r0).
      destruct (Rlt_dec PI r0); [now apply IH|exact X]. }
    assert (N : forall f r v, turn_forth f r = Some v -> turn_forth (S f) r = Some v).
    { induction f0 as [|f0 IH]; intros r0 v0 X; [discriminate|]. cbn [turn_forth] in X.
      change (turn_forth (S (S f0)) r0) with (if Rlt_dec r0 (- PI) then turn_forth (S f0) (r0 + 2 * PI) else Some r0).
      destruct (Rlt_dec r0 (- PI)); [now apply IH|exact X]. }
    assert (G : forall d, clamp_rotation (d + f) r = Some v).
    { induction d as [|d IH]; [exact H|]. cbn [plus]. revert IH. unfold clamp_rotation.
      destruct (turn_back (d + f) r) eqn:T; [|discriminate]. rewrite (M _ _ _ T). apply N. }
    specialize (G (S n)). rewrite F in G by lia. congruence. }
  rewrite W. clear W H.
  assert (P : forall (g : R -> R), (forall x, g (x + 2 * PI) = g x) -> forall j : Z, g (r + IZR j * (2 * PI)) = g r).
  { intros g Hg. assert (A : forall (m : nat) x, g (x + INR m * (2 * PI)) = g x).
    { induction m as [|m IH]; intro x; [cbn; f_equal; lra|]. rewrite S_INR.
      replace (x + (INR m + 1) * (2 * PI)) with (x + INR m * (2 * PI) + 2 * PI) by lra. rewrite Hg. apply IH. }
    intro j. destruct (Z.le_ge_cases 0 j) as [J|J].
    - destruct (Z_of_nat_complete j J) as [m ->]. rewrite <- INR_IZR_INZ. apply A.
    - destruct (Z_of_nat_complete (- j) ltac:(lia)) as [m Hm]. replace (IZR j) with (- INR m).
      + rewrite <- (A m (r + - INR m * (2 * PI))). f_equal. lra.
      + rewrite INR_IZR_INZ, <- Hm, opp_IZR. lra. }
  rewrite E. split.
  - apply P. intro x. rewrite cos_plus, cos_2PI, sin_2PI. lra.
  - apply P. intro x. rewrite sin_plus, cos_2PI, sin_2PI. lra.
Qed.
Print Assumptions C20_same_direction.

(** Wrapping twice changes nothing, with one pass of each test. *)
Theorem C20_idempotent : forall r f v, clamp_rotation f r = Some v -> clamp_rotation 1 v = Some v.
Proof.
  intros r f v H. unfold clamp_rotation in *. destruct (turn_back f r) as [w|] eqn:B; [|discriminate].
  assert (X : forall f r w, turn_back f r = Some w -> w <= PI).
  { induction f0 as [|f0 IH]; intros a b Y; [discriminate|]. cbn in Y. destruct (Rlt_dec PI a); [now apply IH in Y|]. injection Y as <-. lra. }
  assert (Z : forall f r w, turn_forth f r = Some w -> - PI <= w /\ (r <= PI -> w <= PI)).
  { pose proof PI_RGT_0. induction f0 as [|f0 IH]; intros a b Y; [discriminate|]. cbn in Y.
    destruct (Rlt_dec a (- PI)).
    - apply IH in Y. destruct Y as [Y1 Y2]. split; [exact Y1|intros _; apply Y2; lra].
    - injection Y as <-. split; lra. }
  apply X in B. apply Z in H. destruct H as [H1 H2]. specialize (H2 B).
  cbn. destruct (Rlt_dec PI v); [lra|]. destruct (Rlt_dec v (- PI)); [lra|]. reflexivity.
Qed.
Print Assumptions C20_idempotent.

Example C20_example : clamp_rotation 2 (3 * PI) = Some PI /\ clamp_rotation 1 (- PI) = Some (- PI) /\
  clamp_rotation 2 (- (3 / 2) * PI) = Some (- (3 / 2) * PI + 2 * PI).
Proof.
  pose proof PI_RGT_0 as P. unfold clamp_rotation; cbn [turn_back turn_forth].
  split; [|split].
  - destruct (Rlt_dec PI (3 * PI)); [|lra]. destruct (Rlt_dec PI (3 * PI - 2 * PI)); [lra|].
    destruct (Rlt_dec (3 * PI - 2 * PI) (- PI)); [lra|]. f_equal. lra.
  - destruct (Rlt_dec PI (- PI)); [lra|]. destruct (Rlt_dec (- PI) (- PI)); [lra|]. reflexivity.
  - destruct (Rlt_dec PI (- (3 / 2) * PI)); [lra|]. destruct (Rlt_dec (- (3 / 2) * PI) (- PI)); [|lra].
    destruct (Rlt_dec (- (3 / 2) * PI + 2 * PI) (- PI)); [lra|]. reflexivity.
Qed.
