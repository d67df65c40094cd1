From Coq Require Import Reals List Lra Lia.
From Coquelicot Require Import Coquelicot.
From Verif Require Import FramesModel EkfJacModel.
Open Scope R_scope.

Definition set (s : state) (j : nat) (h : R) : state := fun k => if Nat.eqb k j then h else s k.

Lemma motion_forms delta s :
  let cr := cos (s 3%nat) in let sr := sin (s 3%nat) in
  let cp := cos (s 4%nat) in let sp := sin (s 4%nat) in
  let cy := cos (s 5%nat) in let sy := sin (s 5%nat) in
  motion delta s 0 = s 0%nat + delta * (cy * cp * s 6%nat + (cy * sp * sr - sy * cr) * s 7%nat + (cy * sp * cr + sy * sr) * s 8%nat) /\
  motion delta s 1 = s 1%nat + delta * (sy * cp * s 6%nat + (sy * sp * sr + cy * cr) * s 7%nat + (sy * sp * cr - cy * sr) * s 8%nat) /\
  motion delta s 2 = s 2%nat + delta * (- sp * s 6%nat + cp * sr * s 7%nat + cp * cr * s 8%nat) /\
  motion delta s 3 = s 3%nat + delta * (s 9%nat + sr * (sp / cp) * s 10%nat + cr * (sp / cp) * s 11%nat) /\
  motion delta s 4 = s 4%nat + delta * (cr * s 10%nat - sr * s 11%nat) /\
  motion delta s 5 = s 5%nat + delta * (sr / cp * s 10%nat + cr / cp * s 11%nat) /\
  (forall i, (6 <= i < 12)%nat -> motion delta s i = s i).
Proof.
  cbn zeta. unfold motion, DIM. cbn [seq fold_right].
  split; [|split; [|split; [|split; [|split; [|split]]]]].
  1-6: unfold transfer, eye, Rdiv; cbn [Nat.eqb]; ring.
  intros i H. do 12 (destruct i as [|i]; [try lia; unfold transfer, eye; cbn [Nat.eqb]; ring|]). lia.
Qed.

Ltac trig s C :=
  match goal with
  | |- ?a = ?b =>
      transitivity (b * (Rsqr (sin (s 4%nat)) + Rsqr (cos (s 4%nat))));
      [unfold Rsqr; field; exact C | rewrite sin2_cos2; ring]
  end.

Lemma jacobian_correct delta s i j : cos (s 4%nat) <> 0 -> (i < 12)%nat -> (j < 12)%nat ->
  is_derive (fun h => motion delta (set s j h) i) (s j) (jacobian delta s i j).
Proof.
  intros C Hi Hj.
  destruct (Nat.lt_ge_cases i 6) as [L|L].
  - apply (is_derive_ext (fun h => match i with
      | 0%nat => set s j h 0%nat + delta * (cos (set s j h 5%nat) * cos (set s j h 4%nat) * set s j h 6%nat + (cos (set s j h 5%nat) * sin (set s j h 4%nat) * sin (set s j h 3%nat) - sin (set s j h 5%nat) * cos (set s j h 3%nat)) * set s j h 7%nat + (cos (set s j h 5%nat) * sin (set s j h 4%nat) * cos (set s j h 3%nat) + sin (set s j h 5%nat) * sin (set s j h 3%nat)) * set s j h 8%nat)
      | 1%nat => set s j h 1%nat + delta * (sin (set s j h 5%nat) * cos (set s j h 4%nat) * set s j h 6%nat + (sin (set s j h 5%nat) * sin (set s j h 4%nat) * sin (set s j h 3%nat) + cos (set s j h 5%nat) * cos (set s j h 3%nat)) * set s j h 7%nat + (sin (set s j h 5%nat) * sin (set s j h 4%nat) * cos (set s j h 3%nat) - cos (set s j h 5%nat) * sin (set s j h 3%nat)) * set s j h 8%nat)
      | 2%nat => set s j h 2%nat + delta * (- sin (set s j h 4%nat) * set s j h 6%nat + cos (set s j h 4%nat) * sin (set s j h 3%nat) * set s j h 7%nat + cos (set s j h 4%nat) * cos (set s j h 3%nat) * set s j h 8%nat)
      | 3%nat => set s j h 3%nat + delta * (set s j h 9%nat + sin (set s j h 3%nat) * (sin (set s j h 4%nat) / cos (set s j h 4%nat)) * set s j h 10%nat + cos (set s j h 3%nat) * (sin (set s j h 4%nat) / cos (set s j h 4%nat)) * set s j h 11%nat)
      | 4%nat => set s j h 4%nat + delta * (cos (set s j h 3%nat) * set s j h 10%nat - sin (set s j h 3%nat) * set s j h 11%nat)
      | _ => set s j h 5%nat + delta * (sin (set s j h 3%nat) / cos (set s j h 4%nat) * set s j h 10%nat + cos (set s j h 3%nat) / cos (set s j h 4%nat) * set s j h 11%nat)
      end)).
    { intro h. destruct (motion_forms delta (set s j h)) as (M0 & M1 & M2 & M3 & M4 & M5 & _).
      do 6 (destruct i as [|i]; [congruence|]). lia. }
    unfold set.
    do 6 (destruct i as [|i]; [do 12 (destruct j as [|j]; [cbn [Nat.eqb]; unfold jacobian, transfer, eye; cbn [Nat.eqb];
      auto_derive; [solve [repeat split; auto]|solve [reflexivity | unfold Rdiv; ring | field; auto | trig s C]] |]); lia|]). lia.
  - apply (is_derive_ext (fun h => set s j h i)).
    { intro h. symmetry. apply motion_forms. lia. }
    unfold set. do 6 (destruct i as [|i]; [lia|]).
    do 6 (destruct i as [|i]; [do 12 (destruct j as [|j]; [cbn [Nat.eqb]; unfold jacobian, transfer, eye; cbn [Nat.eqb]; auto_derive; [exact I|ring] |]); lia|]). lia.
Qed.
