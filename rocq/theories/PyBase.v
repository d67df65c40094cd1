(** Shared Python idioms: list indexing, comparison of numbers, angles. *)
From Coq Require Export List ZArith QArith Qabs Lia Lqa.
Export ListNotations.

(** Python list indexing [l[i]]: negative indices count from the end,
    [None] is IndexError. *)
Definition py_nth {A} (l : list A) (i : Z) : option A :=
  if (i <? 0)%Z then
    if (i + Z.of_nat (length l) <? 0)%Z then None
    else nth_error l (Z.to_nat (i + Z.of_nat (length l)))
  else nth_error l (Z.to_nat i).

(** Python [a < b] on exact numbers. *)
Definition Qltb (a b : Q) : bool := negb (Qle_bool b a).

Lemma Qltb_lt a b : Qltb a b = true <-> (a < b)%Q.
Proof.
  unfold Qltb. rewrite Bool.negb_true_iff, <- Bool.not_true_iff_false, Qle_bool_iff.
  split; intro H. { apply Qnot_le_lt; exact H. } { apply Qlt_not_le; exact H. }
Qed.

Lemma Qltb_ge a b : Qltb a b = false <-> (b <= a)%Q.
Proof.
  unfold Qltb. rewrite Bool.negb_false_iff. apply Qle_bool_iff.
Qed.

Lemma py_nth_nat {A} (l : list A) (n : nat) : py_nth l (Z.of_nat n) = nth_error l n.
Proof.
  unfold py_nth. destruct (Z.ltb_spec (Z.of_nat n) 0) as [H|H]; [lia|].
  now rewrite Nat2Z.id.
Qed.

Lemma py_nth_pred {A} (l : list A) (n : nat) :
  (0 < n)%nat -> py_nth l (Z.of_nat n - 1) = nth_error l (n - 1).
Proof.
  intro H. replace (Z.of_nat n - 1)%Z with (Z.of_nat (n - 1)) by lia. apply py_nth_nat.
Qed.

Lemma py_nth_m1 {A} (l : list A) :
  py_nth l (-1) = nth_error l (length l - 1) \/ l = [].
Proof.
  destruct l as [|a l']; [now right|left].
  unfold py_nth. change (-1 <? 0)%Z with true. cbv iota.
  destruct (Z.ltb_spec (-1 + Z.of_nat (length (a :: l'))) 0) as [H|H].
  - simpl length in H. lia.
  - f_equal. lia.
Qed.
