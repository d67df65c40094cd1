(** Decision of the order predicates, for examples; subsequences. *)
From Verif Require Import PyBase InterpSpec.
Open Scope Q_scope.

Fixpoint chain {A} (r : A -> A -> bool) (l : list A) : bool :=
  match l with
  | a :: (b :: _) as l' => r a b && chain r l'
  | _ => true
  end.

Lemma chain_sorted {A} (r : A -> A -> bool) (R : A -> A -> Prop) :
  (forall a b, r a b = true -> R a b) -> (forall a b c, R a b -> R b c -> R a c) ->
  forall l, chain r l = true ->
  forall i j a b, (i < j)%nat -> nth_error l i = Some a -> nth_error l j = Some b -> R a b.
Proof.
  intros HR HT. induction l as [|x l IH]; intros H i j a b L XA B; [destruct i; discriminate|].
  destruct j as [|j]; [lia|]. cbn in B.
  destruct l as [|y l]; [destruct j; discriminate|]. cbn in H. apply andb_prop in H. destruct H as [H1 H2].
  destruct i as [|i].
  - injection XA as <-. destruct j as [|j].
    + injection B as <-. now apply HR.
    + apply (HT x y b); [now apply HR|]. apply (IH H2 0%nat (S j) y b); [lia|reflexivity|exact B].
  - apply (IH H2 i j a b); [lia|exact XA|exact B].
Qed.

Lemma increasing_chain {A} (f : A -> Q) l : chain (fun a b => Qltb (f a) (f b)) l = true -> increasing f l.
Proof.
  intro H. unfold increasing. intros i j a b L X Y.
  apply (chain_sorted (fun a b => Qltb (f a) (f b)) (fun a b => f a < f b)) with (l := l) (i := i) (j := j); auto.
  - intros. now apply Qltb_lt.
  - intros x y z. apply Qlt_trans.
Qed.

Lemma nondecreasing_chain {A} (f : A -> Q) l : chain (fun a b => Qle_bool (f a) (f b)) l = true -> nondecreasing f l.
Proof.
  intro H. unfold nondecreasing. intros i j a b L X Y.
  apply (chain_sorted (fun a b => Qle_bool (f a) (f b)) (fun a b => f a <= f b)) with (l := l) (i := i) (j := j); auto.
  - intros. now apply Qle_bool_iff.
  - intros x y z. apply Qle_trans.
Qed.
