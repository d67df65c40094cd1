(** Python's [list.sort] / [sorted] with a numeric key: a stable sort, modelled by
    stable insertion.  [sort(reverse=True)] keeps the order of equal elements too,
    so it is [qsort] on the negated key. *)
From Coq Require Import Permutation.
From Verif Require Import PyBase InterpSpec.
Open Scope Q_scope.

Section S.
  Context {A : Type} (key : A -> Q).

  Fixpoint qinsert (x : A) (l : list A) : list A :=
    match l with
    | [] => [x]
    | y :: l' => if Qle_bool (key x) (key y) then x :: l else y :: qinsert x l'
    end.
  Fixpoint qsort (l : list A) : list A :=
    match l with [] => [] | x :: l' => qinsert x (qsort l') end.

  Lemma qinsert_perm x l : Permutation (x :: l) (qinsert x l).
  Proof.
    induction l as [|y l IH]; [reflexivity|]. cbn. destruct (Qle_bool _ _); [reflexivity|].
    rewrite perm_swap. now apply perm_skip.
  Qed.
  Lemma qsort_perm l : Permutation l (qsort l).
  Proof.
    induction l as [|x l IH]; [reflexivity|]. cbn. rewrite <- qinsert_perm. now apply perm_skip.
  Qed.
  Lemma qsort_length l : length (qsort l) = length l.
  Proof. symmetry. apply Permutation_length, qsort_perm. Qed.
  Lemma qsort_In x l : In x (qsort l) <-> In x l.
  Proof. split; apply Permutation_in; [symmetry|]; apply qsort_perm. Qed.

  Lemma nd_cons_iff x l :
    nondecreasing key (x :: l) <-> (forall y, In y l -> key x <= key y) /\ nondecreasing key l.
  Proof.
    split.
    - intro H. split.
      + intros y Hy. apply In_nth_error in Hy. destruct Hy as [n Hn].
        apply (H 0%nat (S n) x y); [lia|reflexivity|exact Hn].
      + intros i j a b L Ha Hb. apply (H (S i) (S j) a b); [lia|exact Ha|exact Hb].
    - intros [H1 H2] i j a b L Ha Hb. destruct j as [|j]; [lia|]. cbn in Hb. destruct i as [|i].
      + injection Ha as <-. apply H1. eapply nth_error_In; eauto.
      + apply (H2 i j a b); [lia|exact Ha|exact Hb].
  Qed.

  Lemma qinsert_sorted x l : nondecreasing key l -> nondecreasing key (qinsert x l).
  Proof.
    induction l as [|y l IH]; intro H.
    - apply nd_cons_iff. split; [intros ? []|exact H].
    - cbn. destruct (Qle_bool (key x) (key y)) eqn:E.
      + apply nd_cons_iff. split; [|exact H]. apply Qle_bool_iff in E.
        apply nd_cons_iff in H. destruct H as [H _]. intros z [<-|Hz]; [exact E|].
        specialize (H z Hz). lra.
      + apply nd_cons_iff in H. destruct H as [H1 H2]. apply nd_cons_iff. split; [|now apply IH].
        intros z Hz. apply (Permutation_in z (Permutation_sym (qinsert_perm x l))) in Hz.
        destruct Hz as [<-|Hz]; [|now apply H1].
        assert (~ key x <= key y) by (rewrite <- Qle_bool_iff, E; discriminate). lra.
  Qed.
  Lemma qsort_sorted l : nondecreasing key (qsort l).
  Proof.
    induction l as [|x l IH]; [intros [|i] j a b L Ha; discriminate|]. cbn. now apply qinsert_sorted.
  Qed.

  (** An ordered list is left alone. *)
  Lemma qsort_id l : nondecreasing key l -> qsort l = l.
  Proof.
    induction l as [|x l IH]; intro H; [reflexivity|]. apply nd_cons_iff in H. destruct H as [H1 H2].
    cbn. rewrite (IH H2). destruct l as [|y l]; [reflexivity|]. cbn.
    assert (L : key x <= key y) by (apply H1; now left). apply Qle_bool_iff in L. now rewrite L.
  Qed.

  (** Stability: elements with one and the same key keep their order. *)
  Lemma qinsert_filter_in k x l : Qeq_bool (key x) k = true -> nondecreasing key l ->
    filter (fun y => Qeq_bool (key y) k) (qinsert x l) = x :: filter (fun y => Qeq_bool (key y) k) l.
  Proof.
    intros E. induction l as [|y l IH]; intro H; cbn; [now rewrite E|].
    destruct (Qle_bool (key x) (key y)) eqn:L; cbn; [now rewrite E|].
    apply nd_cons_iff in H. destruct H as [H1 H2]. rewrite (IH H2).
    destruct (Qeq_bool (key y) k) eqn:F; [|reflexivity].
    apply Qeq_bool_iff in E, F. exfalso.
    assert (~ key x <= key y) by (rewrite <- Qle_bool_iff, L; discriminate). lra.
  Qed.
  Lemma qinsert_filter_out k x l : Qeq_bool (key x) k = false ->
    filter (fun y => Qeq_bool (key y) k) (qinsert x l) = filter (fun y => Qeq_bool (key y) k) l.
  Proof.
    intros E. induction l as [|y l IH]; cbn; [now rewrite E|].
    destruct (Qle_bool (key x) (key y)) eqn:L; cbn; [now rewrite E|].
    now rewrite IH.
  Qed.
  Lemma qsort_stable k l :
    filter (fun y => Qeq_bool (key y) k) (qsort l) = filter (fun y => Qeq_bool (key y) k) l.
  Proof.
    induction l as [|x l IH]; [reflexivity|]. cbn [qsort]. destruct (Qeq_bool (key x) k) eqn:E.
    - rewrite (qinsert_filter_in k x _ E (qsort_sorted l)). cbn. now rewrite E, IH.
    - rewrite (qinsert_filter_out k x _ E). cbn. now rewrite E, IH.
  Qed.
End S.
