(** C32: the ALR and Autosub streams. *)
From Verif Require Import PyBase InterpSpec ListFacts StreamModel.
Open Scope Q_scope.

(** ** Specification: the last record of each timestamp, in order. *)
Section Spec.
  Context {D : Type}.
  Definition same_time (r x : @record D) : bool := Qeq_bool (fst x) (fst r).
  Fixpoint latest (l : list (@record D)) : list (@record D) :=
    match l with
    | [] => []
    | r :: rest => if existsb (same_time r) rest then latest rest else r :: latest rest
    end.

  Lemma latest_In : forall l x, In x (latest l) -> In x l.
  Proof.
    induction l as [|r l IH]; intros x H; [exact H|]. cbn in H. destruct existsb; [right; auto|].
    destruct H as [<-|H]; [now left|right; auto].
  Qed.
  Lemma nd_tail : forall (r : @record D) l, nondecreasing fst (r :: l) -> nondecreasing fst l.
  Proof. intros r l H i j a b L A B. apply (H (S i) (S j) a b); [lia|exact A|exact B]. Qed.
  Lemma nd_head : forall (r : @record D) l x, nondecreasing fst (r :: l) -> In x l -> fst r <= fst x.
  Proof. intros r l x H I. apply In_nth_error in I as [k K]. apply (H 0%nat (S k) r x); [lia|reflexivity|exact K]. Qed.

  Lemma latest_increasing : forall l, nondecreasing fst l -> increasing fst (latest l).
  Proof.
    induction l as [|r l IH]; intros H.
    - intros i j a b L A. destruct i; discriminate.
    - cbn. destruct (existsb (same_time r) l) eqn:E; [apply IH; eapply nd_tail; eauto|].
      intros i j a b L A B. destruct j as [|j]; [lia|]. cbn in B. destruct i as [|i].
      + cbn in A. injection A as <-. apply nth_error_In, latest_In in B.
        pose proof (nd_head _ _ _ H B) as P. apply Qle_lteq in P as [P|P]; [exact P|].
        assert (existsb (same_time r) l = true); [|congruence].
        apply existsb_exists. exists b. split; [exact B|]. apply Qeq_bool_iff. now symmetry.
      + cbn in A. apply (IH (nd_tail _ _ H) i j a b); [lia|exact A|exact B].
  Qed.

  (** What [latest] keeps: exactly the records with no later record at their timestamp. *)
  Lemma latest_spec : forall l x, In x (latest l) <-> exists a b, l = a ++ x :: b /\ forall y, In y b -> ~ fst y == fst x.
  Proof.
    induction l as [|r l IH]; intro x.
    - split; [intros []|]. intros (a & b & E & _). destruct a; discriminate.
    - cbn. destruct (existsb (same_time r) l) eqn:E.
      + rewrite IH. split.
        * intros (a & b & -> & N). exists (r :: a), b. auto.
        * intros (a & b & Q1 & N). destruct a as [|y a]; [|injection Q1 as _ ->; eauto].
          injection Q1 as -> ->. apply existsb_exists in E as (y & I & T). apply Qeq_bool_iff in T. destruct (N y I T).
      + split.
        * intros [<-|H].
          -- exists [], l. split; [reflexivity|]. intros y I T.
             assert (existsb (same_time r) l = true); [|congruence]. apply existsb_exists. exists y. split; [exact I|]. now apply Qeq_bool_iff.
          -- apply IH in H as (a & b & -> & N). exists (r :: a), b. auto.
        * intros (a & b & Q1 & N). destruct a as [|y a]; [injection Q1 as -> ->; now left|].
          injection Q1 as -> ->. right. apply IH. eauto.
  Qed.
End Spec.

Section Proofs.
  Context {D : Type}.
  Notation record := (@record D).

  Lemma removelast_app1 : forall (l : list record) x, removelast (l ++ [x]) = l.
  Proof. intros. rewrite removelast_app by discriminate. cbn. apply app_nil_r. Qed.

  Lemma loop_latest : forall rows done (p : record), nondecreasing fst (p :: rows) ->
    loop (fst p) (done ++ [p]) rows = Some (done ++ latest (p :: rows)).
  Proof.
    induction rows as [|r rows IH]; intros done p H; [reflexivity|].
    pose proof (nd_tail _ _ H) as HT. pose proof (nd_head _ _ r H (or_introl eq_refl)) as PR.
    cbn [loop]. destruct (Qltb (fst p) (fst r)) eqn:L.
    - apply Qltb_lt in L. rewrite (IH (done ++ [p]) r HT), <- app_assoc. f_equal. f_equal.
      change (latest (p :: r :: rows)) with (if existsb (same_time p) (r :: rows) then latest (r :: rows) else p :: latest (r :: rows)).
      destruct (existsb (same_time p) (r :: rows)) eqn:E; [exfalso|reflexivity].
      apply existsb_exists in E as (y & I & T). apply Qeq_bool_iff in T.
      destruct I as [<-|I]; [lra|]. pose proof (nd_head _ _ y HT I). lra.
    - apply Qltb_ge in L. destruct (done ++ [p]) eqn:E; [destruct done; discriminate|]. rewrite <- E, removelast_app1, (IH done r HT).
      f_equal. f_equal.
      change (latest (p :: r :: rows)) with (if existsb (same_time p) (r :: rows) then latest (r :: rows) else p :: latest (r :: rows)).
      assert (existsb (same_time p) (r :: rows) = true) as ->; [|reflexivity].
      cbn. apply orb_true_iff. left. apply Qeq_bool_iff. lra.
  Qed.
End Proofs.

(** For a log in time order (after the epoch), the parsers return the latest record of
    each timestamp, strictly increasing. *)
Theorem C32_in_order : forall D (rows : list (@record D)), nondecreasing fst rows -> (forall r, In r rows -> 0 < fst r) ->
  exists out, parse_stream rows = Some out /\ increasing fst out /\
    (forall x, In x out <-> exists a b, rows = a ++ x :: b /\ forall y, In y b -> ~ fst y == fst x).
Proof.
  intros D rows H P. exists (latest rows). split; [|split; [now apply latest_increasing|apply latest_spec]].
  destruct rows as [|r rows]; [reflexivity|]. unfold parse_stream. cbn [loop].
  assert (Qltb 0 (fst r) = true) as -> by (apply Qltb_lt, P; now left). exact (loop_latest rows [] r H).
Qed.
Print Assumptions C32_in_order.

(** Whatever the log, nothing is invented and the last row is always kept. *)
Lemma loop_In : forall D rows prev (acc : list (@record D)) out, loop prev acc rows = Some out ->
  forall x, In x out -> In x acc \/ In x rows.
Proof.
  intros D. induction rows as [|r rows IH]; intros prev acc out H x I.
  - injection H as <-. auto.
  - cbn [loop] in H. destruct (Qltb prev (fst r)).
    + destruct (IH _ _ _ H x I) as [J|J]; [|right; now right].
      apply in_app_iff in J as [J|[<-|[]]]; [now left|right; now left].
    + destruct acc as [|a acc]; [discriminate|]. destruct (IH _ _ _ H x I) as [J|J]; [|right; now right].
      apply in_app_iff in J as [J|[<-|[]]]; [left|right; now left].
      rewrite (app_removelast_last a (l := a :: acc)) by discriminate. apply in_app_iff. now left.
Qed.
Lemma loop_last : forall D rows prev (acc : list (@record D)) r, forall out,
  loop prev acc (rows ++ [r]) = Some out -> exists l, out = l ++ [r].
Proof.
  intros D. induction rows as [|q rows IH]; intros prev acc r out H.
  - cbn [app loop] in H. destruct (Qltb prev (fst r)); [injection H as <-; eauto|]. destruct acc; [discriminate|]. injection H as <-. eauto.
  - cbn [app loop] in H. destruct (Qltb prev (fst q)); [eauto|]. destruct acc; [discriminate|eauto].
Qed.
Theorem C32_nothing_invented : forall D (rows : list (@record D)) r out, parse_stream (rows ++ [r]) = Some out ->
  (forall x, In x out -> In x (rows ++ [r])) /\ is_last out r.
Proof.
  intros D rows r out H. split; [|exact (loop_last _ _ _ _ _ _ H)].
  intros x I. destruct (loop_In _ _ _ _ _ H x I) as [[]|J]. exact J.
Qed.
Print Assumptions C32_nothing_invented.

(** One clock step back breaks the order and loses an unrelated record. *)
Theorem C132_refuted : exists (rows : list (@record nat)) out, (forall r, In r rows -> 0 < fst r) /\ NoDup (map fst rows) /\
  parse_stream rows = Some out /\ ~ increasing fst out /\ exists r, In r rows /\ ~ In r out.
Proof.
  exists [(10, 0%nat); (20, 1%nat); (5, 2%nat); (7, 3%nat)], [(10, 0%nat); (5, 2%nat); (7, 3%nat)].
  split; [intros r H; repeat (destruct H as [<-|H]; [reflexivity|]); destruct H|].
  split; [repeat constructor; cbn; intuition discriminate|].
  split; [reflexivity|]. split.
  - intro I. specialize (I 0%nat 1%nat _ _ ltac:(lia) eq_refl eq_refl). cbn in I. discriminate I.
  - exists (20, 1%nat). split; [right; now left|]. cbn. intuition discriminate.
Qed.
Print Assumptions C132_refuted.

(** A log whose first usable row is stamped 0 (mission time) raises. *)
Theorem C132_epoch_refuted : exists rows : list (@record nat), increasing fst rows /\ parse_stream rows = None.
Proof. exists [(0, 0%nat); (1, 1%nat)]. split; [apply increasing_chain; reflexivity|reflexivity]. Qed.
Print Assumptions C132_epoch_refuted.

Example C32_example :
  parse_stream [(10, 0%nat); (10, 1%nat); (11, 2%nat); (12, 3%nat); (12, 4%nat)] = Some [(10, 1%nat); (11, 2%nat); (12, 4%nat)].
Proof. reflexivity. Qed.
