(** C40: merging dives. *)
From Coq Require Import String.
From Verif Require Import PyBase PfProofs MergeModel.

Section Proofs.
  Context {A : Type}.
  Notation item := (item A). Notation dive := (dive A). Notation origin := (origin A).

  (** ** Specification *)
  Definition prefixed (p : string) (a b : option string) : Prop :=
    match a, b with None, None => True | Some x, Some y => y = String.append p x | _, _ => False end.
  (** The same record with its image paths under folder [d]. *)
  Definition moved (d : string) (i j : item) : Prop :=
    let p := String.append d "/" in
    prefixed p (cam1 i) (cam1 j) /\ prefixed p (cam2 i) (cam2 j) /\ prefixed p (cam3 i) (cam3 j) /\
    laser j = laser i /\ rest j = rest i /\ (if laser i then prefixed p (file i) (file j) else file j = file i).
  Definition same_origin (a b : origin) : Prop := (lat a == lat b /\ lon a == lon b)%Q.
  (** Laser records have a file name (those of the SeaXerocks parser do). *)
  Definition named (d : dive) : Prop := forall i, In i (items d) -> laser i = true -> file i <> None.

  Lemma rename_moved : forall d i j, rename (String.append d "/") i = Some j -> moved d i j.
  Proof.
    intros d [c1 c2 c3 l f r] j H. unfold rename in H. cbn [laser file cam1 cam2 cam3 rest] in H. unfold moved. cbn [laser file cam1 cam2 cam3 rest].
    destruct l.
    - destruct f as [f|]; [|discriminate]. injection H as <-. cbn [laser file cam1 cam2 cam3 rest pre option_map].
      repeat split; try (now destruct c1); try (now destruct c2); now destruct c3.
    - injection H as <-. cbn [laser file cam1 cam2 cam3 rest]. repeat split; try (now destruct c1); try (now destruct c2); now destruct c3.
  Qed.
  Lemma rename_all_moved : forall d l l', rename_all (String.append d "/") l = Some l' -> Forall2 (moved d) l l'.
  Proof.
    induction l as [|i l IH]; intros l' H; cbn [rename_all] in H.
    - assert (l' = []) as -> by congruence. constructor.
    - destruct (rename _ i) as [j|] eqn:R; [|discriminate]. destruct (rename_all _ l) as [m|]; [|discriminate].
      assert (l' = j :: m) as -> by congruence. constructor; [now apply rename_moved|now apply IH].
  Qed.
  Lemma rename_all_some : forall d (l : list item), (forall i, In i l -> laser i = true -> file i <> None) -> rename_all d l <> None.
  Proof.
    induction l as [|i l IH]; intros H; cbn [rename_all]; [discriminate|].
    assert (rename d i <> None) as R.
    { unfold rename. destruct (laser i) eqn:L; [|discriminate]. destruct (file i) eqn:F; [discriminate|]. exfalso. apply (H i); [now left|exact L|exact F]. }
    destruct (rename d i); [|congruence]. destruct (rename_all d l) eqn:E; [discriminate|]. exfalso. apply IH; [|reflexivity].
    intros k I. apply H. now right.
  Qed.

  (** [l] is the records of the dives, dive after dive. *)
  Inductive gathered : list dive -> list item -> Prop :=
  | g_nil : gathered [] []
  | g_cons : forall d ds l ls, Forall2 (moved (name d)) (items d) l -> gathered ds ls -> gathered (d :: ds) (l ++ ls).

  Lemma origin_eqb : forall a b : origin, (Qeq_bool (lat a) (lat b) && Qeq_bool (lon a) (lon b))%bool = true <-> same_origin a b.
  Proof. intros. rewrite Bool.andb_true_iff, !Qeq_bool_iff. reflexivity. Qed.

  Lemma merge_done : forall ds o acc o' l, merge_from o acc ds = Done o' l ->
    exists l', l = acc ++ l' /\ gathered ds l' /\
      match o with
      | Some a => o' = Some a /\ forall d, In d ds -> same_origin a (org d)
      | None => match ds with [] => o' = None | d :: ds => o' = Some (org d) /\ forall e, In e ds -> same_origin (org d) (org e) end
      end.
  Proof.
    induction ds as [|d ds IH]; intros o acc o' l H; cbn [merge_from] in H.
    - assert (o' = o /\ l = acc) as [-> ->] by (split; congruence). exists []. rewrite app_nil_r. split; [reflexivity|]. split; [constructor|].
      destruct o; [|reflexivity]. split; [reflexivity|]. intros d [].
    - destruct o as [a|].
      + destruct (_ && _)%bool eqn:E; [|discriminate]. apply origin_eqb in E.
        destruct (rename_all _ (items d)) as [m|] eqn:R; [|discriminate]. apply rename_all_moved in R.
        apply IH in H as (l' & -> & G & -> & S). exists (m ++ l'). split; [now rewrite app_assoc|]. split; [now constructor|].
        split; [reflexivity|]. intros e [<-|I]; [exact E|now apply S].
      + destruct (rename_all _ (items d)) as [m|] eqn:R; [|discriminate]. apply rename_all_moved in R.
        apply IH in H as (l' & -> & G & -> & S). exists (m ++ l'). split; [now rewrite app_assoc|]. split; [now constructor|]. now split.
  Qed.
  Lemma merge_some : forall ds o acc, (forall d, In d ds -> named d) ->
    match o with
    | Some a => (forall d, In d ds -> same_origin a (org d)) -> exists l, merge_from o acc ds = Done o l
    | None => True
    end.
  Proof.
    induction ds as [|d ds IH]; intros o acc N; destruct o as [a|]; trivial; intros S; cbn [merge_from].
    - now eexists.
    - assert (same_origin a (org d)) as E by (apply S; now left). apply origin_eqb in E. rewrite E.
      destruct (rename_all _ (items d)) as [m|] eqn:R; [|exfalso; revert R; apply rename_all_some; apply N; now left].
      apply (IH (Some a) (acc ++ m)); [intros e I; apply N; now right|intros e I; apply S; now right].
  Qed.
  Lemma merge_quit : forall ds o acc d a, In d ds -> o = Some a -> ~ same_origin a (org d) -> forall o' l, merge_from o acc ds <> Done o' l.
  Proof.
    intros ds o acc d a I E N o' l H. apply merge_done in H as (l' & _ & _ & S). subst o. destruct S as [_ S]. now apply N, S.
  Qed.
End Proofs.

(** A merge that returns has the first dive's origin once, every dive has that origin, and
    the records are those of every dive in order with only their image paths moved. *)
Theorem C40_every_record : forall A (d : dive A) ds o l, merge_json_files (d :: ds) = Done o l ->
  o = Some (org d) /\ (forall e, In e ds -> same_origin (org d) (org e)) /\ gathered (d :: ds) l.
Proof.
  intros A d ds o l H. apply merge_done in H as (l' & E & G & S). cbn [app] in E. subst l'. now destruct S.
Qed.
Print Assumptions C40_every_record.
Theorem C40_count : forall A (ds : list (dive A)) l, gathered ds l -> length l = fold_right (fun d n => length (items d) + n)%nat 0%nat ds.
Proof.
  intros A ds l G. induction G as [|d ds l ls F G IH]; [reflexivity|]. rewrite app_length. cbn [fold_right]. rewrite IH. f_equal.
  symmetry. eapply Forall2_length; eauto.
Qed.
Print Assumptions C40_count.
(** It does return when all origins agree and laser records have a file name. *)
Theorem C40_merges : forall A (d : dive A) ds, (forall e, In e (d :: ds) -> named e) -> (forall e, In e ds -> same_origin (org d) (org e)) ->
  exists l, merge_json_files (d :: ds) = Done (Some (org d)) l.
Proof.
  intros A d ds N S. unfold merge_json_files. cbn [merge_from].
  destruct (rename_all _ (items d)) as [m|] eqn:R; [|exfalso; revert R; apply rename_all_some; apply N; now left].
  apply (merge_some ds (Some (org d)) m); [intros e I; apply N; now right|exact S].
Qed.
Print Assumptions C40_merges.
(** Different origins: never merged. *)
Theorem C40_origins_rejected : forall A (d e : dive A) ds, In e ds -> ~ same_origin (org d) (org e) ->
  forall o l, merge_json_files (d :: ds) <> Done o l.
Proof. intros A d e ds I N o l H. apply C40_every_record in H as (_ & S & _). now apply N, S. Qed.
Print Assumptions C40_origins_rejected.
(** A BioCam laser record (parse_biocam_images.py:249-264) has its file name under
    "camera3" only, so such dives cannot be merged. *)
Definition o1 : origin nat := mkorigin 50 (-4) 0%nat.
Definition biocam : dive nat := mkdive "20190928_144900_ae2000f" o1 [mkitem None None (Some "image/c003.jpg"%string) true None 9%nat].
Theorem C140_biocam_laser_refuted : exists d e : dive nat, same_origin (org d) (org e) /\ merge_json_files [d; e] = Crash.
Proof. exists biocam, biocam. split; [split; reflexivity|reflexivity]. Qed.
Print Assumptions C140_biocam_laser_refuted.
Open Scope string_scope.
Example C40_example : merge_json_files
    [mkdive "d1" o1 [mkitem (Some "l/1.tif") (Some "r/1.tif") None false None 1%nat];
     mkdive "d2" o1 [mkitem None None None true (Some "x/2.jpg") 2%nat; mkitem None None None false None 3%nat]] =
  Done (Some o1) [mkitem (Some "d1/l/1.tif") (Some "d1/r/1.tif") None false None 1%nat;
                  mkitem None None None true (Some "d2/x/2.jpg") 2%nat; mkitem None None None false None 3%nat].
Proof. reflexivity. Qed.
