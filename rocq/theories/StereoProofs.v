(** Facts about stereo pairing. *)
From Verif Require Import PyBase UsblSpec UsblProofs StereoModel.
Open Scope Q_scope.

Section Facts.
  Context {N : Type}.
  Notation image := (image N).
  Implicit Types (a b : image) (lefts rights : list image).

  (** ** Specification *)
  Definition distance (a b : image) : Q := Qabs (i_t a - i_t b).
  Definition nearest (rights : list image) (a b : image) : Prop :=
    In b rights /\ forall x, In x rights -> distance a b <= distance a x.
  (** Close enough for the parser concerned. *)
  Definition close (k : flavour) (tol d : Q) : Prop :=
    match k with BiocamImages => d < tol | _ => d <= tol end.

  Lemma accepts_spec : forall k tol d, accepts k tol d = true <-> close k tol d.
  Proof.
    intros k tol d. destruct k; cbn; [| |apply Qltb_lt].
    - rewrite negb_true_iff. split; [apply Qltb_ge|]. intro H. destruct (Qltb tol d) eqn:E; [|reflexivity].
      apply Qltb_lt in E. lra.
    - rewrite negb_true_iff. split; [apply Qltb_ge|]. intro H. destruct (Qltb tol d) eqn:E; [|reflexivity].
      apply Qltb_lt in E. lra.
  Qed.
  Lemma close_le : forall k tol d d', d <= d' -> close k tol d' -> close k tol d.
  Proof. intros [] tol d d'; cbn; intros; lra. Qed.

  (** The least value, at its first position. *)
  Lemma argmin_spec : forall vs w k, argmin vs = Some (w, k) ->
    nth_error vs k = Some w /\ (forall v, In v vs -> w <= v) /\
    (forall j v, (j < k)%nat -> nth_error vs j = Some v -> w < v).
  Proof.
    induction vs as [|v vs IH]; intros w k H; [discriminate|]. cbn in H.
    destruct (argmin vs) as [[w' k']|] eqn:E.
    - specialize (IH w' k' eq_refl) as (IN & IM & IF). destruct (Qltb w' v) eqn:C; injection H as <- <-.
      + apply Qltb_lt in C. split; [exact IN|]. split.
        * intros u [<-|U]; [lra|auto].
        * intros [|j] u L NE; [cbn in NE; injection NE as <-; lra|]. apply (IF j); [lia|exact NE].
      + apply Qltb_ge in C. split; [reflexivity|]. split; [|intros; lia].
        intros u [<-|U]; [lra|]. specialize (IM u U). lra.
    - injection H as <- <-. destruct vs as [|x vs].
      + split; [reflexivity|]. split; [|intros; lia]. intros u [<-|[]]. lra.
      + exfalso. cbn in E. destruct (argmin vs) as [[? ?]|]; [destruct Qltb|]; discriminate.
  Qed.
  Lemma argmin_some : forall v vs, exists w k, argmin (v :: vs) = Some (w, k).
  Proof. intros v vs. cbn. destruct (argmin vs) as [[w k]|]; [destruct Qltb|]; eauto. Qed.

  (** What the loop makes of the left images, in order. *)
  Inductive paired (k : flavour) (tol : Q) (rights : list image) : list image -> list (pair N) -> Prop :=
  | paired_nil : paired k tol rights [] []
  | paired_yes : forall a b lefts ps, nearest rights a b -> close k tol (distance a b) ->
      paired k tol rights lefts ps -> paired k tol rights (a :: lefts) ((a, b) :: ps)
  | paired_no : forall a lefts ps, (forall b, In b rights -> ~ close k tol (distance a b)) ->
      paired k tol rights lefts ps -> paired k tol rights (a :: lefts) ps.

  Lemma skipn_map_nth : forall lefts (g : list Q) i a, skipn i g = map i_t (a :: lefts) ->
    nth_error g i = Some (i_t a) /\ skipn (S i) g = map i_t lefts.
  Proof.
    intros lefts g. induction g as [|x g IH]; intros [|i] a H; try discriminate.
    - cbn in H. injection H as -> ->. split; reflexivity.
    - cbn [skipn] in H. destruct (IH i a H) as [H1 H2]. split; [exact H1|exact H2].
  Qed.

  Lemma pair_loop_paired : forall k tol g1 rights lefts i, skipn i g1 = map i_t lefts -> (rights <> [] \/ lefts = []) ->
    exists ps, pair_loop k tol (g1, map i_t rights) rights i lefts = Some ps /\ paired k tol rights lefts ps.
  Proof.
    intros k tol g1 rights lefts. induction lefts as [|a lefts IH]; intros i S NE; [exists []; split; [reflexivity|constructor]|].
    destruct (skipn_map_nth lefts g1 i a S) as [E S']. cbn [pair_loop fst snd]. rewrite E.
    destruct (IH _ S') as (ps & EP & P); [destruct NE as [NE|NE]; [now left|discriminate]|].
    assert (length rights = length (map i_t rights)) as -> by now rewrite map_length.
    rewrite firstn_all, map_map.
    destruct rights as [|r rights']; [destruct NE as [NE|NE]; [now contradiction NE|discriminate]|].
    set (rights := r :: rights') in *.
    destruct (argmin_some (Qabs (i_t a - i_t r)) (map (fun x => Qabs (i_t a - i_t x)) rights')) as (w & j & A).
    change (argmin (map (fun x => Qabs (i_t a - i_t x)) rights) = Some (w, j)) in A. rewrite A.
    rewrite EP. destruct (argmin_spec _ _ _ A) as (NJ & MIN & _).
    destruct (nth_error rights j) as [b|] eqn:NB.
    2:{ apply nth_error_None in NB. assert (nth_error (map (fun x => Qabs (i_t a - i_t x)) rights) j = None) as C
        by (apply nth_error_None; rewrite map_length; exact NB). congruence. }
    rewrite (map_nth_error _ _ _ NB) in NJ. assert (w = Qabs (i_t a - i_t b)) as -> by congruence. clear NJ.
    assert (nearest rights a b) as NR.
    { split; [eapply nth_error_In; eauto|]. intros x X. apply MIN. apply in_map_iff. now exists x. }
    destruct (accepts k tol (Qabs (i_t a - i_t b))) eqn:AC.
    - rewrite (map_nth_error i_t _ _ NB). exists ((a, b) :: ps). split.
      + now destruct a, b.
      + constructor; auto. now apply accepts_spec.
    - exists ps. split; [reflexivity|]. constructor; [|exact P].
      intros x X C. apply (close_le k tol (distance a b)) in C; [|now apply NR].
      apply accepts_spec in C. unfold distance in C. congruence.
  Qed.

  (** Parsed alone: success exactly when there is something to compare with. *)
  Lemma parse_alone_spec : forall k tol (c : cameras N), (right_list k c <> [] \/ left_images c = []) ->
    exists ps, parse_alone k tol c = Some ps /\ paired k tol (right_list k c) (left_images c) ps.
  Proof. intros k tol c H. unfold parse_alone, parse_images. cbn [snd fst app]. now apply pair_loop_paired. Qed.
  Lemma parse_alone_crash : forall k tol (c : cameras N), right_list k c = [] -> left_images c <> [] ->
    parse_alone k tol c = None.
  Proof.
    intros k tol c R L. unfold parse_alone, parse_images. rewrite R. cbn [snd fst app map].
    destruct (left_images c) as [|a l]; [now contradiction L|]. reflexivity.
  Qed.

  (** Consequences of [paired]. *)
  Lemma paired_each : forall k tol rights lefts ps, paired k tol rights lefts ps ->
    forall a b, In (a, b) ps -> In a lefts /\ nearest rights a b /\ close k tol (distance a b).
  Proof.
    induction 1 as [|a b lefts ps NR C P IH|a lefts ps NC P IH]; intros x y I; [destruct I| |].
    - destruct I as [[= <- <-]|I]; [split; [now left|split; assumption]|].
      destruct (IH _ _ I) as (? & ? & ?). split; [now right|split; assumption].
    - destruct (IH _ _ I) as (? & ? & ?). split; [now right|split; assumption].
  Qed.
  Lemma paired_complete : forall k tol rights lefts ps, paired k tol rights lefts ps ->
    forall a b, In a lefts -> In b rights -> close k tol (distance a b) -> exists b', In (a, b') ps.
  Proof.
    induction 1 as [|a b lefts ps NR C P IH|a lefts ps NC P IH]; intros x y L R CL; [destruct L| |].
    - destruct L as [<-|L]; [exists b; now left|]. destruct (IH _ _ L R CL) as [b' ?]. exists b'. now right.
    - destruct L as [<-|L]; [now contradiction (NC y R)|]. exact (IH _ _ L R CL).
  Qed.
  Lemma paired_order : forall k tol rights lefts ps, paired k tol rights lefts ps -> subseq (map fst ps) lefts.
  Proof. induction 1; [apply sub_nil|now apply sub_keep|now apply sub_skip]. Qed.

  (** ** Module state *)
  (** Every reported timestamp is one of the first entries of the module lists. *)
  Lemma pair_loop_stamps : forall k tol g rights lefts i ps, pair_loop k tol g rights i lefts = Some ps ->
    forall a b, In (a, b) ps ->
      In (i_t a) (firstn (length lefts) (skipn i (fst g))) /\ In (i_t b) (firstn (length rights) (snd g)).
  Proof.
    intros k tol g rights lefts. induction lefts as [|l lefts IH]; intros i ps H a b I; [injection H as <-; destruct I|].
    cbn [pair_loop] in H. destruct (nth_error (fst g) i) as [t|] eqn:E; [|discriminate].
    destruct (argmin _) as [[d j]|] eqn:A; [|discriminate].
    destruct (pair_loop k tol g rights (S i) lefts) as [ps'|] eqn:R; [|discriminate].
    assert (skipn i (fst g) = t :: skipn (S i) (fst g)) as SK.
    { clear - E. revert i E. induction (fst g) as [|x l IH]; intros [|i] E; try discriminate.
      - now injection E as ->.
      - exact (IH i E). }
    assert (forall x y, In (x, y) ps' -> In (i_t x) (firstn (length (l :: lefts)) (skipn i (fst g))) /\
      In (i_t y) (firstn (length rights) (snd g))) as K.
    { intros x y J. destruct (IH _ _ R _ _ J) as [H1 H2]. split; [|exact H2]. rewrite SK. cbn [length firstn]. now right. }
    destruct (accepts k tol d); [|injection H as <-; auto].
    destruct (nth_error (snd g) j) as [u|] eqn:U; [|discriminate].
    destruct (nth_error rights j) as [r|] eqn:NR; [|discriminate]. injection H as <-.
    destruct I as [[= <- <-]|I]; [|auto]. cbn [i_t]. split; [rewrite SK; now left|].
    destruct (argmin_spec _ _ _ A) as (NJ & _).
    assert (j < length rights)%nat as LJ by (apply nth_error_Some; congruence).
    apply nth_error_In with (n := j). clear - LJ U.
    revert j LJ U. generalize (length rights) as n. induction (snd g) as [|x l IH]; intros n [|j] LJ U; try discriminate;
      (destruct n as [|n]; [lia|]); [exact U|]. cbn. apply IH; [lia|exact U].
  Qed.

  Lemma firstn_app_le : forall (X : Type) n (l l' : list X), (n <= length l)%nat -> firstn n (l ++ l') = firstn n l.
  Proof. intros X n l l' H. rewrite firstn_app. replace (n - length l)%nat with O by lia. now rewrite app_nil_r. Qed.
  Lemma firstn_In : forall (X : Type) n (l : list X) x, In x (firstn n l) -> In x l.
  Proof. intros X n l x H. rewrite <- (firstn_skipn n l). apply in_app_iff. now left. Qed.

  (** A dive with no more images than were parsed before takes all its timestamps from
      the earlier dives. *)
  Lemma parse_images_stale : forall k tol g (c : cameras N) ps, snd (parse_images k tol g c) = Some ps ->
    (length (left_images c) <= length (fst g))%nat -> (length (right_list k c) <= length (snd g))%nat ->
    forall a b, In (a, b) ps -> In (i_t a) (fst g) /\ In (i_t b) (snd g).
  Proof.
    intros k tol g c ps H L R a b I. unfold parse_images in H. cbn [snd] in H.
    destruct (pair_loop_stamps _ _ _ _ _ _ _ H a b I) as [H1 H2]. cbn [fst snd skipn] in H1, H2.
    rewrite firstn_app_le in H1, H2 by assumption. split; eapply firstn_In; eassumption.
  Qed.
  (** Only the names come from the dive itself: the stamps play no part. *)
  Lemma pair_loop_names_only : forall k tol g rights rights' lefts lefts' i,
    map i_name rights = map i_name rights' -> map i_name lefts = map i_name lefts' ->
    pair_loop k tol g rights i lefts = pair_loop k tol g rights' i lefts'.
  Proof.
    intros k tol g rights rights' lefts. induction lefts as [|a lefts IH]; intros [|a' lefts'] i R L; try discriminate; [reflexivity|].
    cbn in L. injection L as La L. cbn [pair_loop].
    assert (length rights = length rights') as -> by (apply (f_equal (@length _)) in R; now rewrite !map_length in R).
    rewrite (IH lefts' (S i) R L), La. destruct (nth_error (fst g) i); [|reflexivity].
    destruct (argmin _) as [[d j]|]; [|reflexivity].
    assert (option_map i_name (nth_error rights j) = option_map i_name (nth_error rights' j)) as NJ.
    { rewrite <- !nth_error_map. now rewrite R. }
    destruct (nth_error rights j), (nth_error rights' j); try discriminate; [|reflexivity].
    cbn in NJ. injection NJ as ->. reflexivity.
  Qed.
End Facts.
