From Verif Require Import PyBase InterpSpec SortQ PfModel.
Open Scope Q_scope.

(** Reading a trace. *)
Section Spec.
  Context {D U : Type} (dt : D -> Q) (ut : U -> Q).
  Definition stamp (e : event D U) : Q := match e with Moved d _ => dt d | Fixed u _ => ut u end.
  Definition step (e : event D U) : Q := match e with Moved _ s | Fixed _ s => s end.
  Fixpoint moved (es : list (event D U)) : list D :=
    match es with [] => [] | Moved d _ :: es' => d :: moved es' | _ :: es' => moved es' end.
  Fixpoint fixed (es : list (event D U)) : list U :=
    match es with [] => [] | Fixed u _ :: es' => u :: fixed es' | _ :: es' => fixed es' end.
  (** Every event's time step leads from the previous event's stamp to its own. *)
  Fixpoint continuous (t : Q) (es : list (event D U)) : Prop :=
    match es with [] => True | e :: es' => step e == stamp e - t /\ continuous (stamp e) es' end.
  (** The fixes not later than the last dead-reckoning sample. *)
  Definition up_to_last (dr : list D) (u : U) : bool :=
    match rev dr with d :: _ => Qle_bool (ut u) (dt d) | [] => false end.
End Spec.

Section P.
  Context {D U : Type} (dt : D -> Q) (ut : U -> Q).
  Notation ev := (event D U).

  Lemma loop_total fuel : forall dr usbl t, (length dr + length usbl < fuel)%nat ->
    exists es, pf_loop dt ut fuel dr usbl t = Some es.
  Proof.
    induction fuel as [|fuel IH]; intros dr usbl t L; [lia|]. cbn.
    destruct dr as [|d dr]; [now eexists|]. cbn in L. destruct usbl as [|u usbl].
    - assert (E : Qltb (dt d) (dt d + 1) = true) by (apply Qltb_lt; lra). rewrite E.
      destruct (IH dr [] (dt d)) as [es ->]; [cbn in *; lia|]. now eexists.
    - cbn in L. destruct (Qltb _ _).
      + destruct (IH dr (u :: usbl) (dt d)) as [es ->]; [cbn; lia|]. now eexists.
      + destruct (IH (d :: dr) usbl (ut u)) as [es ->]; [cbn; lia|]. now eexists.
  Qed.

  (** One unfolding of a successful loop. *)
  Lemma loop_inv fuel dr usbl t es : pf_loop dt ut fuel dr usbl t = Some es ->
    (dr = [] /\ es = []) \/
    (exists fuel' d dr' es', dr = d :: dr' /\ es = Moved d (dt d - t) :: es' /\
       (forall u usbl', usbl = u :: usbl' -> dt d < ut u) /\ pf_loop dt ut fuel' dr' usbl (dt d) = Some es') \/
    (exists fuel' d dr' u usbl' es', dr = d :: dr' /\ usbl = u :: usbl' /\ es = Fixed u (ut u - t) :: es' /\
       ut u <= dt d /\ pf_loop dt ut fuel' dr usbl' (ut u) = Some es').
  Proof.
    destruct fuel as [|fuel]; [discriminate|]. cbn. destruct dr as [|d dr].
    - intro H. injection H as <-. now left.
    - intro H. destruct usbl as [|u usbl].
      + assert (E : Qltb (dt d) (dt d + 1) = true) by (apply Qltb_lt; lra). rewrite E in H.
        destruct (pf_loop dt ut fuel dr [] (dt d)) as [es'|] eqn:R; [|discriminate]. injection H as <-.
        right; left. exists fuel, d, dr, es'. repeat split; auto. discriminate.
      + destruct (Qltb (dt d) (ut u)) eqn:E.
        * destruct (pf_loop dt ut fuel dr (u :: usbl) (dt d)) as [es'|] eqn:R; [|discriminate]. injection H as <-.
          right; left. exists fuel, d, dr, es'. repeat split; auto. intros u' usbl' X. injection X as -> ->.
          now apply Qltb_lt.
        * destruct (pf_loop dt ut fuel (d :: dr) usbl (ut u)) as [es'|] eqn:R; [|discriminate]. injection H as <-.
          right; right. exists fuel, d, dr, u, usbl, es'. repeat split; auto. now apply Qltb_ge.
  Qed.

  (** Induction over the trace. *)
  Lemma loop_ind (P : list D -> list U -> Q -> list ev -> Prop) :
    (forall usbl t, P [] usbl t []) ->
    (forall d dr usbl t es, (forall u usbl', usbl = u :: usbl' -> dt d < ut u) ->
       P dr usbl (dt d) es -> P (d :: dr) usbl t (Moved d (dt d - t) :: es)) ->
    (forall d dr u usbl t es, ut u <= dt d -> P (d :: dr) usbl (ut u) es ->
       P (d :: dr) (u :: usbl) t (Fixed u (ut u - t) :: es)) ->
    forall fuel dr usbl t es, pf_loop dt ut fuel dr usbl t = Some es -> P dr usbl t es.
  Proof.
    intros H0 H1 H2 fuel dr usbl t es. revert fuel dr usbl t.
    induction es as [|e es IH]; intros fuel dr usbl t H.
    - destruct (loop_inv _ _ _ _ _ H) as [[-> _]|[(?&?&?&?&_&X&_)|(?&?&?&?&?&?&_&_&X&_)]]; [apply H0|discriminate X..].
    - destruct (loop_inv _ _ _ _ _ H) as [[_ X]|[(f&d&dr'&es'&->&X&Y&R)|(f&d&dr'&u&usbl'&es'&->&->&X&Y&R)]]; [discriminate X|..].
      + injection X as -> ->. apply H1; [exact Y|]. eapply IH; eauto.
      + injection X as -> ->. apply H2; [exact Y|]. eapply IH; eauto.
  Qed.

  Lemma loop_moved fuel dr usbl t es : pf_loop dt ut fuel dr usbl t = Some es -> moved es = dr.
  Proof.
    revert fuel dr usbl t es. refine (loop_ind (fun dr usbl t es => moved es = dr) _ _ _); cbn; auto; intros; now f_equal.
  Qed.

  Lemma loop_continuous fuel dr usbl t es : pf_loop dt ut fuel dr usbl t = Some es -> continuous dt ut t es.
  Proof.
    revert fuel dr usbl t es. refine (loop_ind (fun dr usbl t es => continuous dt ut t es) _ _ _); cbn; auto; intros; split; auto; reflexivity.
  Qed.

  Lemma loop_fixed_prefix fuel dr usbl t es : pf_loop dt ut fuel dr usbl t = Some es ->
    exists rest, usbl = fixed es ++ rest.
  Proof.
    revert fuel dr usbl t es. refine (loop_ind (fun dr usbl t es => exists rest, usbl = fixed es ++ rest) _ _ _); cbn; auto; try (intros usbl _; now exists usbl).
    intros d dr u usbl t es _ [rest E]. exists rest. now rewrite E at 1.
  Qed.

  (** Ordered inputs. *)
  Lemma loop_fixed fuel dr usbl t es : pf_loop dt ut fuel dr usbl t = Some es ->
    nondecreasing dt dr -> nondecreasing ut usbl -> fixed es = filter (up_to_last dt ut dr) usbl.
  Proof.
    revert fuel dr usbl t es.
    refine (loop_ind (fun dr usbl t es => nondecreasing dt dr -> nondecreasing ut usbl ->
              fixed es = filter (up_to_last dt ut dr) usbl) _ _ _).
    - intros usbl t _ _. cbn. induction usbl; auto.
    - intros d dr usbl t es Hu IH Sd Su. cbn [fixed]. rewrite IH; [|now apply (nd_cons_iff dt) in Sd|exact Su].
      destruct dr as [|d2 dr].
      + unfold up_to_last. cbn. apply filter_ext_in. intros u Hin.
        assert (L : dt d < ut u).
        { destruct usbl as [|u0 usbl]; [destruct Hin|]. specialize (Hu u0 usbl eq_refl).
          destruct Hin as [<-|Hin]; [exact Hu|]. apply (nd_cons_iff ut) in Su. destruct Su as [Su _]. specialize (Su u Hin). lra. }
        symmetry. destruct (Qle_bool (ut u) (dt d)) eqn:E; [apply Qle_bool_iff in E; lra|reflexivity].
      + apply filter_ext. intro u. unfold up_to_last. cbn. destruct (rev dr ++ [d2]) as [|z zs] eqn:E.
        { now destruct (rev dr). } reflexivity.
    - intros d dr u usbl t es Hu IH Sd Su. cbn [fixed filter]. rewrite IH; [|exact Sd|now apply (nd_cons_iff ut) in Su].
      assert (E : up_to_last dt ut (d :: dr) u = true).
      { unfold up_to_last. destruct (rev (d :: dr)) as [|z zs] eqn:R; [cbn in R; now destruct (rev dr)|].
        apply Qle_bool_iff. assert (Z : In z (d :: dr)) by (apply in_rev; rewrite R; now left).
        destruct Z as [<-|Z]; [exact Hu|]. apply (nd_cons_iff dt) in Sd. destruct Sd as [Sd _]. specialize (Sd z Z). lra. }
      now rewrite E.
  Qed.

  Lemma moved_in d s (es : list ev) : In (Moved d s) es -> In d (moved es).
  Proof. induction es as [|[x y|x y] es IH]; intros []; cbn; try (now left); try (right; now apply IH); try discriminate; [injection H as -> _; now left|now apply IH]. Qed.
  Lemma fixed_in u s (es : list ev) : In (Fixed u s) es -> In u (fixed es).
  Proof. induction es as [|[x y|x y] es IH]; intros []; cbn; try discriminate; [now apply IH|injection H as -> _; now left|right; now apply IH]. Qed.

  (** The stamps of the trace are in order, and a fix comes before the samples with
      the same stamp. *)
  Lemma loop_order fuel dr usbl t es : pf_loop dt ut fuel dr usbl t = Some es ->
    nondecreasing dt dr -> nondecreasing ut usbl ->
    nondecreasing (stamp dt ut) es /\
    (forall a b u s, es = a ++ Fixed u s :: b ->
       (forall d s', In (Moved d s') a -> dt d < ut u) /\ (forall d s', In (Moved d s') b -> ut u <= dt d)).
  Proof.
    intros H Sd Su. pose proof (loop_moved _ _ _ _ _ H) as HM. destruct (loop_fixed_prefix _ _ _ _ _ H) as [r HF].
    revert HM r HF Sd Su. revert fuel dr usbl t es H.
    apply (loop_ind (fun dr usbl t es => moved es = dr -> forall r, usbl = fixed es ++ r -> nondecreasing dt dr ->
      nondecreasing ut usbl -> nondecreasing (stamp dt ut) es /\
      (forall a b u s, es = a ++ Fixed u s :: b ->
       (forall d s', In (Moved d s') a -> dt d < ut u) /\ (forall d s', In (Moved d s') b -> ut u <= dt d)))).
    - intros usbl t _ r _ _ _. split; [intros [|i] j ? ? ? X; discriminate X|]. intros [|? a] b u s X; discriminate X.
    - intros d dr usbl t es Hu IH HM r HF Sd Su. cbn in HM, HF.
      injection HM as HM. pose proof Sd as Sd0. apply (nd_cons_iff dt) in Sd. destruct Sd as [Sd1 Sd2].
      destruct (IH HM r HF Sd2 Su) as [I1 I2].
      assert (UF : forall u, In u (fixed es) -> dt d < ut u).
      { intros u Hin. destruct usbl as [|u0 usbl]; [destruct (fixed es); [destruct Hin|discriminate HF]|].
        specialize (Hu u0 usbl eq_refl). destruct (fixed es) as [|u1 fs]; [destruct Hin|]. injection HF as <- HF'.
        destruct Hin as [<-|Hin]; [exact Hu|]. apply (nd_cons_iff ut) in Su. destruct Su as [Su _].
        specialize (Su u). rewrite HF' in Su. specialize (Su (in_or_app _ _ _ (or_introl Hin))). lra. }
      split.
      + apply nd_cons_iff. split; [|exact I1]. intros [x y|x y] Hin; cbn.
        * apply Sd1. rewrite <- HM. now apply moved_in with y.
        * apply Qlt_le_weak, UF. now apply fixed_in with y.
      + intros a b u s E. destruct a as [|e a]; [discriminate E|]. cbn in E. injection E as <- E.
        destruct (I2 a b u s E) as [J1 J2]. split; [|exact J2].
        intros d' s' [X|X]; [|now apply (J1 d' s')]. injection X as <- _. apply UF.
        apply fixed_in with s. rewrite E. apply in_or_app. right. now left.
    - intros d dr u usbl t es Hu IH HM r HF Sd Su. cbn in HM, HF. injection HF as HF.
      pose proof Su as Su0. apply (nd_cons_iff ut) in Su. destruct Su as [Su1 Su2].
      destruct (IH HM r HF Sd Su2) as [I1 I2].
      assert (MF : forall x, In x (moved es) -> ut u <= dt x).
      { intros x Hin. rewrite HM in Hin. destruct Hin as [<-|Hin]; [exact Hu|].
        apply (nd_cons_iff dt) in Sd. destruct Sd as [Sd _]. specialize (Sd x Hin). lra. }
      split.
      + apply nd_cons_iff. split; [|exact I1]. intros [x y|x y] Hin; cbn.
        * apply MF. now apply moved_in with y.
        * apply Su1. rewrite HF. apply in_or_app. left. now apply fixed_in with y.
      + intros a b u' s E. destruct a as [|e a]; cbn in E.
        * injection E as <- _ E. subst b. split; [intros ? ? []|]. intros x y Hin. apply MF. now apply moved_in with y.
        * injection E as <- E. destruct (I2 a b u' s E) as [J1 J2]. split; [|exact J2].
          intros d' s' [X|X]; [discriminate X|now apply (J1 d' s')].
  Qed.

  (** Where [get_prior] starts reading USBL. *)
  Lemma skip_spec fuel : forall dr usbl i u_t d_t k,
    (length usbl - i < fuel)%nat -> (i <= length usbl)%nat ->
    skip_usbl dt ut fuel dr usbl i u_t d_t = Some k ->
    (i <= k <= length usbl)%nat /\
    (k = i /\ (k = length usbl \/ d_t <= u_t) \/
     (exists j u d, k = S j /\ nth_error usbl j = Some u /\ nth_error dr j = Some d /\
        (k = length usbl \/ dt d <= ut u))).
  Proof.
    induction fuel as [|fuel IH]; intros dr usbl i u_t d_t k L Hi H; [lia|]. cbn [skip_usbl] in H.
    destruct (Nat.ltb_spec i (length usbl)) as [Li|Li]; cbn [andb] in H.
    - destruct (Qltb u_t d_t) eqn:E.
      + destruct (nth_error usbl i) as [u|] eqn:Eu; [|discriminate]. destruct (nth_error dr i) as [d|] eqn:Ed; [|discriminate].
        destruct (IH dr usbl (S i) (ut u) (dt d) k) as [K1 K2]; [lia|lia|exact H|].
        split; [lia|]. right. destruct K2 as [[-> K2]|K2]; [|exact K2].
        exists i, u, d. auto.
      + injection H as <-. split; [lia|]. left. split; [reflexivity|]. right. now apply Qltb_ge.
    - injection H as <-. split; [lia|]. left. split; [reflexivity|]. left. lia.
  Qed.

  Lemma first_usbl_zero dr usbl d u : is_first dr d -> is_first usbl u -> dt d <= ut u ->
    first_usbl dt ut dr usbl = Some 0%nat.
  Proof.
    intros [dr' ->] [usbl' ->] H. cbn. assert (E : Qltb (ut u) (dt d) = false) by now apply Qltb_ge.
    now rewrite E.
  Qed.

  (** No fix before the first dead-reckoning sample survives the search. *)
  Lemma first_usbl_after dr usbl d k : nondecreasing dt dr -> nondecreasing ut usbl -> is_first dr d ->
    first_usbl dt ut dr usbl = Some k -> forall u, In u (skipn k usbl) -> dt d <= ut u.
  Proof.
    intros Sd Su [dr' ->] H u Hin. unfold first_usbl in H. destruct usbl as [|u0 usbl']; [discriminate|].
    set (usbl := u0 :: usbl') in *. set (dr := d :: dr') in *.
    assert (L1 : (length usbl - 0 < S (length usbl))%nat) by lia. assert (L2 : (0 <= length usbl)%nat) by lia.
    destruct (skip_spec (S (length usbl)) dr usbl 0%nat (ut u0) (dt d) k L1 L2 H) as [B [[-> [E|E]]|(j & v & x & -> & Ev & Ex & C)]].
    - cbn in E. lia.
    - cbn in Hin. destruct Hin as [<-|Hin]; [exact E|]. apply (nd_cons_iff ut) in Su. destruct Su as [Su _]. specialize (Su u Hin). lra.
    - destruct C as [C|C]; [rewrite C, skipn_all in Hin; destruct Hin|].
      assert (X : dt d <= dt x).
      { apply nth_error_In in Ex. destruct Ex as [<-|Ex]; [lra|]. apply (nd_cons_iff dt) in Sd. now apply Sd. }
      apply In_nth_error in Hin. destruct Hin as [n Hn].
      assert (Hn' : nth_error usbl (S j + n) = Some u).
      { rewrite <- Hn. rewrite <- (firstn_skipn (S j) usbl) at 1. rewrite nth_error_app2; rewrite firstn_length_le by lia; [|lia].
        f_equal. lia. }
      pose proof (Su j (S j + n)%nat v u ltac:(lia) Ev Hn'). lra.
  Qed.
End P.
