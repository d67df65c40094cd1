From Verif Require Import PyBase PfTrajModel.
Open Scope Q_scope.

(** ** Reference semantics: immutable states.  A particle is its current state and
    the list of (reading used, state right after) of all its propagations. *)
Section Ref.
  Variable disp : Q -> pstate -> Q * Q * Q.

  Record ref := mkG { cur : pstate; now : Q; hist : list (reading * pstate); times : list Q }.

  (** The reading, then the displacement during [dt] at the reading's attitude and velocity. *)
  Definition moved (dt : Q) (r : reading) (s : pstate) : pstate :=
    let s' := mkS (px s) (py s) (rz r) (rroll r) (rpitch r) (ryaw r) (rvx r) (rvy r) (rvz r) (palt s) in
    let '(dx, dy, dz) := disp dt s' in
    mkS (px s + dx) (py s + dy) (rz r + dz) (rroll r) (rpitch r) (ryaw r) (rvx r) (rvy r) (rvz r) (palt s).
  Definition ref_propagate (dt : Q) (r : reading) (g : ref) : ref :=
    let s := moved dt r (cur g) in
    mkG s (now g + dt) (hist g ++ [(r, s)]) (times g ++ [now g + dt]).

  Fixpoint ref_propagate_all dt rs gs : option (list ref) :=
    match rs, gs with
    | [], [] => Some []
    | r :: rs', g :: gs' => option_map (cons (ref_propagate dt r g)) (ref_propagate_all dt rs' gs')
    | _, _ => None
    end.

  Definition ref_exec (o : op) (gs : list ref) : option (list ref) :=
    match o with
    | Propagate dt rs => ref_propagate_all dt rs gs
    | Resample idx => reorder idx gs
    | Sort idx => reorder idx gs
    end.
  Fixpoint ref_execs (os : list op) (gs : list ref) : option (list ref) :=
    match os with
    | [] => Some gs
    | o :: os' => match ref_exec o gs with Some gs' => ref_execs os' gs' | None => None end
    end.
  Definition ref_prior (n : nat) (s : pstate) (t : Q) : list ref := repeat (mkG s t [] []) n.
End Ref.

(** The states of the history as the code leaves them: every one but the last with
    the following propagation's reading written over it. *)
Fixpoint smear (h : list (reading * pstate)) : list pstate :=
  match h with
  | [] => []
  | (_, s) :: t => (match t with (r, _) :: _ => write r s | [] => s end) :: smear t
  end.

Lemma smear_snoc h r s : smear (h ++ [(r, s)]) =
  match rev h with
  | [] => [s]
  | (_, s0) :: _ => removelast (smear h) ++ [write r s0; s]
  end.
Proof.
  induction h as [|[r1 s1] h IH]; [reflexivity|].
  destruct h as [|[r2 s2] h].
  - reflexivity.
  - change (smear (((r1, s1) :: (r2, s2) :: h) ++ [(r, s)])) with (write r2 s1 :: smear (((r2, s2) :: h) ++ [(r, s)])).
    rewrite IH. cbn [rev]. destruct (rev h) as [|[r3 s3] q] eqn:E; cbn [app].
    + assert (h = []) by (destruct h; [reflexivity|]; cbn in E; now destruct (rev h)). subst h. reflexivity.
    + change (smear ((r1, s1) :: (r2, s2) :: h)) with (write r2 s1 :: smear ((r2, s2) :: h)).
      change (smear ((r2, s2) :: h)) with ((match h with (r, _) :: _ => write r s2 | [] => s2 end) :: smear h).
      reflexivity.
Qed.
Lemma smear_length h : length (smear h) = length h.
Proof. induction h as [|[r s] h IH]; cbn; auto. Qed.
Lemma smear_nth h i r s : nth_error h i = Some (r, s) ->
  nth_error (smear h) i = Some (match nth_error h (S i) with Some (r', _) => write r' s | None => s end).
Proof.
  revert h. induction i as [|i IH]; intros [|[r0 s0] h] H; try discriminate.
  - injection H as -> ->. cbn. destruct h as [|[? ?] ?]; reflexivity.
  - cbn in *. now apply IH.
Qed.

Lemma upd_length h l f : length (upd h l f) = length h.
Proof. revert l. induction h as [|s h IH]; intros [|l]; cbn; auto. Qed.
Lemma upd_same h l f s : nth_error h l = Some s -> nth_error (upd h l f) l = Some (f s).
Proof. revert l. induction h as [|x h IH]; intros [|l] H; try discriminate; cbn in *; [now injection H as ->|auto]. Qed.
Lemma upd_other h l l' f : l <> l' -> nth_error (upd h l f) l' = nth_error h l'.
Proof. revert l l'. induction h as [|x h IH]; intros [|l] [|l'] H; cbn; auto; try congruence. Qed.
Lemma nth_app_some {A} (h h' : list A) l s : nth_error h l = Some s -> nth_error (h ++ h') l = Some s.
Proof. intro H. rewrite nth_error_app1; [exact H|]. apply nth_error_Some. congruence. Qed.
Lemma nth_lt {A} (h : list A) l s : nth_error h l = Some s -> (l < length h)%nat.
Proof. intro H. apply nth_error_Some. congruence. Qed.

Section Proof.
  Variable disp : Q -> pstate -> Q * Q * Q.

  (** Concrete particle [p] in heap [h] represents reference particle [g]. *)
  Definition rep (h : heap) (p : particle) (g : ref) : Prop :=
    nth_error h (loc p) = Some (cur g) /\ time p = now g /\ traj_time p = times g /\
    trajectory h p = map Some (smear (hist g)) /\
    match rev (hist g) with
    | [] => traj p = []
    | (_, s) :: _ => s = cur g /\ exists t', traj p = t' ++ [loc p] /\ ~ In (loc p) t'
    end.
  Definition apart (p q : particle) : Prop := ~ In (loc p) (loc q :: traj q) /\ ~ In (loc q) (loc p :: traj p).
  Definition pairwise (ps : list particle) : Prop :=
    forall i j p q, i <> j -> nth_error ps i = Some p -> nth_error ps j = Some q -> apart p q.
  Definition reps (h : heap) (ps : list particle) (gs : list ref) : Prop :=
    Forall2 (rep h) ps gs /\ pairwise ps.

  Lemma traj_bound h p g : rep h p g -> forall l, In l (traj p) -> (l < length h)%nat.
  Proof.
    intros (_ & _ & _ & T & _) l Hl. unfold trajectory in T.
    apply (in_map (nth_error h)) in Hl. rewrite T in Hl. apply in_map_iff in Hl. destruct Hl as (s & E & _).
    symmetry in E. eapply nth_lt; eauto.
  Qed.
  Lemma loc_bound h p g : rep h p g -> (loc p < length h)%nat.
  Proof. intros (H & _). eapply nth_lt; eauto. Qed.

  (** A representation only depends on the cells it reaches. *)
  Lemma rep_frame h h' p g : rep h p g ->
    (forall l, In l (loc p :: traj p) -> nth_error h' l = nth_error h l) -> rep h' p g.
  Proof.
    intros (H1 & H2 & H3 & H4 & H5) F. split; [rewrite F; [exact H1|now left]|].
    split; [exact H2|]. split; [exact H3|]. split; [|exact H5].
    rewrite <- H4. unfold trajectory. apply map_ext_in. intros l Hl. apply F. now right.
  Qed.

  Lemma propagate_rep dt r h p g : rep h p g ->
    exists h' p', propagate disp dt r h p = Some (h', p') /\ rep h' p' (ref_propagate disp dt r g) /\
      loc p' = length h /\ traj p' = traj p ++ [length h] /\ length h' = S (length h) /\
      (forall l, (l < length h)%nat -> l <> loc p -> nth_error h' l = nth_error h l).
  Proof.
    intros R. pose proof (traj_bound _ _ _ R) as TB. pose proof (loc_bound _ _ _ R) as LB.
    destruct R as (H1 & H2 & H3 & H4 & H5).
    unfold propagate. rewrite (upd_same h (loc p) (write r) _ H1). rewrite !upd_length.
    eexists; eexists. split; [reflexivity|]. split; [|split; [reflexivity|split; [reflexivity|split]]].
    - unfold rep, ref_propagate; cbn [loc time traj traj_time cur now hist times].
      change (moved disp dt r (cur g)) with (advance disp dt (write r (cur g))). set (s' := advance disp dt (write r (cur g))).
      split; [rewrite nth_error_app2; rewrite upd_length; [|lia]; now rewrite Nat.sub_diag|].
      split; [now rewrite H2|]. split; [now rewrite H3, H2|]. split.
      + unfold trajectory; cbn [traj]. rewrite map_app. cbn [map].
        assert (EL : nth_error (upd h (loc p) (write r) ++ [s']) (length h) = Some s').
        { rewrite nth_error_app2; rewrite upd_length; [|lia]. now rewrite Nat.sub_diag. }
        rewrite EL. rewrite smear_snoc. destruct (rev (hist g)) as [|[r0 s0] q] eqn:ER.
        * rewrite H5. reflexivity.
        * destruct H5 as [-> (t' & Et & Nt)]. rewrite Et, map_app. cbn [map].
          rewrite (nth_app_some _ _ _ _ (upd_same h (loc p) (write r) _ H1)).
          unfold trajectory in H4. rewrite Et, map_app in H4. cbn [map] in H4.
          assert (E : map (nth_error h) t' = map Some (removelast (smear (hist g)))).
          { assert (X : forall (a b : list (option pstate)) (x : option pstate) (c : list pstate), a ++ [x] = map Some c -> a = map Some (removelast c)).
            { clear. intros a _ x c Hc. destruct c as [|y c]; [destruct a; discriminate|].
              assert (N : y :: c <> []) by discriminate. rewrite (app_removelast_last y N), map_app in Hc.
              apply app_inj_tail in Hc. destruct Hc as [-> _]. reflexivity. }
            eapply (X _ []). exact H4. }
          rewrite map_app. cbn [map]. rewrite <- app_assoc. cbn [app]. f_equal.
          rewrite <- E. apply map_ext_in. intros l Hl.
          assert (l <> loc p) by (intros ->; contradiction).
          rewrite nth_error_app1; [|rewrite upd_length; apply TB; rewrite Et; apply in_or_app; now left].
          now apply upd_other, not_eq_sym.
      + rewrite rev_app_distr. cbn [rev app]. split; [reflexivity|]. exists (traj p). split; [reflexivity|].
        intro Hl. apply TB in Hl. lia.
    - rewrite app_length, upd_length. cbn. lia.
    - intros l L N. rewrite nth_error_app1 by (rewrite upd_length; exact L). now apply upd_other, not_eq_sym.
  Qed.

  Lemma pairwise_cons p ps : pairwise (p :: ps) <-> (forall q, In q ps -> apart p q) /\ pairwise ps.
  Proof.
    split.
    - intro H. split.
      + intros q Hq. apply In_nth_error in Hq. destruct Hq as [n Hn]. apply (H 0%nat (S n)); auto.
      + intros i j a b N Ha Hb. apply (H (S i) (S j)); auto.
    - intros [H1 H2] [|i] [|j] a b N Ha Hb; try congruence; cbn in *.
      + injection Ha as <-. apply H1. eapply nth_error_In; eauto.
      + injection Hb as <-. assert (X : apart p a) by (apply H1; eapply nth_error_In; eauto).
        destruct X; split; auto.
      + apply (H2 i j); auto.
  Qed.
  Lemma Forall2_In1 {A B} (P : A -> B -> Prop) l l' x : Forall2 P l l' -> In x l -> exists y, In y l' /\ P x y.
  Proof. induction 1 as [|a b l l' H F IH]; intros []; [subst; exists b; split; [now left|exact H]|]. destruct (IH H0) as (y & Hy & Py). exists y. split; [now right|exact Py]. Qed.

  Lemma propagate_all_rep dt : forall ps rs h gs, reps h ps gs -> length rs = length ps ->
    exists h' ps' gs', propagate_all disp dt rs h ps = Some (h', ps') /\
      ref_propagate_all disp dt rs gs = Some gs' /\ reps h' ps' gs' /\
      (length h <= length h')%nat /\
      (forall p', In p' ps' -> exists p, In p ps /\ (length h <= loc p' < length h')%nat /\
                  traj p' = traj p ++ [loc p']) /\
      (forall l, (l < length h)%nat -> (forall p, In p ps -> l <> loc p) -> nth_error h' l = nth_error h l).
  Proof.
    induction ps as [|p ps IH]; intros rs h gs [F S] L.
    - inversion F; subst. destruct rs; [|discriminate]. exists h, [], []. cbn. split; [reflexivity|]. split; [reflexivity|].
      split; [split; [constructor|intros [|i] j a b _ Ha; discriminate Ha]|].
      split; [lia|]. split; [intros p' []|reflexivity].
    - inversion F as [|? g ? gs' Rp Fs]; subst. destruct rs as [|r rs]; [discriminate|].
      apply pairwise_cons in S. destruct S as [S1 S2].
      destruct (propagate_rep dt r h p g Rp) as (h1 & p1 & E1 & R1 & L1 & T1 & B1 & O1).
      assert (R2 : reps h1 ps gs').
      { split; [|exact S2]. clear - Fs S1 O1. 
        assert (K : forall q, In q ps -> apart p q) by exact S1. clear S1.
        induction Fs as [|q g' ps gs'' Rq Fs IH]; constructor.
        - apply (rep_frame h); [exact Rq|]. intros l Hl. pose proof (K q (or_introl eq_refl)) as [A1 _].
          apply O1.
          + destruct Hl as [<-|Hl]; [eapply loc_bound; eauto|eapply traj_bound; eauto].
          + intros ->. apply A1. exact Hl.
        - apply IH. intros x Hx. apply K. now right. }
      destruct (IH rs h1 gs' R2 ltac:(cbn in L; lia)) as (h2 & ps2 & gs2 & E2 & G2 & [RF RS] & L2 & N2 & O2).
      exists h2, (p1 :: ps2), (ref_propagate disp dt r g :: gs2).
      cbn [propagate_all ref_propagate_all]. rewrite E1, E2, G2.
      assert (LP : forall q, In q ps -> loc q <> loc p1).
      { intros q Hq. destruct (Forall2_In1 _ _ _ _ Fs Hq) as (g' & _ & Rq). apply loc_bound in Rq. lia. }
      split; [reflexivity|]. split; [reflexivity|]. split; [|split; [lia|split]].
      + split.
        * constructor; [|exact RF]. apply (rep_frame h1); [exact R1|].
          intros l Hl. apply O2.
          -- destruct Hl as [<-|Hl]; [eapply loc_bound; eauto|eapply traj_bound; eauto].
          -- intros q Hq E. subst l. destruct Hl as [Hl|Hl]; [symmetry in Hl; exact (LP q Hq Hl)|].
             rewrite T1 in Hl. apply in_app_or in Hl. destruct Hl as [Hl|[Hl|[]]].
             ++ destruct (S1 q Hq) as [_ A2]. apply A2. now right.
             ++ apply (LP q Hq). rewrite L1. now symmetry.
        * apply pairwise_cons. split; [|exact RS]. intros q' Hq'.
          destruct (N2 q' Hq') as (q & Hq & Bq & Tq). split.
          -- intros [X|X]; [rewrite L1 in X; lia|]. rewrite Tq in X. apply in_app_or in X.
             destruct X as [X|[X|[]]]; [|rewrite L1 in X; lia].
             destruct (Forall2_In1 _ _ _ _ Fs Hq) as (g' & _ & Rq). apply (traj_bound _ _ _ Rq) in X. lia.
          -- intros [X|X]; [rewrite L1 in X; lia|]. apply (traj_bound _ _ _ R1) in X. lia.
      + intros p' [<-|Hp'].
        * exists p. split; [now left|]. rewrite L1, T1. split; [lia|reflexivity].
        * destruct (N2 p' Hp') as (q & Hq & Bq & Tq). exists q. split; [now right|]. split; [lia|exact Tq].
      + intros l Ll Hl. rewrite O2; [apply O1; [exact Ll|apply Hl; now left]|lia|intros q Hq; apply Hl; now right].
  Qed.

  Lemma deepcopy_rep h p g : rep h p g -> rep (h ++ h) (snd (deepcopy h p)) g.
  Proof.
    intros R. pose proof (traj_bound _ _ _ R) as TB. destruct R as (H1 & H2 & H3 & H4 & H5).
    assert (SH : forall l, nth_error (h ++ h) (length h + l) = nth_error h l).
    { intro l. rewrite nth_error_app2 by lia. f_equal. lia. }
    unfold rep, deepcopy; cbn [snd loc time traj traj_time]. split; [now rewrite SH|].
    split; [exact H2|]. split; [exact H3|]. split.
    - unfold trajectory; cbn [traj]. rewrite map_map. rewrite <- H4. unfold trajectory. apply map_ext. intro; apply SH.
    - destruct (rev (hist g)) as [|[r s] q].
      + now rewrite H5.
      + destruct H5 as [-> (t' & Et & Nt)]. split; [reflexivity|]. exists (map (Nat.add (length h)) t').
        rewrite Et, map_app. split; [reflexivity|]. intro X. apply in_map_iff in X. destruct X as (l & E & Hl).
        assert (l = loc p) by lia. now subst.
  Qed.

  Lemma Forall2_nth {A B} (P : A -> B -> Prop) l l' i x : Forall2 P l l' -> nth_error l i = Some x ->
    exists y, nth_error l' i = Some y /\ P x y.
  Proof.
    intro F. revert i. induction F as [|a b l l' H F IH]; intros [|i] E; try discriminate.
    - injection E as <-. exists b. now split.
    - cbn in *. now apply IH.
  Qed.

  Lemma copy_all_rep ps gs : forall idx h, Forall2 (rep h) ps gs -> (forall i, In i idx -> (i < length ps)%nat) ->
    exists h' ps' gs', copy_all idx h ps = Some (h', ps') /\ reorder idx gs = Some gs' /\
      Forall2 (rep h') ps' gs' /\ pairwise ps' /\ (exists ext, h' = h ++ ext) /\
      (forall p' l, In p' ps' -> In l (loc p' :: traj p') -> (length h <= l < length h')%nat).
  Proof.
    induction idx as [|i idx IH]; intros h F B.
    - exists h, [], []. cbn. split; [reflexivity|]. split; [reflexivity|]. split; [constructor|].
      split; [intros [|i] j a b _ Ha; discriminate Ha|]. split; [exists []; now rewrite app_nil_r|intros p' l []].
    - destruct (nth_error ps i) as [p|] eqn:Ep.
      2:{ apply nth_error_None in Ep. specialize (B i (or_introl eq_refl)). lia. }
      destruct (Forall2_nth _ _ _ _ _ F Ep) as (g & Eg & Rp).
      assert (F1 : Forall2 (rep (h ++ h)) ps gs).
      { clear - F. induction F as [|q g ps gs R F IH]; constructor; [|exact IH].
        apply (rep_frame h); [exact R|]. intros l Hl. rewrite nth_error_app1; [reflexivity|].
        destruct Hl as [<-|Hl]; [eapply loc_bound; eauto|eapply traj_bound; eauto]. }
      destruct (IH (h ++ h) F1 (fun j Hj => B j (or_intror Hj))) as (h2 & ps2 & gs2 & E2 & G2 & R2 & S2 & (ext & X2) & B2).
      assert (Rc : rep (h ++ h) (snd (deepcopy h p)) g) by now apply deepcopy_rep.
      assert (LC : forall l, In l (loc (snd (deepcopy h p)) :: traj (snd (deepcopy h p))) -> (length h <= l < length (h ++ h))%nat).
      { intros l Hl. split; [destruct Hl as [<-|Hl]; [cbn; lia|]; apply in_map_iff in Hl; destruct Hl as (k & <- & _); lia|].
        destruct Hl as [<-|Hl]; [eapply loc_bound; eauto|eapply traj_bound; eauto]. }
      exists h2, (snd (deepcopy h p) :: ps2), (g :: gs2).
      cbn [copy_all reorder]. rewrite Ep, Eg, G2. cbn [deepcopy fst snd] in *. rewrite E2.
      split; [reflexivity|]. split; [reflexivity|]. split; [|split; [|split]].
      + constructor; [|exact R2]. apply (rep_frame (h ++ h)); [exact Rc|]. intros l Hl.
        rewrite X2. apply LC in Hl. now rewrite nth_error_app1.
      + apply pairwise_cons. split; [|exact S2]. intros q Hq. split.
        * intro X. pose proof (B2 q _ Hq X). pose proof (LC _ (or_introl eq_refl)). lia.
        * intro X. apply LC in X. pose proof (B2 q _ Hq (or_introl eq_refl)). lia.
      + exists (h ++ ext). now rewrite X2, app_assoc.
      + intros p' l [<-|Hp'] Hl.
        * apply LC in Hl. rewrite X2, app_length. lia.
        * pose proof (B2 p' l Hp' Hl) as X. rewrite app_length in X. lia.
  Qed.

  Lemma reorder_rep h ps gs : Forall2 (rep h) ps gs -> forall idx ps', reorder idx ps = Some ps' ->
    exists gs', reorder idx gs = Some gs' /\ Forall2 (rep h) ps' gs'.
  Proof.
    intros F. induction idx as [|i idx IH]; intros ps' H; cbn in H.
    - injection H as <-. exists []. now split.
    - destruct (nth_error ps i) as [p|] eqn:Ep; [|discriminate]. destruct (reorder idx ps) as [ps2|]; [|discriminate].
      injection H as <-. destruct (Forall2_nth _ _ _ _ _ F Ep) as (g & Eg & Rp).
      destruct (IH ps2 eq_refl) as (gs2 & E2 & R2). exists (g :: gs2). cbn. rewrite Eg, E2. split; [reflexivity|now constructor].
  Qed.
  Lemma reorder_nth {A} idx (ps ps' : list A) k p : reorder idx ps = Some ps' -> nth_error ps' k = Some p ->
    exists i, nth_error idx k = Some i /\ nth_error ps i = Some p.
  Proof.
    revert ps' k. induction idx as [|i idx IH]; intros ps' k H K; cbn in H.
    - injection H as <-. destruct k; discriminate.
    - destruct (nth_error ps i) as [q|] eqn:Eq; [|discriminate]. destruct (reorder idx ps) as [ps2|]; [|discriminate].
      injection H as <-. destruct k as [|k]; cbn in *; [injection K as ->; now exists i|]. eapply IH; eauto.
  Qed.
  Lemma reorder_some {A} idx (ps : list A) : (forall i, In i idx -> (i < length ps)%nat) -> exists ps', reorder idx ps = Some ps'.
  Proof.
    induction idx as [|i idx IH]; intro B; [now exists []|]. cbn.
    destruct (nth_error ps i) eqn:E; [|apply nth_error_None in E; specialize (B i (or_introl eq_refl)); lia].
    destruct IH as [ps' ->]; [intros; apply B; now right|]. now eexists.
  Qed.

  (** Operations that the filter can perform on a population of n. *)
  Definition legal (n : nat) (o : op) : Prop :=
    match o with
    | Propagate _ rs => length rs = n
    | Resample idx => length idx = n /\ forall i, In i idx -> (i < n)%nat
    | Sort idx => length idx = n /\ NoDup idx /\ forall i, In i idx -> (i < n)%nat
    end.

  Lemma reps_length h ps gs : reps h ps gs -> length ps = length gs.
  Proof. intros [F _]. induction F; cbn; auto. Qed.
  Lemma reorder_length {A} idx (ps ps' : list A) : reorder idx ps = Some ps' -> length ps' = length idx.
  Proof.
    revert ps'. induction idx as [|i idx IH]; intros ps' H; cbn in H; [now injection H as <-|].
    destruct (nth_error ps i); [|discriminate]. destruct (reorder idx ps); [|discriminate]. injection H as <-. cbn. now rewrite IH.
  Qed.
  Lemma ref_all_length dt rs gs gs' : ref_propagate_all disp dt rs gs = Some gs' -> length gs' = length gs.
  Proof.
    revert gs gs'. induction rs as [|r rs IH]; intros [|g gs] gs' H; try discriminate; cbn in H; [now injection H as <-|].
    destruct (ref_propagate_all disp dt rs gs) eqn:E; [|discriminate]. injection H as <-. cbn. f_equal. eauto.
  Qed.

  Lemma exec_rep o h ps gs : reps h ps gs -> legal (length ps) o ->
    exists h' ps' gs', exec disp o (h, ps) = Some (h', ps') /\ ref_exec disp o gs = Some gs' /\
      reps h' ps' gs' /\ length ps' = length ps.
  Proof.
    intros R L. pose proof (reps_length _ _ _ R) as LL. destruct o as [dt rs|idx|idx]; cbn [exec ref_exec legal fst snd] in *.
    - destruct (propagate_all_rep dt ps rs h gs R L) as (h' & ps' & gs' & E & G & R' & _).
      exists h', ps', gs'. split; [exact E|]. split; [exact G|]. split; [exact R'|].
      rewrite (reps_length _ _ _ R'), (ref_all_length _ _ _ _ G). now symmetry.
    - destruct L as [L1 L2]. destruct R as [F S].
      destruct (copy_all_rep ps gs idx h F L2) as (h' & ps' & gs' & E & G & R' & S' & _).
      exists h', ps', gs'. split; [exact E|]. split; [exact G|]. split; [now split|].
      rewrite (reps_length h' ps' gs' (conj R' S')), (reorder_length _ _ _ G). exact L1.
    - destruct L as (L1 & L2 & L3). destruct R as [F S].
      destruct (reorder_some idx ps L3) as [ps' E]. destruct (reorder_rep h ps gs F idx ps' E) as (gs' & G & R').
      exists h, ps', gs'. rewrite E. split; [reflexivity|]. split; [exact G|]. split; [|now rewrite (reorder_length _ _ _ E)].
      split; [exact R'|]. intros i j p q N Hp Hq.
      destruct (reorder_nth _ _ _ _ _ E Hp) as (a & Ha & Pa). destruct (reorder_nth _ _ _ _ _ E Hq) as (b & Hb & Pb).
      apply (S a b); auto. intros ->. apply N.
      apply (proj1 (NoDup_nth_error idx) L2 i j); [apply nth_error_Some; rewrite Ha; discriminate|now rewrite Ha, Hb].
  Qed.

  Lemma execs_rep os : forall h ps gs, reps h ps gs -> (forall o, In o os -> legal (length ps) o) ->
    exists h' ps' gs', execs disp os (h, ps) = Some (h', ps') /\ ref_execs disp os gs = Some gs' /\ reps h' ps' gs'.
  Proof.
    induction os as [|o os IH]; intros h ps gs R L; cbn [execs ref_execs].
    - now exists h, ps, gs.
    - destruct (exec_rep o h ps gs R (L o (or_introl eq_refl))) as (h1 & ps1 & gs1 & E & G & R1 & L1).
      rewrite E, G. apply IH; [exact R1|]. rewrite L1. intros; apply L; now right.
  Qed.

  Lemma prior_rep n s t : reps (fst (set_prior n s t)) (snd (set_prior n s t)) (ref_prior n s t).
  Proof.
    unfold set_prior, ref_prior; cbn [fst snd]. split.
    - assert (G : forall k m h, (k + m = length h)%nat -> (forall l, (l < length h)%nat -> nth_error h l = Some s) ->
        Forall2 (rep h) (map (fun l => mkP l t [] []) (seq k m)) (repeat (mkG s t [] []) m)).
      { intros k m. revert k. induction m as [|m IH]; intros k h L H; cbn; constructor.
        - repeat split; cbn. apply H. lia.
        - apply IH; [lia|exact H]. }
      apply G; [now rewrite repeat_length|]. intros l Hl. rewrite repeat_length in Hl. now apply nth_error_repeat.
    - intros i j p q N Hp Hq. rewrite nth_error_map in Hp, Hq.
      destruct (nth_error (seq 0 n) i) as [a|] eqn:Ea; [|discriminate]. destruct (nth_error (seq 0 n) j) as [b|] eqn:Eb; [|discriminate].
      injection Hp as <-. injection Hq as <-.
      assert (a <> b).
      { intros ->. apply N. apply (proj1 (NoDup_nth_error _) (seq_NoDup n 0) i j); [apply nth_error_Some; rewrite Ea; discriminate|now rewrite Ea, Eb]. }
      split; cbn; intros [X|[]]; congruence.
  Qed.

  (** Altitude and bookkeeping of the reference run. *)
  Definition alt_ok (a : Q) (g : ref) : Prop := palt (cur g) = a /\ forall r s, In (r, s) (hist g) -> palt s = a.
  Lemma moved_alt dt r s : palt (moved disp dt r s) = palt s.
  Proof. unfold moved. now destruct (disp dt _) as [[dx dy] dz]. Qed.
  Lemma alt_exec a o gs gs' : Forall (alt_ok a) gs -> ref_exec disp o gs = Some gs' -> Forall (alt_ok a) gs'.
  Proof.
    intros F H. assert (RO : forall idx gs', reorder idx gs = Some gs' -> Forall (alt_ok a) gs').
    { clear - F. intros idx gs' H. apply Forall_forall. intros g Hg. apply In_nth_error in Hg. destruct Hg as [k Hk].
      destruct (reorder_nth _ _ _ _ _ H Hk) as (i & _ & Hi). rewrite Forall_forall in F. apply F. eapply nth_error_In; eauto. }
    destruct o as [dt rs|idx|idx]; cbn in H; [|eauto|eauto]. clear RO.
    revert gs gs' F H. induction rs as [|r rs IH]; intros [|g gs] gs' F H; try discriminate; cbn in H; [now injection H as <-|].
    destruct (ref_propagate_all disp dt rs gs) eqn:E; [|discriminate]. injection H as <-. inversion F as [|? ? [A1 A2] F']; subst.
    constructor; [|eauto]. unfold ref_propagate. split; cbn.
    - rewrite moved_alt. reflexivity.
    - intros r' s' X. apply in_app_or in X. destruct X as [X|[X|[]]]; [now apply (A2 r')|]. injection X as <- <-. now rewrite moved_alt.
  Qed.
  Lemma alt_execs a os gs gs' : Forall (alt_ok a) gs -> ref_execs disp os gs = Some gs' -> Forall (alt_ok a) gs'.
  Proof.
    revert gs. induction os as [|o os IH]; intros gs F H; cbn in H; [now injection H as <-|].
    destruct (ref_exec disp o gs) as [gs1|] eqn:E; [|discriminate]. eapply IH; [|exact H]. eapply alt_exec; eauto.
  Qed.
End Proof.
