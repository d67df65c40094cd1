(** Property C227 and its refuted sibling C228: the files of the calibration commands. *)
From Coq Require Import Ascii String.
From Verif Require Import PyBase CalRunModel.
Open Scope string_scope.

Lemma file_eqb_eq : forall a b, file_eqb a b = true <-> a = b.
Proof.
  intros [] []; cbn [file_eqb]; try (split; intros; discriminate); rewrite ?Bool.andb_true_iff, ?String.eqb_eq; (split; [intros H; decompose [and] H; congruence|intros H; injection H; auto]).
Qed.
(** Suffixes typed with or without the underscore are the same *)
Theorem C227_suffix_form : forall s, (s <> "" -> exists r, normal_suffix s = String "_"%char r) /\ normal_suffix (normal_suffix s) = normal_suffix s /\ (normal_suffix s = "" <-> s = "") /\
  (forall r, s = String "_"%char r -> normal_suffix s = s).
Proof.
  intros [|c s]; cbn [normal_suffix]; [repeat split; try congruence; now intros []|]. destruct (Ascii.eqb_spec c "_"%char) as [->|N]; cbn [append normal_suffix]; rewrite ?Ascii.eqb_refl.
  - repeat split; try discriminate; eauto.
  - repeat split; try discriminate; eauto. intros r E. injection E as -> _. contradiction.
Qed.
Print Assumptions C227_suffix_form.

Section Run.
  Context {J M S L : Type}.
  Local Notation folder := (@CalRunModel.folder J M S L).
  Variable has : bool -> name -> bool.
  Variable count : bool -> name -> nat.
  Variable detect : bool -> name -> option (nat * nat) -> option J.
  Variable solve : J -> M.
  Variable size : M -> nat * nat.
  Variable solve_pair : M -> M -> J -> J -> option S.
  Variable laser_has : bool -> name -> bool.
  Variable laser_count : bool -> name -> nat.
  Variable solve_laser : S -> bool -> bool -> option (L * option L).
  Variables force force2 : bool.
  Variable typed : string.
  Variable cameras : list name.
  Local Notation cmono := (calibrate_mono (S := S) (L := L) has count detect solve force2).
  Local Notation cstereo := (calibrate_stereo (L := L) has count detect solve size solve_pair force2).
  Local Notation mono_from := (mono_from (S := S) (L := L) has count detect solve force force2 typed).
  Local Notation mono := (mono (S := S) (L := L) has count detect solve force force2 typed cameras).
  Local Notation ready := (ready (S := S) (L := L) has count detect solve force force2 typed cameras).
  Local Notation first_pair := (first_pair (L := L) has count detect solve size solve_pair force force2 typed cameras).
  Local Notation second_pair := (second_pair (L := L) has count detect solve size solve_pair force force2 typed cameras).
  Local Notation stereo := (stereo (L := L) has count detect solve size solve_pair force force2 typed cameras).
  Local Notation laser := (laser has count detect solve size solve_pair laser_has laser_count solve_laser force force2 typed cameras).
  Local Notation sfx := (suffix typed).
  Local Notation fo := (fo force force2).

  Lemma write_this : forall f (c : @content J M S L) fs, write f c fs f = Some c.
  Proof. intros. unfold write. now rewrite (proj2 (file_eqb_eq f f) eq_refl). Qed.
  Lemma write_other : forall f g (c : @content J M S L) fs, g <> f -> write f c fs g = fs g.
  Proof. intros f g c fs N. unfold write. destruct (file_eqb g f) eqn:E; [|reflexivity]. apply file_eqb_eq in E. contradiction. Qed.
  Lemma there_some : forall (fs : folder) f, there fs f = true <-> fs f <> None.
  Proof. intros fs f. unfold there. destruct (fs f); split; intros; congruence. Qed.

  (** A calibration and the detections it was made from *)
  Inductive goes_with : file -> file -> Prop :=
  | gw_mono c s : goes_with (MonoYaml c s) (MonoJson c s)
  | gw_resized c : goes_with (ResizedYaml c) (ResizedJson c).
  (** Every camera calibration in the folder is the solution for the detections beside it. *)
  Definition consistent (fs : folder) : Prop := forall y j, goes_with y j ->
    (fs j <> None -> exists d, fs j = Some (Detections d)) /\ (fs y <> None -> exists d, fs j = Some (Detections d) /\ fs y = Some (Mono (solve d))).
  Definition step (Z : file -> Prop) (fs fs' : folder) : Prop := forall f, fs f <> None -> ~ Z f -> fs' f = fs f.
  Lemma step_refl : forall Z fs, step Z fs fs.
  Proof. now intros Z fs f. Qed.
  Lemma step_trans : forall Z a b c, step Z a b -> step Z b c -> step Z a c.
  Proof. intros Z a b c H K f F N. rewrite K, H; try assumption; [reflexivity|]. now rewrite H. Qed.
  Lemma goes_other : forall y j y' j', goes_with y j -> goes_with y' j' -> y <> j' /\ (y = y' <-> j = j').
  Proof. intros y j y' j' [] []; split; try congruence; split; congruence. Qed.

  Lemma cmono_consistent : forall c p y j t fs, goes_with y j -> consistent fs -> consistent (fst (cmono c p y j t fs)).
  Proof.
    intros c p y j t fs G C. unfold calibrate_mono. destruct (_ <? 8)%nat; [exact C|].
    assert (W : forall d fs', consistent fs' -> fs' j = Some (Detections d) -> consistent (write y (Mono (solve d)) fs')).
    { intros d fs' C' E y' j' G'. destruct (goes_other _ _ _ _ G G') as [N1 E1]. destruct (goes_other _ _ _ _ G' G) as [N2 _]. rewrite !(write_other y j') by congruence.
      destruct (C' y' j' G') as [K1 K2]. split; [exact K1|]. destruct (file_eqb y y') eqn:Q; [apply file_eqb_eq in Q; subst y'; apply proj1 in E1; rewrite <- (E1 eq_refl), write_this; eauto|].
      rewrite write_other by (intros ->; rewrite (proj2 (file_eqb_eq y y) eq_refl) in Q; discriminate). exact K2. }
    assert (D : consistent (fst (match detect (chosen has p c) c t with Some d => (write y (Mono (solve d)) (write j (Detections d) fs), Done) | None => (fs, Done) end))).
    { destruct (detect _ c t) as [d|]; [|exact C]. cbn [fst]. intros y' j' G'. destruct (goes_other _ _ _ _ G G') as [N1 E1]. destruct (goes_other _ _ _ _ G' G) as [N2 _]. rewrite (write_other y j') by congruence.
      destruct (file_eqb y y') eqn:Q.
      - apply file_eqb_eq in Q. subst y'. apply proj1 in E1. rewrite <- (E1 eq_refl), !write_this. eauto.
      - assert (y' <> y) as NY by (intros ->; rewrite (proj2 (file_eqb_eq y y) eq_refl) in Q; discriminate). assert (j' <> j) as NJ by (intros ->; apply NY; symmetry; now apply E1).
        rewrite (write_other y y'), !(write_other j) by assumption. now apply C. }
    destruct (fs j) as [[d|m|s|l]|] eqn:E; [|destruct force2; [exact D|exact C]|destruct force2; [exact D|exact C]|destruct force2; [exact D|exact C]|exact D].
    destruct force2; [exact D|]. cbn [fst]. now apply W.
  Qed.
  Lemma cmono_step : forall c p y j t fs, force2 = false -> fs y = None -> step (fun _ => False) fs (fst (cmono c p y j t fs)).
  Proof.
    intros c p y j t fs F N f H _. unfold calibrate_mono. destruct (_ <? 8)%nat; [reflexivity|]. rewrite F. assert (f <> y) by congruence. destruct (fs j) as [[d|m|s|l]|] eqn:E; cbn [fst]; try reflexivity; [now apply write_other|].
    destruct (detect _ c t); cbn [fst]; [|reflexivity]. rewrite !write_other by congruence. reflexivity.
  Qed.
  Lemma finish_other : forall out ml mr jl jr (fs : folder) f, f <> out -> fst (finish solve_pair out ml mr jl jr fs) f = fs f.
  Proof. intros. unfold finish. destruct (solve_pair _ _ _ _); cbn [fst]; [now apply write_other|reflexivity]. Qed.
  Definition pair_file (f : file) : Prop := match f with Stereo _ _ _ | LaserTop _ _ | LaserBottom _ _ => True | _ => False end.
  Lemma write_consistent : forall out c fs, pair_file out -> consistent fs -> consistent (write out c fs).
  Proof. intros out c fs P C y j G. rewrite !write_other by (intros ->; destruct G; exact P). now apply C. Qed.
  Lemma finish_consistent : forall out ml mr jl jr fs, pair_file out -> consistent fs -> consistent (fst (finish solve_pair out ml mr jl jr fs)).
  Proof. intros. unfold finish. destruct (solve_pair _ _ _ _); [now apply write_consistent|assumption]. Qed.
  (** calibrate_stereo changes its output and, if the sizes differ, a resized calibration that is not there *)
  Lemma cstereo_all : forall l lp r rp out fs, pair_file out -> consistent fs -> let fs' := fst (cstereo l lp r rp out fs) in
    consistent fs' /\ (force2 = false -> step (fun f => f = out) fs fs') /\ (forall f, f <> out -> (forall c, f <> ResizedYaml c /\ f <> ResizedJson c) -> fs' f = fs f).
  Proof.
    intros l lp r rp out fs P C. unfold calibrate_stereo. assert (R0 : consistent fs /\ (force2 = false -> step (fun f => f = out) fs fs) /\ (forall f, f <> out -> (forall c, f <> ResizedYaml c /\ f <> ResizedJson c) -> fs f = fs f)) by (split; [exact C|split; [intros _; apply step_refl|reflexivity]]).
    destruct (_ || _)%nat%bool; [exact R0|]. destruct (fs (MonoJson l "")) as [[jl| | |]|]; try exact R0. destruct (fs (MonoJson r "")) as [[jr| | |]|]; try exact R0.
    destruct (fs (MonoYaml l "")) as [[|ml| |]|]; try exact R0. destruct (fs (MonoYaml r "")) as [[|mr| |]|]; try exact R0.
    assert (F : forall mr jr fs', consistent fs' -> (force2 = false -> step (fun f => f = out) fs fs') -> (forall f, f <> out -> (forall c, f <> ResizedYaml c /\ f <> ResizedJson c) -> fs' f = fs f) ->
      let fs'' := fst (finish solve_pair out ml mr jl jr fs') in consistent fs'' /\ (force2 = false -> step (fun f => f = out) fs fs'') /\ (forall f, f <> out -> (forall c, f <> ResizedYaml c /\ f <> ResizedJson c) -> fs'' f = fs f)).
    { intros m d fs' C1 S1 O1. split; [now apply finish_consistent|]. split; [intros F2 f H N; rewrite finish_other by exact N; now apply S1|intros f N O; rewrite finish_other by exact N; now apply O1]. }
    destruct (same_size _ _ _); [apply F; tauto|].
    assert (Q : let q := if there fs (ResizedJson r) then (fs, Done) else cmono r rp (ResizedYaml r) (ResizedJson r) (Some (size ml)) fs in
      consistent (fst q) /\ (force2 = false -> step (fun f => f = out) fs (fst q)) /\ (forall f, f <> out -> (forall c, f <> ResizedYaml c /\ f <> ResizedJson c) -> fst q f = fs f)).
    { destruct (there fs (ResizedJson r)) eqn:T; [exact R0|]. split; [apply cmono_consistent; [constructor|exact C]|]. split.
      - intros F2 f H N. apply cmono_step; [exact F2| |exact H|tauto]. destruct (fs (ResizedYaml r)) eqn:E; [|reflexivity]. destruct (C _ _ (gw_resized r)) as [_ K]. destruct K as (d & K & _); [congruence|]. unfold there in T. rewrite K in T. discriminate.
      - intros f N O. destruct (O r) as [O1 O2]. unfold calibrate_mono. destruct (_ <? 8)%nat; [reflexivity|].
        destruct (fs (ResizedJson r)) as [[]|]; try destruct force2; try destruct (detect _ r _); cbn [fst]; rewrite ?write_other by congruence; reflexivity. }
    cbv zeta in Q. destruct (if there fs (ResizedJson r) then (fs, Done) else cmono r rp (ResizedYaml r) (ResizedJson r) (Some (size ml)) fs) as [fs' st]. cbn [fst] in Q. cbv zeta. destruct Q as (Q1 & Q2 & Q3).
    destruct st; [|exact (conj Q1 (conj Q2 Q3))|exact (conj Q1 (conj Q2 Q3))]. destruct (fs' (ResizedYaml r)) as [[|m| |]|]; try exact (conj Q1 (conj Q2 Q3)). destruct (fs' (ResizedJson r)) as [[d| | |]|]; try exact (conj Q1 (conj Q2 Q3)).
    now apply F.
  Qed.
  Lemma mono_all : forall cs fs, consistent fs -> let fs' := fst (mono_from cs fs) in consistent fs' /\ (fo = false -> step (fun _ => False) fs fs') /\
    (forall f, (forall c, In c cs -> f <> MonoYaml c sfx /\ f <> MonoJson c sfx) -> fs' f = fs f).
  Proof.
    induction cs as [|c cs IH]; intros fs C; [split; [exact C|split; [intros _; apply step_refl|reflexivity]]|]. cbn [CalRunModel.mono_from]. destruct (there fs (MonoYaml c sfx) && negb fo)%bool eqn:T.
    - destruct (IH fs C) as (H1 & H2 & H3). split; [exact H1|]. split; [exact H2|]. intros f K. apply H3. intros c' I. apply K. now right.
    - assert (C1 := cmono_consistent c true (MonoYaml c sfx) (MonoJson c sfx) None fs (gw_mono _ _) C).
      assert (S1 : fo = false -> step (fun _ => False) fs (fst (cmono c true (MonoYaml c sfx) (MonoJson c sfx) None fs))).
      { intros F. rewrite F in T. cbn in T. rewrite Bool.andb_true_r in T. apply cmono_step; [unfold CalRunModel.fo in F; now apply Bool.orb_false_iff in F|]. unfold there in T. destruct (fs (MonoYaml c sfx)); [discriminate|reflexivity]. }
      assert (O1 : forall f, (forall c', In c' (c :: cs) -> f <> MonoYaml c' sfx /\ f <> MonoJson c' sfx) -> fst (cmono c true (MonoYaml c sfx) (MonoJson c sfx) None fs) f = fs f).
      { intros f K. destruct (K c (or_introl eq_refl)) as [K1 K2]. unfold calibrate_mono. destruct (_ <? 8)%nat; [reflexivity|]. destruct (fs (MonoJson c sfx)) as [[]|]; try destruct force2; try destruct (detect _ c _); cbn [fst]; rewrite ?write_other by congruence; reflexivity. }
      destruct (cmono c true (MonoYaml c sfx) (MonoJson c sfx) None fs) as [fs' st]. cbn [fst] in *. destruct st; [|exact (conj C1 (conj S1 O1))|exact (conj C1 (conj S1 O1))].
      destruct (IH fs' C1) as (H1 & H2 & H3). split; [exact H1|]. split; [intros F; eapply step_trans; [now apply S1|now apply H2]|]. intros f K. rewrite H3 by (intros c' I; apply K; now right). now apply O1.
  Qed.
  Lemma ready_all : forall l r fs, consistent fs -> let fs' := fst (ready l r fs) in consistent fs' /\ (fo = false -> step (fun _ => False) fs fs') /\
    (forall f, (sfx = "" -> forall c, In c cameras -> f <> MonoYaml c "" /\ f <> MonoJson c "") -> fs' f = fs f).
  Proof.
    intros l r fs C. unfold CalRunModel.ready. destruct (_ && _)%bool; [split; [exact C|split; [intros _; apply step_refl|reflexivity]]|].
    destruct sfx eqn:E; [|split; [exact C|split; [intros _; apply step_refl|reflexivity]]]. destruct (mono_all cameras fs C) as (H1 & H2 & H3). split; [exact H1|]. split; [exact H2|].
    intros f K. apply H3. intros c I. rewrite E. now apply K.
  Qed.
  (** What a stereo run may change: its outputs, resized calibrations, and without a suffix those of the cameras *)
  Definition outputs (f : file) : Prop := match f with Stereo _ _ s => s = sfx | ResizedYaml _ | ResizedJson _ => True | MonoYaml c s | MonoJson c s => sfx = "" /\ s = "" /\ In c cameras | _ => False end.
  Definition reverse (f : file) : Prop := match cameras with c0 :: _ :: c2 :: _ => f = Stereo c2 c0 sfx | _ => False end.
  Definition good (Z : file -> Prop) (fs fs' : folder) : Prop := consistent fs' /\ (fo = false -> step Z fs fs') /\ (forall f, ~ outputs f -> fs' f = fs f).
  Lemma good_refl : forall Z fs, consistent fs -> good Z fs fs.
  Proof. intros Z fs C. split; [exact C|]. split; [intros _; apply step_refl|reflexivity]. Qed.
  Lemma good_trans : forall Z a b c, good Z a b -> good Z b c -> good Z a c.
  Proof. intros Z a b c (H1 & H2 & H3) (K1 & K2 & K3). split; [exact K1|]. split; [intros F; eapply step_trans; eauto|]. intros f N. now rewrite K3, H3. Qed.
  Lemma ready_good : forall Z l r fs, consistent fs -> good Z fs (fst (ready l r fs)).
  Proof.
    intros Z l r fs C. destruct (ready_all l r fs C) as (H1 & H2 & H3). split; [exact H1|]. split; [intros F f K _; now apply H2; [exact F|exact K|]|]. intros f N. apply H3. intros E c I. split; intros ->; apply N; cbn; auto.
  Qed.
  Lemma cstereo_good : forall (Z : file -> Prop) l lp r rp a b fs, consistent fs -> (fs (Stereo a b sfx) = None \/ fo = true \/ Z (Stereo a b sfx)) -> good Z fs (fst (cstereo l lp r rp (Stereo a b sfx) fs)).
  Proof.
    intros Z l lp r rp a b fs C K. destruct (cstereo_all l lp r rp (Stereo a b sfx) fs I C) as (H1 & H2 & H3). split; [exact H1|]. split.
    - intros F f E N. apply H2; [unfold CalRunModel.fo in F; now apply Bool.orb_false_iff in F|exact E|]. intros ->. destruct K as [K|[K|K]]; [contradiction|congruence|contradiction].
    - intros f N. apply H3; [intros ->; now apply N|]. intros c. split; intros ->; now apply N.
  Qed.
  Lemma not_there : forall (fs : folder) a b, (there fs (Stereo a b sfx) && negb fo)%bool = false -> fs (Stereo a b sfx) = None \/ fo = true.
  Proof. intros fs a b H. apply Bool.andb_false_iff in H. destruct H as [H|H]; [left; unfold there in H; destruct (fs _); [discriminate|reflexivity]|right; now apply Bool.negb_false_iff]. Qed.
  Lemma ready_stereo : forall l r a b s fs, fst (ready l r fs) (Stereo a b s) = fs (Stereo a b s).
  Proof.
    intros l r a b s fs. unfold CalRunModel.ready. destruct (_ && _)%bool; [reflexivity|]. destruct sfx; [|reflexivity]. unfold CalRunModel.mono.
    generalize cameras as cs. revert fs. enough (H : forall cs fs, fst (mono_from cs fs) (Stereo a b s) = fs (Stereo a b s)) by auto.
    induction cs as [|c cs IH]; intros fs; [reflexivity|]. cbn [CalRunModel.mono_from]. destruct (_ && _)%bool; [apply IH|].
    assert (O1 : fst (cmono c true (MonoYaml c sfx) (MonoJson c sfx) None fs) (Stereo a b s) = fs (Stereo a b s)).
    { unfold calibrate_mono. destruct (_ <? 8)%nat; [reflexivity|]. destruct (fs (MonoJson c sfx)) as [[]|]; try destruct force2; try destruct (detect _ c _); cbn [fst]; rewrite ?write_other by congruence; reflexivity. }
    destruct (cmono c true (MonoYaml c sfx) (MonoJson c sfx) None fs) as [fs' st]. cbn [fst] in O1. destruct st; [rewrite IH|..]; exact O1.
  Qed.
  Lemma first_good : forall fs, consistent fs -> good (fun _ => False) fs (fst (first_pair fs)).
  Proof.
    intros fs C. unfold CalRunModel.first_pair. destruct cameras as [|c0 [|c1 cs]] eqn:EC; try now apply good_refl. rewrite <- EC. destruct (_ && _)%bool eqn:T; [now apply good_refl|]. apply not_there in T.
    assert (R1 := ready_good (fun _ => False) c0 c1 fs C). assert (R2 := ready_stereo c0 c1 c0 c1 sfx fs). destruct (ready c0 c1 fs) as [fs' st]. cbn [fst] in *. destruct st; [|exact R1|exact R1].
    eapply good_trans; [exact R1|]. apply cstereo_good; [apply R1|]. rewrite R2. tauto.
  Qed.
  Lemma second_good : forall fs, consistent fs -> good reverse fs (fst (second_pair fs)).
  Proof.
    intros fs C. unfold CalRunModel.second_pair. destruct cameras as [|c0 [|c1 [|c2 cs]]] eqn:EC; try now apply good_refl. rewrite <- EC. destruct (_ && _)%bool eqn:T; [now apply good_refl|]. apply not_there in T.
    assert (R1 := ready_good reverse c0 c2 fs C). assert (R2 := ready_stereo c0 c2 c0 c2 sfx fs). destruct (ready c0 c2 fs) as [fs' st]. cbn [fst] in *. destruct st; [|exact R1|exact R1].
    assert (R3 : good reverse fs' (fst (cstereo c0 true c2 false (Stereo c0 c2 sfx) fs'))) by (apply cstereo_good; [apply R1|rewrite R2; tauto]).
    destruct (cstereo c0 true c2 false (Stereo c0 c2 sfx) fs') as [fs'' st]. cbn [fst] in R3. assert (R4 := good_trans _ _ _ _ R1 R3). destruct st; [|exact R4|exact R4].
    eapply good_trans; [exact R4|]. apply cstereo_good; [apply R4|]. right. right. unfold reverse. rewrite EC. reflexivity.
  Qed.
  Lemma stereo_good : forall fs, consistent fs -> good reverse fs (fst (stereo fs)).
  Proof.
    intros fs C. unfold CalRunModel.stereo. assert (G := first_good fs C). destruct (first_pair fs) as [fs' st]. cbn [fst] in G.
    assert (G' : good reverse fs fs') by (destruct G as (H1 & H2 & H3); split; [exact H1|]; split; [intros F f K _; now apply H2|exact H3]).
    destruct st; [|exact G'|exact G']. eapply good_trans; [exact G'|]. apply second_good. apply G.
  Qed.
  Definition bottom (f : file) : Prop := match cameras with c0 :: _ => f = LaserBottom c0 sfx | _ => False end.
  Definition planes (f : file) : Prop := match f, cameras with LaserTop c s, c0 :: _ | LaserBottom c s, c0 :: _ => c = c0 /\ s = sfx | _, _ => False end.
  Lemma laser_good : forall fs, consistent fs -> let fs' := fst (laser fs) in consistent fs' /\ (fo = false -> step (fun f => reverse f \/ bottom f) fs fs') /\
    (forall f, ~ planes f -> (sfx = "" -> ~ outputs f) -> fs' f = fs f) /\ (forall f c s, f = LaserTop c s \/ f = LaserBottom c s -> ~ planes f -> fs' f = fs f).
  Proof.
    intros fs C. unfold CalRunModel.laser, bottom, planes. destruct cameras as [|c0 [|c1 cs]] eqn:EC; try (split; [exact C|split; [intros _; apply step_refl|split; reflexivity]]).
    rewrite <- EC. destruct (_ && _)%bool eqn:T; [split; [exact C|split; [intros _; apply step_refl|split; reflexivity]]|].
    assert (TN : fs (LaserTop c0 sfx) = None \/ fo = true).
    { apply Bool.andb_false_iff in T. destruct T as [T|T]; [left; unfold there in T; destruct (fs _); [discriminate|reflexivity]|right; now apply Bool.negb_false_iff]. }
    set (q := if there fs (Stereo c0 c1 "") then (fs, Done) else match sfx with "" => stereo fs | String _ _ => (fs, Quits) end).
    assert (Q : consistent (fst q) /\ (fo = false -> step reverse fs (fst q)) /\ (forall f, (sfx = "" -> ~ outputs f) -> fst q f = fs f)).
    { unfold q. destruct (there fs (Stereo c0 c1 "")); [split; [exact C|split; [intros _; apply step_refl|reflexivity]]|]. destruct sfx eqn:E; [|split; [exact C|split; [intros _; apply step_refl|reflexivity]]].
      destruct (stereo_good fs C) as (H1 & H2 & H3). split; [exact H1|]. split; [exact H2|]. intros f K. apply H3. now apply K. }
    destruct q as [fs' st]. cbn [fst] in Q. destruct Q as (Q1 & Q2 & Q3).
    assert (Q0 : consistent fs' /\ (fo = false -> step (fun f => reverse f \/ f = LaserBottom c0 sfx) fs fs') /\ (forall f, ~ match f with LaserTop c s | LaserBottom c s => c = c0 /\ s = sfx | _ => False end -> (sfx = "" -> ~ outputs f) -> fs' f = fs f) /\
      (forall f c s, f = LaserTop c s \/ f = LaserBottom c s -> ~ match f with LaserTop c s | LaserBottom c s => c = c0 /\ s = sfx | _ => False end -> fs' f = fs f)).
    { split; [exact Q1|]. split; [intros F f K N; apply Q2; tauto|]. split; [intros f _ K; now apply Q3|]. intros f c s [-> | ->] _; apply Q3; intros _ []. }
    destruct st; [|exact Q0|exact Q0]. destruct (laser_folder _ c1); [|exact Q0]. destruct (laser_folder _ c0); [|exact Q0]. destruct (_ || _)%nat%bool; [exact Q0|].
    destruct (fs' (Stereo c0 c1 "")) as [[| |s|]|]; try exact Q0. destruct (solve_laser s _ _) as [[top bot]|]; [|exact Q0]. cbv zeta. cbn [fst].
    assert (TQ : fo = false -> fs' (LaserTop c0 sfx) = None) by (intros F; destruct TN as [TN|TN]; [rewrite Q3; [exact TN|intros _ []]|congruence]).
    assert (O : forall f, f <> LaserTop c0 sfx -> f <> LaserBottom c0 sfx -> match bot with Some b => write (LaserBottom c0 sfx) (Plane b) (write (LaserTop c0 sfx) (Plane top) fs') | None => write (LaserTop c0 sfx) (Plane top) fs' end f = fs' f)
      by (intros f N1 N2; destruct bot; rewrite !write_other by assumption; reflexivity).
    destruct Q0 as (K1 & K2 & K3 & K4). split; [destruct bot; repeat (apply write_consistent; [exact I|]); exact Q1|]. split; [|split].
    - intros F f H N. rewrite O; [now apply K2| |tauto]. intros ->. apply N. specialize (TQ F). rewrite Q3 in TQ by (intros _ []). congruence.
    - intros f N K. rewrite O; [now apply K3| |]; intros ->; apply N; now split.
    - intros f c s' E N. rewrite O; [eapply K4; eassumption| |]; intros ->; apply N; now split.
  Qed.

  (** ** Statements *)
  (** Whatever the flags, a folder in which every camera calibration is the solution for its detections stays so. *)
  Theorem C227_consistent : forall fs, consistent fs -> consistent (fst (mono fs)) /\ consistent (fst (stereo fs)) /\ consistent (fst (laser fs)).
  Proof. intros fs C. split; [now apply mono_all|]. split; [now apply stereo_good|now apply laser_good]. Qed.
  Print Assumptions C227_consistent.
  (** Without -F and -FF no existing file changes, but for the second pair in the other direction and the plane of the second laser. *)
  Theorem C227_keeps : forall fs f, consistent fs -> force = false -> force2 = false -> fs f <> None ->
    fst (mono fs) f = fs f /\ fst (first_pair fs) f = fs f /\
    ((forall c0 c1 c2 r, cameras = c0 :: c1 :: c2 :: r -> f <> Stereo c2 c0 sfx) -> fst (stereo fs) f = fs f /\
     ((forall c0 r, cameras = c0 :: r -> f <> LaserBottom c0 sfx) -> fst (laser fs) f = fs f)).
  Proof.
    intros fs f C F1 F2 E. assert (F : fo = false) by (unfold CalRunModel.fo; now rewrite F1, F2). split; [destruct (mono_all cameras fs C) as (_ & H & _); apply H; auto|]. split; [destruct (first_good fs C) as (_ & H & _); apply H; auto|]. intros R0.
    assert (N : ~ reverse f) by (unfold reverse; destruct cameras as [|c0 [|c1 [|c2 r]]]; try tauto; now apply (R0 c0 c1 c2 r)).
    split; [destruct (stereo_good fs C) as (_ & H & _); apply H; auto|]. intros B. destruct (laser_good fs C) as (_ & H & _). apply H; [exact F|exact E|]. intros [K|K]; [now apply N|]. unfold bottom in K. destruct cameras as [|c0 r]; [exact K|now apply (B c0 r)].
  Qed.
  Print Assumptions C227_keeps.
  (** Each command changes only its own files: mono those of its suffix; stereo with a suffix no camera calibration, laser with a suffix no
      stereo or camera calibration. *)
  Theorem C227_own : forall fs f, consistent fs ->
    ((forall c, f <> MonoYaml c sfx /\ f <> MonoJson c sfx) -> fst (mono fs) f = fs f) /\
    ((match f with MonoYaml _ _ | MonoJson _ _ => typed <> "" | Stereo _ _ s => s <> sfx | ResizedYaml _ | ResizedJson _ => False | _ => True end) -> fst (stereo fs) f = fs f) /\
    ((match f with LaserTop _ s | LaserBottom _ s => s <> sfx | _ => typed <> "" end) -> fst (laser fs) f = fs f).
  Proof.
    intros fs f C. assert (T : typed <> "" -> sfx <> "") by (intros N E; apply N; now apply (C227_suffix_form typed)).
    split; [intros K; apply mono_all; [exact C|intros c _; apply K]|]. split.
    - intros K. apply stereo_good; [exact C|]. intros O. destruct f; cbn in *; try tauto; destruct O as (O & _); now apply T.
    - intros K. destruct (laser_good fs C) as (_ & _ & H & H'). destruct f; try (apply H; [unfold planes; destruct cameras; tauto|intros E; exfalso; now apply T]);
        (eapply H'; [eauto|]; unfold planes; destruct cameras; [tauto|intros [_ E]; contradiction]).
  Qed.
  Print Assumptions C227_own.

  Definition settled (fs : folder) (c : name) : Prop := fs (MonoYaml c sfx) <> None \/ fs (MonoJson c sfx) = None /\ (8 <= count (chosen has true c) c)%nat /\ detect (chosen has true c) c None = None.
  (** A second run without flags changes nothing. *)
  Theorem C227_again : forall fs fs', consistent fs -> force = false -> force2 = false -> mono fs = (fs', Done) -> mono fs' = (fs', Done).
  Proof.
    intros fs fs' C F1 F2. unfold CalRunModel.mono. assert (F : fo = false) by (unfold CalRunModel.fo; now rewrite F1, F2).
    assert (ST : forall cs fs fs' c, consistent fs -> mono_from cs fs = (fs', Done) -> settled fs c -> settled fs' c).
    { induction cs as [|c cs IH]; intros a b x Ca E S0; cbn [CalRunModel.mono_from] in E; [injection E as <-; exact S0|]. destruct (_ && _)%bool eqn:T; [exact (IH _ _ _ Ca E S0)|].
      assert (C1 := cmono_consistent c true (MonoYaml c sfx) (MonoJson c sfx) None a (gw_mono _ _) Ca).
      assert (S1 : settled (fst (cmono c true (MonoYaml c sfx) (MonoJson c sfx) None a)) x).
      { rewrite F in T. cbn in T. rewrite Bool.andb_true_r in T. assert (NY : a (MonoYaml c sfx) = None) by (unfold there in T; destruct (a (MonoYaml c sfx)); [discriminate|reflexivity]).
        destruct S0 as [Y|(S1 & S2 & S3)]; [left; rewrite (cmono_step _ _ _ _ _ _ F2 NY); [exact Y|exact Y|tauto]|].
        destruct (String.eqb_spec x c) as [->|N].
        - right. unfold calibrate_mono. destruct (_ <? 8)%nat; [now split|]. rewrite S1, S3. now split.
        - right. split; [|now split]. unfold calibrate_mono. destruct (_ <? 8)%nat; [exact S1|].
          destruct (a (MonoJson c sfx)) as [[]|]; try destruct force2; try destruct (detect _ c _); cbn [fst]; rewrite ?write_other by congruence; exact S1. }
      destruct (cmono c true (MonoYaml c sfx) (MonoJson c sfx) None a) as [a' []]; try discriminate. exact (IH _ _ _ C1 E S1). }
    assert (AL : forall cs fs fs', consistent fs -> mono_from cs fs = (fs', Done) -> forall c, In c cs -> settled fs' c).
    { induction cs as [|c cs IH]; intros a b Ca E x I; [destruct I|destruct I as [<-|I]]; cbn [CalRunModel.mono_from] in E.
      - destruct (_ && _)%bool eqn:T; [apply Bool.andb_true_iff in T; eapply ST; [exact Ca|exact E|]; left; now apply there_some|].
        assert (C1 := cmono_consistent c true (MonoYaml c sfx) (MonoJson c sfx) None a (gw_mono _ _) Ca).
        assert (S1 : snd (cmono c true (MonoYaml c sfx) (MonoJson c sfx) None a) = Done -> settled (fst (cmono c true (MonoYaml c sfx) (MonoJson c sfx) None a)) c).
        { unfold calibrate_mono. destruct (_ <? 8)%nat eqn:LT; [discriminate|]. apply Nat.ltb_ge in LT. rewrite F2. destruct (a (MonoJson c sfx)) as [[]|] eqn:EJ; cbn [fst snd]; try discriminate; [intros _; left; now rewrite write_this|].
          destruct (detect (chosen has true c) c None) eqn:D; cbn [fst snd]; intros _; [left; now rewrite write_this|right; auto]. }
        destruct (cmono c true (MonoYaml c sfx) (MonoJson c sfx) None a) as [a' []]; try discriminate. eapply ST; [exact C1|exact E|now apply S1].
      - destruct (_ && _)%bool; [exact (IH _ _ Ca E _ I)|]. assert (C1 := cmono_consistent c true (MonoYaml c sfx) (MonoJson c sfx) None a (gw_mono _ _) Ca).
        destruct (cmono c true (MonoYaml c sfx) (MonoJson c sfx) None a) as [a' []]; try discriminate. exact (IH _ _ C1 E _ I). }
    intros E. assert (K := AL _ _ _ C E). clear - K F F2. induction cameras as [|c cs IH]; [reflexivity|]. cbn [CalRunModel.mono_from]. rewrite F. cbn [negb]. rewrite Bool.andb_true_r.
    destruct (there fs' (MonoYaml c sfx)) eqn:T; [apply IH; intros x X; apply K; now right|]. destruct (K c (or_introl eq_refl)) as [Y|(S1 & S2 & S3)]; [apply there_some in Y; congruence|].
    unfold calibrate_mono. rewrite (proj2 (Nat.ltb_ge _ _) S2), S1, S3. apply IH. intros x X. apply K. now right.
  Qed.
  Print Assumptions C227_again.
  (** -F solves again from the detections there are, -FF detects again; a camera without detections keeps what it has. *)
  Theorem C227_force : forall fs fs', consistent fs -> NoDup cameras -> fo = true -> mono fs = (fs', Done) -> forall c, In c cameras ->
    (8 <= count (if has true c then true else false) c)%nat /\
    match (if force2 then None else fs (MonoJson c sfx)), detect (if has true c then true else false) c None with
    | Some (Detections j), _ => fs' (MonoJson c sfx) = fs (MonoJson c sfx) /\ fs' (MonoYaml c sfx) = Some (Mono (solve j))
    | Some _, _ => False
    | None, Some j => fs' (MonoJson c sfx) = Some (Detections j) /\ fs' (MonoYaml c sfx) = Some (Mono (solve j))
    | None, None => fs' (MonoJson c sfx) = fs (MonoJson c sfx) /\ fs' (MonoYaml c sfx) = fs (MonoYaml c sfx)
    end.
  Proof.
    intros fs fs' C0 ND F. unfold CalRunModel.mono. revert fs C0. induction cameras as [|x cs IH]; intros fs C0 E c I; [destruct I|]. inversion ND as [|? ? NX ND']; subst. cbn [CalRunModel.mono_from] in E. rewrite F in E. cbn [negb] in E. rewrite Bool.andb_false_r in E.
    assert (C1 := cmono_consistent x true (MonoYaml x sfx) (MonoJson x sfx) None fs (gw_mono _ _) C0).
    destruct (cmono x true (MonoYaml x sfx) (MonoJson x sfx) None fs) as [a st] eqn:EM. destruct st; try discriminate. cbn [fst] in C1. destruct I as [<-|I].
    - assert (O : forall f, f = MonoYaml x sfx \/ f = MonoJson x sfx -> fs' f = a f).
      { intros f K. destruct (mono_all cs a C1) as (_ & _ & H). rewrite E in H. apply H. intros c I. split; intros ->; destruct K as [K|K]; inversion K; subst; contradiction. }
      rewrite !O by tauto. clear - EM C0. unfold calibrate_mono, chosen in EM. cbn [andb] in EM. destruct (_ <? 8)%nat eqn:LT; [discriminate|]. apply Nat.ltb_ge in LT. split; [exact LT|].
      destruct (fs (MonoJson x sfx)) as [[j| | |]|] eqn:EJ; destruct force2; try discriminate; try (destruct (detect (if has true x then true else false) x None) as [d|] eqn:D); injection EM as <-; rewrite ?write_this, ?write_other, ?write_this by congruence; auto.
    - assert (X : c <> x) by (intros ->; contradiction).
      assert (O : forall f, f = MonoYaml c sfx \/ f = MonoJson c sfx -> a f = fs f).
      { intros f K. assert (f <> MonoYaml x sfx /\ f <> MonoJson x sfx) as [K1 K2] by (destruct K as [-> | ->]; split; congruence). clear - EM K1 K2. unfold calibrate_mono in EM. destruct (_ <? 8)%nat; [discriminate|].
        destruct (fs (MonoJson x sfx)) as [[]|]; try destruct force2; try discriminate; try destruct (detect _ x _); injection EM as <-; rewrite ?write_other by congruence; reflexivity. }
      specialize (IH ND' a C1 E c I). rewrite !O in IH by tauto. exact IH.
  Qed.
  Print Assumptions C227_force.
  Lemma same_size_iff a b : same_size size a b = true <-> size a = size b.
  Proof.
    unfold same_size. rewrite Bool.andb_true_iff, !Nat.eqb_eq. destruct (size a), (size b). cbn. split; [intros [-> ->]; reflexivity | intros H; injection H as -> ->; now split].
  Qed.
  (** The calibration of the first pair is made from the calibrations of the two cameras without suffix as they are in the folder afterwards; if the images differ in size,
      that of the second camera at the size of the first. *)
  Theorem C227_pair : forall fs fs' c0 c1 r, consistent fs -> cameras = c0 :: c1 :: r -> first_pair fs = (fs', Done) ->
    exists jl jr, fs' (MonoJson c0 "") = Some (Detections jl) /\ fs' (MonoYaml c0 "") = Some (Mono (solve jl)) /\ fs' (MonoJson c1 "") = Some (Detections jr) /\ fs' (MonoYaml c1 "") = Some (Mono (solve jr)) /\
    exists jr', (size (solve jl) = size (solve jr) -> jr' = jr) /\ (size (solve jl) <> size (solve jr) -> fs' (ResizedJson c1) = Some (Detections jr') /\ fs' (ResizedYaml c1) = Some (Mono (solve jr'))) /\
    match solve_pair (solve jl) (solve jr') jl jr' with Some s => fs' (Stereo c0 c1 sfx) = Some (Pair s) | None => fs' (Stereo c0 c1 sfx) = fs (Stereo c0 c1 sfx) end.
  Proof.
    intros fs fs' c0 c1 r C EC E. unfold CalRunModel.first_pair in E. rewrite EC in E. rewrite <- EC in E. destruct (_ && _)%bool; [discriminate|].
    assert (R1 := ready_good (fun _ => False) c0 c1 fs C). assert (R2 := ready_stereo c0 c1 c0 c1 sfx fs). destruct (ready c0 c1 fs) as [a st]. cbn [fst] in *. destruct st; try discriminate.
    destruct R1 as (Ca & _). rewrite <- R2. clear R2 C fs. destruct (cstereo_all c0 true c1 true (Stereo c0 c1 sfx) a I Ca) as (Cb & _ & O). rewrite E in Cb, O. cbn [fst] in Cb, O.
    unfold calibrate_stereo in E. destruct (_ || _)%nat%bool; [discriminate|]. destruct (a (MonoJson c0 "")) as [[jl| | |]|] eqn:E1; try discriminate. destruct (a (MonoJson c1 "")) as [[jr| | |]|] eqn:E2; try discriminate.
    destruct (a (MonoYaml c0 "")) as [[|ml| |]|] eqn:E3; try discriminate. destruct (a (MonoYaml c1 "")) as [[|mr| |]|] eqn:E4; try discriminate.
    destruct (proj2 (Ca _ _ (gw_mono c0 "")) ltac:(congruence)) as (d & D1 & D2). rewrite E1 in D1. injection D1 as <-. rewrite E3 in D2. injection D2 as ->.
    destruct (proj2 (Ca _ _ (gw_mono c1 "")) ltac:(congruence)) as (d & D1 & D2). rewrite E2 in D1. injection D1 as <-. rewrite E4 in D2. injection D2 as ->.
    exists jl, jr. rewrite !O by (try discriminate; intros; split; discriminate). rewrite E1, E2, E3, E4. repeat (split; [reflexivity|]).
    assert (FN : forall m d b, finish solve_pair (Stereo c0 c1 sfx) (solve jl) m jl d b = (fs', Done) -> match solve_pair (solve jl) m jl d with Some s => fs' (Stereo c0 c1 sfx) = Some (Pair s) | None => fs' = b end).
    { intros m d b H. unfold finish in H. destruct (solve_pair _ _ _ _); injection H as <-; [apply write_this|reflexivity]. }
    destruct (same_size _ _ _) eqn:SZ.
    - exists jr. apply same_size_iff in SZ. split; [reflexivity|]. split; [congruence|]. apply FN in E. destruct (solve_pair _ _ _ _); [exact E|now rewrite E].
    - destruct (if there a (ResizedJson c1) then (a, Done) else cmono c1 true (ResizedYaml c1) (ResizedJson c1) (Some (size (solve jl))) a) as [b st] eqn:Q.
      assert (Cb' : consistent b /\ b (Stereo c0 c1 sfx) = a (Stereo c0 c1 sfx)).
      { destruct (there a (ResizedJson c1)); [injection Q as <- _; now split|]. assert (K := cmono_consistent c1 true _ _ (Some (size (solve jl))) a (gw_resized c1) Ca). rewrite Q in K. split; [exact K|].
        clear - Q. unfold calibrate_mono in Q. destruct (_ <? 8)%nat; [injection Q as <- _; reflexivity|]. destruct (a (ResizedJson c1)) as [[]|]; try destruct force2; try destruct (detect _ c1 _); injection Q as <- _; rewrite ?write_other by discriminate; reflexivity. }
      destruct st; try discriminate. destruct (b (ResizedYaml c1)) as [[|m| |]|] eqn:B1; try discriminate. destruct (b (ResizedJson c1)) as [[d| | |]|] eqn:B2; try discriminate.
      destruct (proj2 (proj1 Cb' _ _ (gw_resized c1)) ltac:(congruence)) as (d' & D1 & D2). rewrite B2 in D1. injection D1 as <-. rewrite B1 in D2. injection D2 as ->.
      exists d. assert (OB : forall f, f <> Stereo c0 c1 sfx -> fs' f = b f) by (intros f N; replace fs' with (fst (finish solve_pair (Stereo c0 c1 sfx) (solve jl) (solve d) jl d b)) by (rewrite E; reflexivity); now apply finish_other).
      rewrite !OB by discriminate. split; [intros K; apply same_size_iff in K; congruence|]. split; [now split|]. apply FN in E. destruct (solve_pair _ _ _ _); [exact E|]. rewrite E. apply Cb'.
  Qed.
  (** The laser planes are computed from the raw images of a camera where there are any, and from the processed ones elsewhere. *)
  Theorem C227_laser : forall (fs : folder) c0 c1 r s (d0 d1 : bool) top bot, cameras = c0 :: c1 :: r -> fs (Stereo c0 c1 "") = Some (Pair s) -> fs (LaserTop c0 sfx) = None \/ fo = true ->
    (if d0 then laser_has false c0 = false /\ laser_has true c0 = true else laser_has false c0 = true) ->
    (if d1 then laser_has false c1 = false /\ laser_has true c1 = true else laser_has false c1 = true) ->
    (8 <= laser_count d0 c0)%nat -> (8 <= laser_count d1 c1)%nat -> solve_laser s d0 d1 = Some (top, bot) ->
    exists fs', laser fs = (fs', Done) /\ fs' (LaserTop c0 sfx) = Some (Plane top) /\
      fs' (LaserBottom c0 sfx) = match bot with Some b => Some (Plane b) | None => fs (LaserBottom c0 sfx) end /\
      forall f, f <> LaserTop c0 sfx -> f <> LaserBottom c0 sfx -> fs' f = fs f.
  Proof.
    intros fs c0 c1 r s d0 d1 top bot EC EP T D0 D1 N0 N1 SL. unfold CalRunModel.laser. rewrite EC. rewrite <- EC.
    assert (TH : (there fs (LaserTop c0 sfx) && negb fo)%bool = false) by (unfold there; destruct T as [-> | ->]; [reflexivity|apply Bool.andb_false_r]). rewrite TH.
    assert (there fs (Stereo c0 c1 "") = true) as -> by (unfold there; now rewrite EP).
    assert (LF : forall (d : bool) c, (if d then laser_has false c = false /\ laser_has true c = true else laser_has false c = true) -> laser_folder laser_has c = Some d).
    { intros d c K. unfold laser_folder. destruct d; [destruct K as [-> ->]; reflexivity|now rewrite K]. }
    rewrite (LF d0 c0 D0), (LF d1 c1 D1). assert (((laser_count d0 c0 <? 8) || (laser_count d1 c1 <? 8))%nat%bool = false) as ->.
    { apply Bool.orb_false_iff. split; apply Nat.ltb_ge; assumption. }
    rewrite EP, SL. cbv zeta. eexists. split; [reflexivity|].
    split; [destruct bot; [rewrite write_other by discriminate|]; apply write_this|]. split; [destruct bot; [apply write_this|rewrite write_other by discriminate; reflexivity]|].
    intros f N2 N3. destruct bot; rewrite !write_other by assumption; reflexivity.
  Qed.
  Print Assumptions C227_laser.
End Run.

(** The processed images of the third camera play no part in the calibration of its pairs. *)
Theorem C227_third (J M S : Type) (has has' : bool -> name -> bool) (count count' : bool -> name -> nat) (detect detect' : bool -> name -> option (nat * nat) -> option J) (solve : J -> M) (size : M -> nat * nat)
  (solve_pair : M -> M -> J -> J -> option S) (L : Type) force force2 typed c0 c1 c2 r (fs : @folder J M S L) :
  (forall b c, c <> c2 \/ b = false -> has b c = has' b c /\ count b c = count' b c /\ detect b c = detect' b c) -> c0 <> c2 ->
  fs (MonoYaml c0 "") <> None -> fs (MonoYaml c2 "") <> None ->
  second_pair has count detect solve size solve_pair force force2 typed (c0 :: c1 :: c2 :: r) fs =
  second_pair has' count' detect' solve size solve_pair force force2 typed (c0 :: c1 :: c2 :: r) fs.
Proof.
  intros H N F0 F2. unfold second_pair, ready.
  assert (there fs (MonoYaml c0 "") = true) as -> by (unfold there; destruct (fs (MonoYaml c0 "")); [reflexivity|now destruct F0]).
  assert (there fs (MonoYaml c2 "") = true) as -> by (unfold there; destruct (fs (MonoYaml c2 "")); [reflexivity|now destruct F2]). cbn [andb].
  assert (CH : forall b, chosen has b c0 = chosen has' b c0) by (intros b; unfold chosen; now rewrite (proj1 (H true c0 (or_introl N)))).
  assert (C2 : chosen has false c2 = false /\ chosen has' false c2 = false) by (split; reflexivity).
  assert (CM : forall b y j t g, calibrate_mono (M := M) (S := S) (L := L) has count detect solve force2 c0 b y j t g = calibrate_mono has' count' detect' solve force2 c0 b y j t g).
  { intros b y j t g. unfold calibrate_mono. rewrite CH. destruct (H (chosen has' b c0) c0 (or_introl N)) as (_ & -> & ->). reflexivity. }
  assert (CM2 : forall y j t g, calibrate_mono (M := M) (S := S) (L := L) has count detect solve force2 c2 false y j t g = calibrate_mono has' count' detect' solve force2 c2 false y j t g).
  { intros y j t g. unfold calibrate_mono. destruct C2 as [-> ->]. destruct (H false c2 (or_intror eq_refl)) as (_ & -> & ->). reflexivity. }
  assert (A : forall out g, calibrate_stereo (L := L) has count detect solve size solve_pair force2 c0 true c2 false out g = calibrate_stereo has' count' detect' solve size solve_pair force2 c0 true c2 false out g).
  { intros out g. unfold calibrate_stereo. destruct C2 as [-> ->]. rewrite CH. destruct (H (chosen has' true c0) c0 (or_introl N)) as (_ & -> & _). destruct (H false c2 (or_intror eq_refl)) as (_ & -> & _).
    destruct (_ || _)%nat%bool; [reflexivity|]. destruct (g (MonoJson c0 "")) as [[]|], (g (MonoJson c2 "")) as [[]|], (g (MonoYaml c0 "")) as [[]|], (g (MonoYaml c2 "")) as [[]|]; try reflexivity.
    destruct (same_size _ _ _); [reflexivity|]. destruct (there g _); [reflexivity|]. now rewrite CM2. }
  assert (B : forall out g, calibrate_stereo (L := L) has count detect solve size solve_pair force2 c2 false c0 true out g = calibrate_stereo has' count' detect' solve size solve_pair force2 c2 false c0 true out g).
  { intros out g. unfold calibrate_stereo. destruct C2 as [-> ->]. rewrite CH. destruct (H (chosen has' true c0) c0 (or_introl N)) as (_ & -> & _). destruct (H false c2 (or_intror eq_refl)) as (_ & -> & _).
    destruct (_ || _)%nat%bool; [reflexivity|]. destruct (g (MonoJson c2 "")) as [[]|], (g (MonoJson c0 "")) as [[]|], (g (MonoYaml c2 "")) as [[]|], (g (MonoYaml c0 "")) as [[]|]; try reflexivity.
    destruct (same_size _ _ _); [reflexivity|]. destruct (there g _); [reflexivity|]. now rewrite CM. }
  rewrite A. destruct (there fs (Stereo c0 c2 (suffix typed)) && negb (fo force force2))%bool; [reflexivity|].
  destruct (calibrate_stereo _ _ _ _ _ _ _ c0 true c2 false _ fs) as [g []]; [apply B|reflexivity|reflexivity].
Qed.
Print Assumptions C227_third.

(** * Examples and refutations *)
Definition enough (_ : bool) (_ : name) : nat := 20.
Definition yes (_ : bool) (_ : name) : bool := true.
Definition found (_ : bool) (c : name) (t : option (nat * nat)) : option nat := Some (String.length c).
Definition same (_ : nat) : nat * nat := (4, 3)%nat.
Definition sizes (n : nat) : nat * nat := (n, n).
Definition both (ml mr _ _ : nat) : option (nat * nat) := Some (ml, mr).
Definition empty : file -> option (@content nat nat (nat * nat) nat) := fun _ => None.
Definition planes_of (s : nat * nat) (_ _ : bool) : option (nat * option nat) := Some (fst s, Some (snd s)).
Definition run_mono f f2 s cams fs := mono (S := nat * nat) (L := nat) yes enough found (fun j => j) f f2 s cams fs.
Definition run_stereo sz f f2 s cams fs := stereo (L := nat) yes enough found (fun j => j) sz both f f2 s cams fs.
Definition run_laser sz f f2 s cams fs := laser yes enough found (fun j => j) sz both yes enough planes_of f f2 s cams fs.
Example mono_example : snd (run_mono false false "v2" ["a"; "bb"]%list empty) = Done /\ fst (run_mono false false "v2" ["a"; "bb"]%list empty) (MonoYaml "bb" "_v2") = Some (Mono 2%nat) /\
  fst (run_mono false false "v2" ["a"; "bb"]%list empty) (MonoYaml "bb" "") = None.
Proof. repeat split. Qed.
Example stereo_example : let '(fs, st) := run_stereo same false false "" ["a"; "bb"; "ccc"]%list empty in
  st = Done /\ fs (Stereo "a" "bb" "") = Some (Pair (1, 2)%nat) /\ fs (Stereo "ccc" "a" "") = Some (Pair (3, 1)%nat).
Proof. repeat split. Qed.
(** After the first pair alone has been calibrated, the second is not calibrated without forcing the first again. *)
Theorem C228_second_pair_refuted : exists fs, fs (Stereo "a" "bb" "") <> None /\ fs (Stereo "a" "ccc" "") = None /\ snd (run_stereo same false false "" ["a"; "bb"; "ccc"]%list fs) = Quits /\
  fst (run_stereo same false false "" ["a"; "bb"; "ccc"]%list fs) (Stereo "a" "ccc" "") = None.
Proof. exists (fst (run_stereo same false false "" ["a"; "bb"]%list empty)). repeat split. discriminate. Qed.
Print Assumptions C228_second_pair_refuted.
(** The second pair in the other direction is overwritten without -F. *)
Theorem C228_reverse_refuted : exists fs old, fs (Stereo "ccc" "a" "") = Some (Pair old) /\ snd (run_stereo same false false "" ["a"; "bb"; "ccc"]%list fs) = Done /\
  fst (run_stereo same false false "" ["a"; "bb"; "ccc"]%list fs) (Stereo "ccc" "a" "") <> fs (Stereo "ccc" "a" "").
Proof. exists (write (Stereo "ccc" "a" "") (Pair (9, 9)%nat) empty), (9, 9)%nat. repeat split. discriminate. Qed.
Print Assumptions C228_reverse_refuted.
(** -FF does not renew the calibration of a resized camera, so that the pair is solved with the old one. *)
Theorem C228_resized_refuted : exists fs, fs (ResizedJson "bb") = Some (Detections 7%nat) /\ snd (run_stereo sizes true true "" ["a"; "bb"]%list fs) = Done /\
  fst (run_stereo sizes true true "" ["a"; "bb"]%list fs) (ResizedJson "bb") = Some (Detections 7%nat) /\
  fst (run_stereo sizes true true "" ["a"; "bb"]%list fs) (Stereo "a" "bb" "") = Some (Pair (1, 7)%nat).
Proof. exists (write (ResizedYaml "bb") (Mono 7%nat) (write (ResizedJson "bb") (Detections 7%nat) empty)). repeat split. Qed.
Print Assumptions C228_resized_refuted.
(** With the images in the processed folder only, the first pair is calibrated and the second is not. *)
Definition processed_only (p : bool) (_ : name) : nat := if p then 20%nat else 0%nat.
Theorem C228_folder_refuted : exists has, (forall c, has true c = true) /\ exists fs', stereo (L := nat) has processed_only found (fun j => j) same both false false "" ["a"; "bb"; "ccc"]%list empty = (fs', Quits) /\
  fs' (Stereo "a" "bb" "") <> None /\ fs' (MonoYaml "ccc" "") <> None /\ fs' (Stereo "a" "ccc" "") = None.
Proof. exists (fun p _ => p). split; [reflexivity|]. eexists. split; [reflexivity|]. repeat split; discriminate. Qed.
Print Assumptions C228_folder_refuted.
(** One camera with too few images keeps the others from being calibrated. *)
Theorem C228_few_refuted : exists cnt fs', mono (S := nat * nat) (L := nat) yes cnt found (fun j => j) false false "" ["a"; "bb"]%list empty = (fs', Quits) /\ cnt true "bb" = 20%nat /\ fs' (MonoYaml "bb" "") = None.
Proof. exists (fun _ c => if c =? "a" then 3%nat else 20%nat). eexists. split; [reflexivity|]. split; reflexivity. Qed.
Print Assumptions C228_few_refuted.
(** The plane of the second laser is overwritten without -F when the first is missing. *)
Theorem C228_bottom_refuted : exists fs, fs (LaserBottom "a" "") = Some (Plane 9%nat) /\ fst (run_laser same false false "" ["a"; "bb"]%list fs) (LaserBottom "a" "") = Some (Plane 2%nat).
Proof. exists (write (LaserBottom "a" "") (Plane 9%nat) empty). split; reflexivity. Qed.
Print Assumptions C228_bottom_refuted.
(** A laser calibration that first has to calibrate its pair ends without its planes when the other pair is there already. *)
Theorem C228_laser_refuted : exists fs, fs (Stereo "a" "ccc" "") <> None /\ let '(fs', st) := run_laser same false false "" ["a"; "bb"; "ccc"]%list fs in
  st = Quits /\ fs' (Stereo "a" "bb" "") <> None /\ fs' (LaserTop "a" "") = None /\ let '(fs'', st) := run_laser same false false "" ["a"; "bb"; "ccc"]%list fs' in st = Done /\ fs'' (LaserTop "a" "") <> None.
Proof. exists (write (Stereo "a" "ccc" "") (Pair (1, 3)%nat) empty). split; [discriminate|]. repeat split; discriminate. Qed.
Print Assumptions C228_laser_refuted.
(** The first camera has raw images of the laser and the second only processed ones. *)
Example laser_folders_example : let fs := write (Stereo "a" "bb" "") (Pair (1, 2)%nat) empty in
  let run := laser yes enough found (fun j => j) same both (fun b c => (c =? "a") || b)%bool enough (fun _ d0 d1 => Some ((if d0 then 1 else 2)%nat, Some (if d1 then 3 else 4)%nat)) false false "" ["a"; "bb"]%list fs in
  snd run = Done /\ fst run (LaserTop "a" "") = Some (Plane 2%nat) /\ fst run (LaserBottom "a" "") = Some (Plane 3%nat).
Proof. repeat split. Qed.
