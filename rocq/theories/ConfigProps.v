(** C52: comparing configurations. *)
From Coq Require Import Ascii String.
From Verif Require Import PyBase PfProofs SelectModel ConfigModel.
Local Open Scope Q_scope.
Local Open Scope list_scope.

(** ** Specification *)
(** Equal scalars: the same text or the same number. *)
Inductive equal : scalar -> scalar -> Prop :=
| eq_str : forall s, equal (Str s) (Str s)
| eq_num : forall x y, x == y -> equal (Num x) (Num y).
(** What the comparison is about. *)
Record agree (a b : config) : Prop := mkagree {
  ag_method : equal (method a) (method b);
  ag_colour : exists x y, color_correction a = Some x /\ color_correction b = Some y /\
    equal (distance_metric x) (distance_metric y) /\ equal (smoothing x) (smoothing y) /\ equal (window_size x) (window_size y);
  ag_names : Forall2 (fun c d => equal (camera_name c) (camera_name d)) (cameras a) (cameras b) }.
Definition has_colour (a : config) : Prop := color_correction a <> None.

Lemma scalar_eqb_iff : forall a b, scalar_eqb a b = true <-> equal a b.
Proof.
  intros a b. split.
  - destruct a, b; cbn; try discriminate; intros E.
    + apply String.eqb_eq in E. subst. constructor.
    + apply Qeq_bool_iff in E. now constructor.
  - intros []; cbn; [apply String.eqb_refl|]. now apply Qeq_bool_iff.
Qed.
Lemma equal_sym : forall a b, equal a b -> equal b a.
Proof. intros a b []; constructor. now symmetry. Qed.
Lemma equal_trans : forall a b c, equal a b -> equal b c -> equal a c.
Proof. intros a b c [s|x y E] F; inversion F; subst; constructor. now rewrite E. Qed.
Lemma names_iff : forall a b, List.length a = List.length b -> (same_names a b = true <-> Forall2 (fun c d => equal (camera_name c) (camera_name d)) a b).
Proof.
  induction a as [|x a IH]; intros [|y b] L; try discriminate.
  - split; [constructor|reflexivity].
  - cbn [same_names]. rewrite andb_true_iff, scalar_eqb_iff, (IH b) by (cbn in L; lia). split; [intros []; now constructor|intros H; inversion H; now split].
Qed.
(** ** C52 *)
(** The comparison answers yes exactly on agreement. *)
Theorem C52_means : forall a b, is_equivalent a b = Some true <-> agree a b.
Proof.
  intros a b. unfold is_equivalent. split.
  - destruct (scalar_eqb (method a) (method b)) eqn:M; [|discriminate]. cbn [negb]. destruct (color_correction a) as [x|] eqn:A; [|discriminate]. destruct (color_correction b) as [y|] eqn:B; [|discriminate].
    destruct (scalar_eqb (distance_metric x) (distance_metric y)) eqn:D; [|discriminate]. destruct (scalar_eqb (smoothing x) (smoothing y)) eqn:S; [|discriminate]. destruct (scalar_eqb (window_size x) (window_size y)) eqn:W; [|discriminate].
    cbn [negb]. destruct (List.length (cameras a) =? List.length (cameras b))%nat eqn:L; [|discriminate]. apply Nat.eqb_eq in L. cbn [negb]. intros N. injection N as N.
    split; [now apply scalar_eqb_iff| |now apply names_iff]. exists x, y. rewrite <- !scalar_eqb_iff. auto.
  - intros [M (x & y & A & B & D & S & W) N]. apply scalar_eqb_iff in M, D, S, W. rewrite M, A, B, D, S, W. cbn [negb]. assert (List.length (cameras a) = List.length (cameras b)) as L by (eapply Forall2_length; exact N).
    rewrite L, Nat.eqb_refl. cbn [negb]. f_equal. now apply names_iff.
Qed.
Print Assumptions C52_means.
Theorem C52_symmetric : forall a b, is_equivalent a b = is_equivalent b a.
Proof.
  intros a b. assert (forall x y, scalar_eqb x y = scalar_eqb y x) as S.
  { intros x y. apply Bool.eq_true_iff_eq. rewrite !scalar_eqb_iff. split; apply equal_sym. }
  assert (forall x y, same_names x y = same_names y x) as SN by (induction x as [|c x IH]; intros [|d y]; cbn; [reflexivity..|]; now rewrite S, IH).
  unfold is_equivalent. rewrite (S (method a)). destruct (negb _); [reflexivity|]. destruct (color_correction a) as [x|], (color_correction b) as [y|]; try reflexivity.
  rewrite (S (distance_metric x)), (S (smoothing x)), (S (window_size x)), (Nat.eqb_sym (List.length (cameras a))), SN. reflexivity.
Qed.
Print Assumptions C52_symmetric.
Theorem C52_transitive : forall a b c, is_equivalent a b = Some true -> is_equivalent b c = Some true -> is_equivalent a c = Some true.
Proof.
  intros a b c. rewrite !C52_means. intros [M (x & y & A & B & D & S & W) N] [M' (y' & z & B' & C & D' & S' & W') N']. rewrite B in B'. injection B' as <-.
  split; [eapply equal_trans; eassumption| |].
  - exists x, z. repeat split; auto; eapply equal_trans; eassumption.
  - clear -N N'. revert N'. generalize (cameras c). induction N as [|u v l m E N IH]; intros k N'; inversion N'; subst; constructor; [eapply equal_trans; eassumption|now apply IH].
Qed.
Print Assumptions C52_transitive.
(** It is reflexive with a colour section and without nans. *)
Theorem C52_reflexive : forall a x, color_correction a = Some x -> ~ In NaN (method a :: distance_metric x :: smoothing x :: window_size x :: map camera_name (cameras a)) ->
  is_equivalent a a = Some true.
Proof.
  intros a x C N. assert (forall s, s <> NaN -> equal s s) as R by (intros [] H; try constructor; [reflexivity|now destruct H]). cbn [In] in N.
  apply C52_means. split; [apply R; intuition| |].
  - exists x, x. repeat split; auto; apply R; intuition.
  - assert (forall c, In c (cameras a) -> camera_name c <> NaN) as H by (intros c I E; apply N; do 4 right; rewrite <- E; now apply in_map). clear -R H.
    induction (cameras a) as [|c l IH]; constructor; [apply R, H; now left|]. apply IH. intros d D. apply H. now right.
Qed.
Print Assumptions C52_reflexive.
Theorem C152_reflexive_refuted : exists a b, is_equivalent a a = None /\ is_equivalent b b = Some false.
Proof.
  exists (mkconf (Str "manual_balance") None []), (mkconf (Str "colour_correction") (Some (mkcolour (Str "altitude") (Str "") 0 10 0 10 (Str "mean") NaN)) []). now split.
Qed.
Print Assumptions C152_reflexive_refuted.
(** Dives are accepted together exactly when any two agree; one dive alone always is. *)
Theorem C52_dives : forall dives, accepted dives = Some true <-> ((2 <= List.length dives)%nat -> forall a b, In a dives -> In b dives -> agree a b).
Proof.
  intros [|c [|c' l]]; [split; [cbn; lia|reflexivity]..|]. cbn [accepted]. split.
  - intros E _ a b.
    assert (forall l, all_equivalent c l = Some true -> forall d, In d l -> is_equivalent c d = Some true) as G.
    { clear. induction l as [|e l IH]; intros E d []; cbn [all_equivalent] in E; destruct (is_equivalent c e) as [[]|] eqn:Q; try discriminate; [now subst|now apply IH]. }
    intros A B. rewrite <- C52_means. apply (C52_transitive a c b); [rewrite C52_symmetric|]; now apply (G _ E).
  - intros H. specialize (H ltac:(cbn; lia) c). revert H. generalize (c' :: l). intros m H.
    assert (forall d, In d (c :: m) -> is_equivalent c d = Some true) as G by (intros d D; rewrite C52_means; apply H; auto; now left). clear H.
    revert G. generalize (c :: m). clear. induction l as [|d l IH]; intros G; [reflexivity|]. cbn [all_equivalent]. rewrite G by now left. apply IH. intros e I. apply G. now right.
Qed.
Print Assumptions C52_dives.
(** But the altitude range of the training images is not compared: two accepted dives can train
    on different images of the same survey. *)
Definition dive (lo hi : Q) : config := mkconf (Str "colour_correction") (Some (mkcolour (Str "altitude") (Str "") lo hi 0 100 (Str "mean") (Num 3))) [mkcam (Str "Cam1") 30 3].
Theorem C152_determines_refuted : exists a b x y rows, accepted [a; b] = Some true /\ color_correction a = Some x /\ color_correction b = Some y /\
  fst (get_lists nat (parse_altitude_min x) (parse_altitude_max x) rows) <> fst (get_lists nat (parse_altitude_min y) (parse_altitude_max y) rows).
Proof.
  exists (dive 4 6), (dive 2 6). do 2 eexists. exists [mkrow 0%nat true (Some 3); mkrow 1%nat true (Some 5)].
  split; [reflexivity|]. split; [reflexivity|]. split; [reflexivity|]. vm_compute. discriminate.
Qed.
Print Assumptions C152_determines_refuted.
Example C52_ex : is_equivalent (dive 4 6) (dive 4 6) = Some true /\ is_equivalent (dive 4 6) (mkconf (Str "manual_balance") None []) = Some false. Proof. now split. Qed.
