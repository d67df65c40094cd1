(** Lemmas about CorrModel.v. *)
From Coq Require Import Ascii String.
From Verif Require Import CorrModel NmeaProofs LatlonProps BagProps.
Open Scope Q_scope.

Lemma place_eqb_iff p q : place_eqb p q = true <-> p = q.
Proof. unfold place_eqb. destruct list_eq_dec; split; congruence. Qed.
Lemma place_eqb_refl p : place_eqb p p = true.
Proof. now apply place_eqb_iff. Qed.
Lemma text_eqb_refl p : text_eqb p p = true.
Proof. now apply text_eqb_iff. Qed.
Lemma place_eqb_neq p q : p <> q -> place_eqb p q = false.
Proof. intros H. destruct (place_eqb p q) eqn:E; [apply place_eqb_iff in E; contradiction|reflexivity]. Qed.

Section Disk.
Context {A : Type}.
Implicit Types fs : disk A.
Lemma lookup_same fs p a : lookup (write fs p a) p = Some a.
Proof. cbn. now rewrite place_eqb_refl. Qed.
Lemma lookup_other fs p q a : q <> p -> lookup (write fs q a) p = lookup fs p.
Proof. intros H. cbn. now rewrite place_eqb_neq. Qed.
Lemma lookup_in fs p a : lookup fs p = Some a -> In (p, a) fs.
Proof.
  induction fs as [|[q b] fs IH]; cbn; [discriminate|]. destruct (place_eqb q p) eqn:E; intros H.
  - apply place_eqb_iff in E. left. congruence.
  - right. now apply IH.
Qed.
Lemma globbed_none ok fs folder : globbed ok fs folder = false -> forall n, ok n = true -> lookup fs (folder ++ [n]) = None.
Proof.
  intros G n N. destruct (lookup fs (folder ++ [n])) as [a|] eqn:E; [|reflexivity]. apply lookup_in in E.
  assert (globbed ok fs folder = true) as X; [|congruence]. unfold globbed. apply existsb_exists. exists (folder ++ [n], a). split; [exact E|]. cbn [fst].
  rewrite rev_app_distr. cbn [rev app]. rewrite rev_involutive, place_eqb_refl, N. reflexivity.
Qed.
Lemma none_globbed ok fs folder : (forall n, ok n = true -> lookup fs (folder ++ [n]) = None) -> globbed ok fs folder = false.
Proof.
  intros H. destruct (globbed ok fs folder) eqn:E; [|reflexivity]. unfold globbed in E. apply existsb_exists in E. destruct E as ([p a] & I & X). cbn [fst] in X.
  destruct (rev p) as [|n r] eqn:R; [discriminate|]. apply andb_prop in X. destruct X as [X N]. apply place_eqb_iff in X.
  assert (p = folder ++ [n]) as P by (rewrite <- (rev_involutive p), R; cbn; now rewrite X). specialize (H n N). rewrite <- P in H.
  exfalso. clear - H I. induction fs as [|[q b] fs IH]; [destruct I|]. cbn in H. destruct (place_eqb q p) eqn:E; [discriminate|].
  destruct I as [I|I]; [|now apply IH]. injection I as I1 I2. subst. now rewrite place_eqb_refl in E.
Qed.
End Disk.

Lemma last_two (p q : place) a b : p ++ [a] = q ++ [b] -> p = q /\ a = b.
Proof. apply app_inj_tail. Qed.
Lemma four_inj (p q : place) a b c a' b' c' : p ++ [a; b; c] = q ++ [a'; b'; c'] -> p = q /\ a = a' /\ b = b' /\ c = c'.
Proof.
  intros H. replace (p ++ [a; b; c]) with (((p ++ [a]) ++ [b]) ++ [c]) in H by now rewrite <- !app_assoc.
  replace (q ++ [a'; b'; c']) with (((q ++ [a']) ++ [b']) ++ [c']) in H by now rewrite <- !app_assoc.
  apply last_two in H. destruct H as [H ->]. apply last_two in H. destruct H as [H ->]. apply last_two in H. destruct H as [-> ->]. auto.
Qed.
Lemma five_inj (p q : place) a b c e a' b' c' e' : p ++ [a; b; c; e] = q ++ [a'; b'; c'; e'] -> p = q /\ a = a' /\ b = b' /\ c = c' /\ e = e'.
Proof.
  intros H. replace (p ++ [a; b; c; e]) with ((p ++ [a; b; c]) ++ [e]) in H by now rewrite <- !app_assoc.
  replace (q ++ [a'; b'; c'; e']) with ((q ++ [a'; b'; c']) ++ [e']) in H by now rewrite <- !app_assoc.
  apply last_two in H. destruct H as [H ->]. apply four_inj in H. intuition.
Qed.

(** ** Names of folders *)
Definition no_digit_first (r : text) : Prop := match r with [] => True | x :: _ => ~ (48 <= x <= 57)%N end.
Lemma spelled_cons d ds : spelled (d :: ds) = Z.to_N (48 + d) :: spelled ds.
Proof. reflexivity. Qed.
Lemma spelled_split ds : forall ds' r r', all_digits ds -> all_digits ds' -> no_digit_first r -> no_digit_first r' ->
  spelled ds ++ r = spelled ds' ++ r' -> ds = ds' /\ r = r'.
Proof.
  induction ds as [|d ds IH]; intros [|d' ds'] r r' A A' Nr Nr' H.
  - now split.
  - rewrite spelled_cons in H. change (spelled []) with (@nil N) in H. cbn [app] in H. subst r. exfalso. assert (0 <= d' <= 9)%Z by (apply A'; now left). unfold no_digit_first in Nr. apply Nr. lia.
  - rewrite spelled_cons in H. change (spelled []) with (@nil N) in H. cbn [app] in H. subst r'. exfalso. assert (0 <= d <= 9)%Z by (apply A; now left). unfold no_digit_first in Nr'. apply Nr'. lia.
  - rewrite !spelled_cons in H. cbn [app] in H. assert (0 <= d <= 9)%Z by (apply A; now left). assert (0 <= d' <= 9)%Z by (apply A'; now left).
    assert (Z.to_N (48 + d) = Z.to_N (48 + d') /\ spelled ds ++ r = spelled ds' ++ r') as [E1 E2] by (split; congruence).
    assert (d = d') as -> by lia. destruct (IH ds' r r') as [-> ->]; auto; intros x X; [apply A|apply A']; now right.
Qed.
Lemma show_split a b r r' : no_digit_first r -> no_digit_first r' -> show a ++ r = show b ++ r' -> a = b /\ r = r'.
Proof.
  intros Nr Nr' H. destruct (show_spec a) as (ds & E & D & V & _). destruct (show_spec b) as (ds' & E' & D' & V' & _).
  rewrite E, E' in H. apply spelled_split in H; auto. destruct H as [-> ->]. split; [lia|reflexivity].
Qed.

Lemma show_int_split a b r r' : no_digit_first r -> no_digit_first r' -> show_int a ++ r = show_int b ++ r' -> a = b /\ r = r'.
Proof.
  assert (forall n p s s', show n ++ s = (45%N :: show p) ++ s' -> False) as X.
  { intros n p s s' H. destruct (show_spec n) as (ds & E & D & V & N). rewrite E in H. destruct ds as [|d ds]; [congruence|]. rewrite spelled_cons in H. cbn [app] in H.
    assert (0 <= d <= 9)%Z by (apply D; now left). assert (Z.to_N (48 + d) = 45%N) by congruence. lia. }
  intros Nr Nr' H. unfold show_int in H. destruct a as [|a|a], b as [|b|b];
    try (apply show_split in H; auto; destruct H as [H ->]; split; [|reflexivity]; lia);
    try (now apply X in H); try (symmetry in H; now apply X in H).
  - cbn [app] in H. assert (show (N.pos a) ++ r = show (N.pos b) ++ r') as H' by congruence. apply show_split in H'; auto. destruct H' as [H' ->]. split; [|reflexivity]. congruence.
Qed.

Lemma is_equivalent_spec a b : is_equivalent a b = Some true -> meth a = meth b /\ names_of a = names_of b /\
  exists x y, colour a = Some x /\ colour b = Some y /\ metric x = metric y.
Proof.
  unfold is_equivalent. destruct (method_eqb (meth a) (meth b)) eqn:M; cbn [negb]; [|discriminate].
  destruct (colour a) as [x|]; [|discriminate]. destruct (colour b) as [y|]; [|discriminate]. intros H. assert ((text_eqb (metric x) (metric y) && text_eqb (smoothing x) (smoothing y) && Qeq_bool (window x) (window y)
                            && place_eqb (names_of a) (names_of b))%bool = true) as H' by congruence.
  apply andb_prop in H'. destruct H' as [H' P]. apply andb_prop in H'. destruct H' as [H' _]. apply andb_prop in H'. destruct H' as [H' _].
  apply text_eqb_iff in H'. apply place_eqb_iff in P. split; [|split; [exact P|]].
  - destruct (meth a), (meth b); (reflexivity || discriminate).
  - now exists x, y.
Qed.

Section Correct.
Variables I A : Type.
Variable listing : mode -> place -> config -> text -> option (list I).
Variable with_depth_map : place -> list I -> option (list I).
Variable value : text -> config -> list I -> A.
Variable out_name : I -> text.
Variable develop : config -> camcfg -> list (option A) -> I -> A.
Implicit Types fs : disk A.
Notation parse_camera := (parse_camera I A listing with_depth_map value).
Notation parse_cameras := (parse_cameras I A listing with_depth_map value).
Notation process_camera := (process_camera I A listing with_depth_map out_name develop).
Notation write_params := (write_params I A value).
Notation write_images := (write_images I A out_name develop).

Lemma write_params_other c images folder names : forall fs p, (forall n, In n names -> p <> folder ++ [n]) ->
  lookup (write_params fs folder c names images) p = lookup fs p.
Proof.
  induction names as [|n names IH]; intros fs p H; [reflexivity|]. unfold CorrModel.write_params in *. cbn [fold_left]. rewrite IH by (intros; apply H; now right).
  apply lookup_other. intros X. apply (H n); [now left|now symmetry].
Qed.
Lemma write_params_in c images folder names : forall fs n, In n names -> lookup (write_params fs folder c names images) (folder ++ [n]) = Some (value n c images).
Proof.
  induction names as [|m names IH]; intros fs n H; [destruct H|]. destruct (in_dec (list_eq_dec N.eq_dec) n names) as [J|J].
  - unfold CorrModel.write_params in *. cbn [fold_left]. now apply IH.
  - destruct H as [->|H]; [|contradiction]. change (lookup (write_params (write fs (folder ++ [n]) (value n c images)) folder c names images) (folder ++ [n]) = Some (value n c images)).
    rewrite write_params_other; [apply lookup_same|]. intros m M X. apply last_two in X. destruct X as [_ ->]. contradiction.
Qed.
Lemma write_images_other c cc ps folder images : forall fs p, (forall i, In i images -> p <> folder ++ [out_name i]) ->
  lookup (write_images fs folder c cc ps images) p = lookup fs p.
Proof.
  induction images as [|i images IH]; intros fs p H; [reflexivity|]. unfold CorrModel.write_images in *. cbn [fold_left]. rewrite IH by (intros; apply H; now right).
  apply lookup_other. intros X. apply (H i); [now left|now symmetry].
Qed.
Lemma write_images_in c cc ps folder images : forall fs i, NoDup (map out_name images) -> In i images ->
  lookup (write_images fs folder c cc ps images) (folder ++ [out_name i]) = Some (develop c cc ps i).
Proof.
  induction images as [|j images IH]; intros fs i D H; [destruct H|]. cbn [map] in D. inversion D as [|x l J D']. subst.
  destruct H as [->|H].
  - change (lookup (write_images (write fs (folder ++ [out_name i]) (develop c cc ps i)) folder c cc ps images) (folder ++ [out_name i]) = Some (develop c cc ps i)).
    rewrite write_images_other; [apply lookup_same|]. intros m M X. apply last_two in X. destruct X as [_ X]. apply J. rewrite X. now apply in_map.
  - unfold CorrModel.write_images in *. cbn [fold_left]. now apply IH.
Qed.
Lemma copies_other source dest names : forall fs p, (forall n, In n names -> p <> dest ++ [n]) -> lookup (fold_left (copy_if_exists A source dest) names fs) p = lookup fs p.
Proof.
  induction names as [|n names IH]; intros fs p H; [reflexivity|]. cbn [fold_left]. rewrite IH by (intros; apply H; now right).
  unfold copy_if_exists. destruct (lookup fs (source ++ [n])); [|reflexivity]. apply lookup_other. intros X. apply (H n); [now left|now symmetry].
Qed.
Lemma copies_in source dest names : source <> dest -> NoDup names -> forall fs n, In n names ->
  lookup (fold_left (copy_if_exists A source dest) names fs) (dest ++ [n]) = match lookup fs (source ++ [n]) with Some a => Some a | None => lookup fs (dest ++ [n]) end.
Proof.
  intros SD. induction names as [|m names IH]; intros D fs n H; [destruct H|]. inversion D as [|x l J D']. subst. cbn [fold_left].
  destruct H as [->|H].
  - rewrite copies_other by (intros m M X; apply last_two in X; destruct X as [_ ->]; contradiction).
    unfold copy_if_exists. destruct (lookup fs (source ++ [n])); [apply lookup_same|reflexivity].
  - rewrite IH by assumption. unfold copy_if_exists. destruct (lookup fs (source ++ [m])) as [a|]; [|reflexivity].
    rewrite !lookup_other; [reflexivity| |]; intros X; apply last_two in X; destruct X as [X1 X2]; [congruence|]. congruence.
Qed.
Lemma copied_nodup : NoDup copied.
Proof. repeat constructor; intros H; cbn [In] in H; repeat (destruct H as [H|H]; [vm_compute in H; discriminate|]); destruct H. Qed.
Lemma copy_params_other source dest fs p : (forall n, In n copied -> p <> dest ++ [n]) -> lookup (copy_params A source dest fs) p = lookup fs p.
Proof. intros H. unfold copy_params. destruct (place_eqb dest source); [reflexivity|]. now apply copies_other. Qed.
Lemma copy_params_source source dest fs n : lookup (copy_params A source dest fs) (source ++ [n]) = lookup fs (source ++ [n]).
Proof.
  unfold copy_params. destruct (place_eqb dest source) eqn:E; [reflexivity|]. apply copies_other. intros m M X. apply last_two in X. destruct X as [X _].
  subst. now rewrite place_eqb_refl in E.
Qed.
Lemma copy_params_dest source dest fs n a : In n copied -> lookup fs (source ++ [n]) = Some a -> lookup (copy_params A source dest fs) (dest ++ [n]) = Some a.
Proof.
  intros H S. unfold copy_params. destruct (place_eqb dest source) eqn:E. { apply place_eqb_iff in E. now subst. }
  rewrite copies_in, S; auto using copied_nodup. intros ->. now rewrite place_eqb_refl in E.
Qed.
Lemma all_copies_other source relative ds : forall fs p, (forall x n, In x ds -> In n copied -> p <> processed x ++ relative ++ [n]) ->
  lookup (fold_left (fun fs x => copy_params A source (processed x ++ relative) fs) ds fs) p = lookup fs p.
Proof.
  induction ds as [|d ds IH]; intros fs p H; [reflexivity|]. cbn [fold_left]. rewrite IH by (intros; apply H; [now right|assumption]).
  apply copy_params_other. intros n N. rewrite <- app_assoc. apply H; [now left|assumption].
Qed.
Lemma all_copies_source source relative ds n : forall fs, lookup (fold_left (fun fs x => copy_params A source (processed x ++ relative) fs) ds fs) (source ++ [n]) = lookup fs (source ++ [n]).
Proof. induction ds as [|d ds IH]; intros fs; [reflexivity|]. cbn [fold_left]. now rewrite IH, copy_params_source. Qed.
Lemma all_copies_dest source relative ds n a : In n copied -> forall fs x, In x ds -> lookup fs (source ++ [n]) = Some a ->
  lookup (fold_left (fun fs x => copy_params A source (processed x ++ relative) fs) ds fs) (processed x ++ relative ++ [n]) = Some a.
Proof.
  intros N. induction ds as [|d ds IH]; intros fs x X S; [destruct X|]. cbn [fold_left].
  destruct (in_dec (list_eq_dec (list_eq_dec N.eq_dec)) (processed x) (map processed ds)) as [J|J].
  - apply in_map_iff in J. destruct J as (y & Y & J). rewrite <- Y. apply IH; [exact J|]. now rewrite copy_params_source.
  - destruct X as [->|X]; [|exfalso; apply J; now apply in_map]. rewrite all_copies_other.
    + rewrite app_assoc. now apply copy_params_dest.
    + intros y m Y M X. apply J. rewrite !app_assoc in X. apply last_two in X. destruct X as [X _]. apply app_inv_tail in X. rewrite X. now apply in_map.
Qed.
End Correct.
