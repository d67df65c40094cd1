(** C305, C306: the settings of a laser calibration and the files it writes. *)
From Coq Require Import List String QArith Bool.
From Verif Require Import MissionModel LaserCfgModel.
Import ListNotations.
Open Scope string_scope.
Open Scope list_scope.

(** ** Specification *)
(** What the calibrator uses, where it is in calibration.yaml, and what it is if it is not there *)
Definition table : list ((settings -> yaml) * string * string * yaml) :=
  [(k, "detection", "window_size", YNum 5); (min_greenness_ratio, "detection", "min_greenness_ratio", YNum (1 # 100)); (num_columns, "detection", "num_columns", YNum 1024);
   (remap, "detection", "remap", YBool true); (start_row, "detection", "start_row", YNum 0); (end_row, "detection", "end_row", YNum (-1)); (start_row_b, "detection", "start_row_b", YNum 0);
   (end_row_b, "detection", "end_row_b", YNum (-1)); (two_lasers, "detection", "two_lasers", YBool false);
   (min_z_m, "stratify", "min_z_m", YNum 1); (max_z_m, "stratify", "max_z_m", YNum 20); (number_of_bins, "stratify", "number_of_bins", YNum 5); (max_points_per_bin, "stratify", "max_bin_elements", YNum 300);
   (max_point_cloud_size, "ransac", "max_cloud_size", YNum 10000); (mdt, "ransac", "min_distance_threshold", YNum (2 # 1000)); (ssp, "ransac", "sample_size_ratio", YNum (8 # 10));
   (gip, "ransac", "goal_inliers_ratio", YNum (999 # 1000)); (max_iterations, "ransac", "max_iterations", YNum 5000)].
(** What counts as false in Python: nothing, false, zero and all that is empty *)
Definition falsy (v : yaml) : Prop := v = YNull \/ v = YBool false \/ (exists q, v = YNum q /\ q == 0)%Q \/ v = YStr "" \/ v = YSeq [] \/ v = YMap [].
(** A dictionary has every key once. *)
Definition well_formed (config : node) : Prop := NoDup (map fst config) /\ forall s n, In (s, YMap n) config -> NoDup (map fst n).

Lemma get_in : forall n key v, NoDup (map fst n) -> (get key n = Some v <-> In (key, v) n).
Proof.
  induction n as [|[a w] n IH]; intros key v D; cbn; [split; [discriminate|intros []]|]. inversion D as [|? ? N D']; subst. destruct (String.eqb_spec key a) as [ -> |E].
  - split; [intros X; injection X as ->; now left|]. intros [X|X]; [now injection X as ->|]. exfalso. apply N. now apply (in_map fst) in X.
  - rewrite (IH key v D'). split; [now right|]. intros [X|X]; [injection X as ->; now destruct E|exact X].
Qed.
Lemma get_none : forall n key, get key n = None <-> forall v, ~ In (key, v) n.
Proof.
  induction n as [|[a w] n IH]; intros key; cbn; [split; [intros _ v []|reflexivity]|]. destruct (String.eqb_spec key a) as [ -> |E].
  - split; [discriminate|]. intros X. exfalso. apply (X w). now left.
  - rewrite IH. split; intros X v; [intros [Y|Y]; [injection Y as ->; now destruct E|now apply (X v)]|]. intros Y. apply (X v). now right.
Qed.
Lemma load_inv : forall config s, load config = Ok s -> exists d t r, section_ "detection" config = Some d /\ section_ "stratify" config = Some t /\ section_ "ransac" config = Some r /\
  forall f sec key v, In (f, sec, key, v) table -> exists n, section_ sec config = Some n /\ f s = get_or key v n.
Proof.
  intros config s E. unfold load in E.
  destruct (get "filter" config) as [[]|]; try discriminate E; destruct (section_ "detection" config) as [d|] eqn:D; try discriminate E; destruct (section_ "stratify" config) as [t|] eqn:T; try discriminate E;
    destruct (section_ "ransac" config) as [r|] eqn:R; try discriminate E; injection E as <-; exists d, t, r; repeat split; intros f sec key v I; cbn in I;
    repeat (destruct I as [I|I]; [injection I as <- <- <- <-; eexists; split; [eassumption|reflexivity]|]); destruct I.
Qed.

Lemma truthy_iff : forall v, truthy v = true <-> ~ falsy v.
Proof.
  assert (forall v, truthy v = false <-> falsy v) as F.
  { intros v. unfold falsy. split.
    - destruct v as [|q|b|t|l|l]; cbn [truthy]; intros H; try tauto; try discriminate H.
      + apply negb_false_iff, Qeq_bool_iff in H. do 2 right. left. now exists q.
      + subst b. tauto.
      + apply negb_false_iff, String.eqb_eq in H. subst t. tauto.
      + destruct l; [tauto|discriminate].
      + destruct l; [tauto|discriminate].
    - intros [ -> |[ -> |[(q & -> & Z)|[ -> |[ -> | -> ]]]]]; try reflexivity. cbn [truthy]. apply negb_false_iff. now apply Qeq_bool_iff. }
  intros v. rewrite <- F. destruct (truthy v); split; congruence.
Qed.

(** ** C305 *)
(** A setting is what the file says, and its default if the file says nothing. *)
Theorem C305_settings : forall config s f sec key default, well_formed config -> load config = Ok s -> In (f, sec, key, default) table ->
  (forall n v, In (sec, YMap n) config -> In (key, v) n -> f s = v) /\ ((forall n v, In (sec, YMap n) config -> ~ In (key, v) n) -> f s = default).
Proof.
  intros config s f sec key default [W1 W2] L I. destruct (load_inv config s L) as (_ & _ & _ & _ & _ & _ & A). destruct (A _ _ _ _ I) as (n & S & ->). clear A.
  unfold section_, get_or in S. unfold get_or. destruct (get sec config) as [y|] eqn:G.
  - destruct y; try discriminate S. injection S as ->. apply get_in in G; [|exact W1]. pose proof (W2 _ _ G) as N. split.
    + intros n' v I1 I2. assert (YMap n' = YMap n) as X.
      { apply (get_in config sec) in G; [|exact W1]. apply (get_in config sec) in I1; [|exact W1]. rewrite G in I1. now injection I1 as ->. }
      injection X as ->. apply get_in in I2; [|exact N]. now rewrite I2.
    + intros X. assert (get key n = None) as -> by (apply get_none; intros v; now apply X). reflexivity.
  - injection S as <-. split; [|reflexivity]. intros n' v I1 _. exfalso. now apply (proj1 (get_none config sec) G (YMap n')).
Qed.
Print Assumptions C305_settings.

(** Settings are loaded if and only if there is no filter and detection, stratify and ransac, where given, are dictionaries. *)
Theorem C305_loads : forall config, well_formed config ->
  ((exists s, load config = Ok s) <-> (forall v, In ("filter", v) config -> v = YNull) /\ forall sec v, In sec ["detection"; "stratify"; "ransac"] -> In (sec, v) config -> exists n, v = YMap n).
Proof.
  intros config [W _].
  assert (forall sec, (exists n, section_ sec config = Some n) <-> forall v, In (sec, v) config -> exists n, v = YMap n) as S.
  { intros sec. unfold section_, get_or. destruct (get sec config) as [y|] eqn:G.
    - pose proof (proj1 (get_in config sec y W) G) as I. split.
      + intros [n E] v J. apply (get_in config sec v W) in J. rewrite G in J. injection J as <-. destruct y; try discriminate E. now eexists.
      + intros X. destruct (X y I) as [n ->]. now exists n.
    - split; [|intros _; now exists []]. intros _ v J. exfalso. now apply (proj1 (get_none config sec) G v). }
  assert ((get "filter" config = None \/ get "filter" config = Some YNull) <-> forall v, In ("filter", v) config -> v = YNull) as F.
  { split.
    - intros [E|E] v I; [exfalso; now apply (proj1 (get_none _ _) E v)|]. apply (get_in _ _ _ W) in I. rewrite E in I. now injection I.
    - intros X. destruct (get "filter" config) as [y|] eqn:G; [right|now left]. f_equal. apply X. now apply get_in. }
  rewrite <- F. clear F. split.
  - intros [s L]. split.
    + unfold load in L. destruct (get "filter" config) as [[]|]; try discriminate L; auto.
    + destruct (load_inv config s L) as (d & t & r & D & T & R & _). intros sec v I. apply S. destruct I as [ <- |[ <- |[ <- |[]]]]; eexists; eassumption.
  - intros [F A]. destruct (proj2 (S "detection")) as [d D]; [intros v; apply A; cbn; auto|]. destruct (proj2 (S "stratify")) as [t T]; [intros v; apply A; cbn; auto|]. destruct (proj2 (S "ransac")) as [r R]; [intros v; apply A; cbn; auto|].
    unfold load. rewrite D, T, R. destruct F as [ -> | -> ]; now eexists.
Qed.
Print Assumptions C305_loads.

(** With a detection section, a file is written for every plane that is fitted: the top one, and the bottom one if two_lasers is given as true. *)
Theorem C305_files : forall config n, well_formed config -> In ("detection", YMap n) config -> (exists s, load config = Ok s) ->
  exists l, calibrate_laser config = Ok (l, l, false) /\ In Top l /\ (In Bottom l <-> exists v, In ("two_lasers", v) n /\ ~ falsy v).
Proof.
  intros config n W I [s L]. setoid_rewrite <- truthy_iff. unfold calibrate_laser. rewrite L. destruct (C305_settings config s two_lasers "detection" "two_lasers" (YBool false) W L) as [A B]; [cbn; tauto|].
  destruct W as [W1 W2]. pose proof (W2 _ _ I) as N. unfold finish. rewrite (proj2 (get_in _ _ _ W1) I). destruct (get "two_lasers" n) as [v|] eqn:G.
  - pose proof (proj1 (get_in _ _ _ N) G) as J. rewrite (A n v I J). destruct (truthy v) eqn:T.
    + exists [Top; Bottom]. split; [reflexivity|]. split; [now left|]. split; [intros _; now exists v|intros _; cbn; auto].
    + exists [Top]. split; [reflexivity|]. split; [now left|]. split; [intros [X|[]]; discriminate X|]. intros (v' & J' & T'). apply (get_in _ _ _ N) in J'. rewrite G in J'. injection J' as ->. congruence.
  - assert (two_lasers s = YBool false) as ->.
    { apply B. intros n' v I' J. apply (get_in _ _ _ W1) in I'. apply (get_in _ _ _ W1) in I. rewrite I in I'. injection I' as <-. now apply (proj1 (get_none _ _) G v). }
    exists [Top]. split; [reflexivity|]. split; [now left|]. split; [intros [X|[]]; discriminate X|]. intros (v & J & _). exfalso. now apply (proj1 (get_none _ _) G v).
Qed.
Print Assumptions C305_files.
(** The shipped configuration gives the defaults, but for the number of bins. *)
Theorem C305_shipped : exists s, load shipped = Ok s /\ forall f sec key default, In (f, sec, key, default) table -> f s = if key =? "number_of_bins" then YNum 38 else default.
Proof. eexists. split; [reflexivity|]. intros f sec key default I. cbn in I. repeat (destruct I as [I|I]; [injection I as <- <- <- <-; reflexivity|]). destruct I. Qed.
Print Assumptions C305_shipped.

(** ** C306 *)
Definition shipped_with (points : yaml) : node :=
  map (fun e => if fst e =? "stratify" then (fst e, YMap [("min_z_m", YNum 1); ("max_z_m", YNum 20); ("number_of_bins", YNum 38); ("max_points_per_bin", points)]) else e) shipped.
(** False: "the settings of the shipped file can be changed".  The shipped file calls one max_points_per_bin, and the calibrator looks for max_bin_elements. *)
Theorem C306_points_refuted : exists v, shipped_with (YNum 300) = shipped /\ v <> YNum 300 /\ load (shipped_with v) = load shipped /\
  exists s, load (shipped_with v) = Ok s /\ max_points_per_bin s = YNum 300.
Proof. exists (YNum 10). split; [reflexivity|]. split; [discriminate|]. split; [reflexivity|]. eexists. split; reflexivity. Qed.
Print Assumptions C306_points_refuted.
(** False: "sections may be left out".  Without detection the planes are fitted with the defaults, the first file is written, and then the program fails. *)
Theorem C306_detection_refuted : exists config s l, well_formed config /\ load config = Ok s /\ calibrate_laser config = Ok (l, [Top], true).
Proof. exists [("laser_camera", YStr "LM165")]. do 2 eexists. split; [|split; reflexivity]. split; [repeat constructor; intros []|]. intros s n [X|[]]. discriminate X. Qed.
Print Assumptions C306_detection_refuted.
(** False: "sections may be left empty". *)
Theorem C306_empty_refuted : exists config, config = [("detection", YMap []); ("stratify", YNull)] /\ load config = Raises.
Proof. eexists. split; reflexivity. Qed.
Print Assumptions C306_empty_refuted.

(** ** Examples *)
Example shipped_bins : exists s, load shipped = Ok s /\ number_of_bins s = YNum 38 /\ two_lasers s = YBool false.
Proof. eexists. repeat split. Qed.
Example two : calibrate_laser [("detection", YMap [("two_lasers", YBool true)])] = Ok ([Top; Bottom], [Top; Bottom], false).
Proof. reflexivity. Qed.
Example filtered : load [("filter", YMap [])] = Quits.
Proof. reflexivity. Qed.
