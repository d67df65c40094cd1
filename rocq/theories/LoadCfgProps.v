(** Properties C239, C240: which configuration of a dive correct_images reads. *)
From Coq Require Import Ascii String.
From Verif Require Import PyBase MissionModel LoadCfgModel DefaultsModel.
Open Scope string_scope.
Open Scope list_scope.
Open Scope Q_scope.

(** ** The steps of a reader *)
Lemma then_ok : forall {A B} (r : res A) (f : A -> res B) b, then_ r f = Ok b -> exists a, r = Ok a /\ f a = Ok b.
Proof. intros A B [a| |] f b H; try discriminate. now exists a. Qed.
Lemma item_ok : forall k n v, item k n = Ok v <-> get k n = Some v.
Proof. intros k n v. unfold item. destruct (get k n); split; intros H; try discriminate; injection H as ->; reflexivity. Qed.
Lemma mapping_ok : forall y n, mapping y = Ok n <-> y = YMap n.
Proof. intros [] n; cbn; split; intros H; try discriminate; injection H as ->; reflexivity. Qed.
Lemma among_iff : forall l y, among l y = true <-> exists s, y = YStr s /\ In s l.
Proof.
  intros l y. destruct y; cbn; try (split; [discriminate|intros (? & H & _); discriminate]). rewrite existsb_exists. split.
  - intros (x & I & E). apply String.eqb_eq in E. subst. now exists x.
  - intros (x & E & I). injection E as ->. exists x. split; [exact I|apply String.eqb_refl].
Qed.
Lemma has_key_iff : forall k n, has_key k n = true <-> get k n <> None.
Proof. intros k n. unfold has_key. destruct (get k n); split; intros H; try congruence; discriminate. Qed.
Ltac steps H := repeat (let a := fresh "v" in let E := fresh "E" in apply then_ok in H; destruct H as (a & E & H); try rewrite item_ok in E; try rewrite mapping_ok in E).

(** ** What is read from correct_images.yaml *)
(** The value of [key] in the mapping [section], or the default if the section or the key is missing. *)
Definition setting (n : node) (section key : string) (default v : yaml) : Prop :=
  (get section n = None /\ v = default) \/
  exists m, get section n = Some (YMap m) /\ (get key m = Some v \/ (get key m = None /\ v = default)).
Lemma get_or_setting : forall n s m k d, get s n = Some (YMap m) -> setting n s k d (get_or k d m).
Proof. intros n s m k d H. right. exists m. split; [exact H|]. unfold get_or. destruct (get k m); [now left|now right]. Qed.
Theorem C239_camera : forall y c, camconf_load y = Ok c -> exists n, y = YMap n /\ get "camera_name" n = Some (camera_name c) /\
  setting n "colour_correction" "brightness" (YNum 30) (brightness c) /\ setting n "colour_correction" "contrast" (YNum 3) (contrast c) /\
  setting n "manual_balance" "subtractors_rgb" (YSeq [YNum 0; YNum 0; YNum 0]) (subtractors c) /\
  setting n "manual_balance" "colour_gain_matrix_rgb"
    (YSeq [YSeq [YNum 1; YNum 0; YNum 0]; YSeq [YNum 0; YNum 1; YNum 0]; YSeq [YNum 0; YNum 0; YNum 1]]) (gains c) /\
  ((get "image_file_list" n = Some YNull /\ list_parse c = YStr "none" /\ list_process c = YStr "none") \/
   (setting n "image_file_list" "parse" (YStr "none") (list_parse c) /\ setting n "image_file_list" "process" (YStr "none") (list_process c))).
Proof.
  intros y c H. unfold camconf_load in H. apply then_ok in H. destruct H as (n & Ey & H). apply mapping_ok in Ey. exists n. split; [exact Ey|].
  apply then_ok in H. destruct H as (nm & En & H). apply item_ok in En. apply then_ok in H. destruct H as (l & El & H). apply then_ok in H. destruct H as (cc & Ec & H).
  apply then_ok in H. destruct H as (b & Eb & H). injection H as <-. cbn [camera_name list_parse list_process LoadCfgModel.brightness LoadCfgModel.contrast subtractors gains].
  assert (X : forall s k1 k2 d1 d2 r, match get s n with None => Ok (d1, d2) | Some z => do m <- mapping z; Ok (get_or k1 d1 m, get_or k2 d2 m) end = Ok r ->
              setting n s k1 d1 (fst r) /\ setting n s k2 d2 (snd r)).
  { intros s k1 k2 d1 d2 r K. destruct (get s n) as [z|] eqn:G.
    - apply then_ok in K. destruct K as (m & Em & K). apply mapping_ok in Em. subst z. injection K as <-. cbn [fst snd]. split; now apply get_or_setting.
    - injection K as <-. split; left; now split. }
  split; [exact En|]. apply X in Ec, Eb. destruct Ec as [C1 C2], Eb as [B1 B2]. do 2 (split; [assumption|]). do 2 (split; [assumption|]).
  destruct (get "image_file_list" n) as [[]|] eqn:G; cbn [mapping then_] in El; try discriminate.
  - left. injection El as <-. now split.
  - right. injection El as <-. cbn [fst snd]. split; now apply get_or_setting.
  - right. injection El as <-. split; left; now split.
Qed.
Print Assumptions C239_camera.

(** The altitude ranges: those for parse and process, or one range for both. *)
Inductive ranges (n : node) : yaml -> yaml -> yaml -> yaml -> Prop :=
| two_ranges a x z x1 x2 z1 z2 : get "altitude_filter" n = Some (YMap a) -> get "parse" a = Some (YMap x) -> get "process" a = Some (YMap z) ->
    get "min_m" x = Some x1 -> get "max_m" x = Some x2 -> get "min_m" z = Some z1 -> get "max_m" z = Some z2 -> ranges n x1 x2 z1 z2
| one_range a x1 x2 : get "altitude_filter" n = Some (YMap a) -> (get "parse" a = None \/ get "process" a = None) ->
    get "min_m" a = Some x1 -> get "max_m" a = Some x2 -> ranges n x1 x2 x1 x2.
Theorem C239_colour : forall y c, colour_load y = Ok c -> exists n m, y = YMap n /\ get "distance_metric" n = Some (YStr m) /\
  In (distance_metric c) ["uniform"; "altitude"; "depth_map"] /\ (m = distance_metric c \/ (m = "none" /\ distance_metric c = "uniform")) /\
  get "metric_path" n = Some (metric_path c) /\ get "smoothing" n = Some (smoothing c) /\ get "window_size" n = Some (window_size c) /\
  ranges n (parse_min c) (parse_max c) (process_min c) (process_max c).
Proof.
  intros y c H. unfold colour_load in H. apply then_ok in H. destruct H as (n & Ey & H). apply mapping_ok in Ey. apply then_ok in H. destruct H as (m0 & Em & H). apply item_ok in Em.
  set (m := match m0 with YStr s => if String.eqb s "none" then YStr "uniform" else m0 | _ => m0 end) in H.
  destruct (among ["uniform"; "altitude"; "depth_map"] m) eqn:A; [|discriminate]. cbn [negb] in H. apply among_iff in A. destruct A as (s & Es & I).
  assert (M : exists t, m0 = YStr t /\ (t = s \/ (t = "none" /\ s = "uniform"))).
  { subst m. destruct m0; try discriminate. exists s0. split; [reflexivity|]. destruct (String.eqb s0 "none") eqn:E; injection Es as <-; [apply String.eqb_eq in E; right; now split|now left]. }
  destruct M as (t & Et & M). rewrite Es in H. clear m Es.
  apply then_ok in H. destruct H as (p & Ep & H). apply item_ok in Ep. apply then_ok in H. destruct H as (a0 & Ea & H). apply item_ok in Ea. apply then_ok in H. destruct H as (a & Ea' & H). apply mapping_ok in Ea'. subst a0.
  apply then_ok in H. destruct H as (r & Er & H). apply then_ok in H. destruct H as (sm & Esm & H). apply item_ok in Esm. apply then_ok in H. destruct H as (w & Ew & H). apply item_ok in Ew.
  destruct r as [[[x1 x2] z1] z2]. injection H as <-. exists n, t. cbn [distance_metric metric_path smoothing window_size parse_min parse_max process_min process_max].
  split; [exact Ey|]. split; [congruence|]. do 5 (split; [assumption|]).
  destruct (has_key "parse" a && has_key "process" a) eqn:K.
  - steps Er. subst. injection Er as <- <- <- <-. eapply two_ranges; eassumption.
  - destruct (has_key "min_m" a && has_key "max_m" a); [|discriminate]. steps Er. injection Er as <- <- <- <-. eapply one_range; try eassumption.
    unfold has_key in K. destruct (get "parse" a); [right|now left]. destruct (get "process" a); [discriminate|reflexivity].
Qed.
Print Assumptions C239_colour.

Lemma each_ok : forall {A B} (f : A -> res B) l r, each f l = Ok r -> Forall2 (fun a b => f a = Ok b) l r.
Proof.
  intros A B f. induction l as [|a l IH]; intros r H; cbn [each] in H; [injection H as <-; constructor|].
  apply then_ok in H. destruct H as (b & Eb & H). apply then_ok in H. destruct H as (r' & Er & H). injection H as <-. constructor; [exact Eb|now apply IH].
Qed.
Lemma optional_ok : forall {A} k n (f : yaml -> res A) r, optional k n f = Ok r ->
  match r with None => get k n = None | Some a => exists y, get k n = Some y /\ f y = Ok a end.
Proof.
  intros A k n f r H. unfold optional in H. destruct (get k n) as [y|] eqn:G; [|now injection H as <-].
  apply then_ok in H. destruct H as (a & Ea & H). injection H as <-. now exists y.
Qed.
Theorem C239_config : forall y c, config_load y = Ok c -> exists n, y = YMap n /\ get "version" n = Some (version c) /\
  get "method" n = Some (YStr (method c)) /\ In (method c) ["manual_balance"; "colour_correction"] /\
  match color_correction c with None => get "colour_correction" n = None | Some k => exists z, get "colour_correction" n = Some z /\ colour_load z = Ok k end /\
  (configs c = [] \/ exists l, get "cameras" n = Some (YSeq l) /\ Forall2 (fun z k => camconf_load z = Ok k) l (configs c)) /\
  match camerarescale c with
  | None => get "rescale" n = None
  | Some rs => rs = [] \/ exists l, get "rescale" n = Some (YSeq l) /\ Forall2 (fun z r => rescaling_load z = Ok r) l rs
  end.
Proof.
  intros y c H. unfold config_load in H. apply then_ok in H. destruct H as (n & Ey & H). apply mapping_ok in Ey. exists n. split; [exact Ey|].
  destruct (get "version" n) as [v|]; [|discriminate]. apply then_ok in H. destruct H as (m & Em & H). apply item_ok in Em. destruct m; try discriminate.
  destruct (among ["manual_balance"; "colour_correction"] (YStr s)) eqn:A; [|discriminate]. cbn [negb] in H. apply among_iff in A. destruct A as (s' & Es & I). injection Es as <-.
  apply then_ok in H. destruct H as (k & Ek & H). apply optional_ok in Ek.
  apply then_ok in H. destruct H as (l & El & H). apply item_ok in El. apply then_ok in H. destruct H as (l' & El' & H). apply then_ok in H. destruct H as (cs & Ecs & H). apply each_ok in Ecs.
  apply then_ok in H. destruct H as (o & Eo & H). apply then_ok in H. destruct H as (o' & Eo' & H). apply then_ok in H. destruct H as (u & Eu & H). apply then_ok in H. destruct H as (z & Ez & H).
  apply then_ok in H. destruct H as (r & Er & H). apply optional_ok in Er. injection H as <-. cbn [version method color_correction configs camerarescale].
  do 4 (split; [solve [assumption|reflexivity]|]).
  assert (X : forall {B} (f : yaml -> res B) z ll bs, elements z = Ok ll -> Forall2 (fun a b => f a = Ok b) ll bs -> bs = [] \/ exists l0, z = YSeq l0 /\ Forall2 (fun a b => f a = Ok b) l0 bs).
  { intros B f z0 ll bs E F. destruct z0; cbn [elements] in E; try discriminate.
    - destruct s0; [|discriminate]. injection E as <-. inversion F. now left.
    - injection E as ->. right. now exists ll.
    - destruct l0; [|discriminate]. injection E as <-. inversion F. now left. }
  split.
  - destruct (X _ _ _ _ _ El' Ecs) as [->|(l0 & -> & F)]; [now left|right]. now exists l0.
  - destruct r as [rs|]; [|exact Er]. destruct Er as (z0 & G & K). apply then_ok in K. destruct K as (ll & K1 & K2). apply each_ok in K2.
    destruct (X _ _ _ _ _ K1 K2) as [->|(l0 & -> & F)]; [now left|right]. now exists l0.
Qed.
Print Assumptions C239_config.

(** ** What is read from camera.yaml *)
Theorem C239_system : forall dated y s, system_load dated y = Ok s -> exists n, y = YMap n /\ get "camera_system" n = Some (camera_system s) /\
  (cameras s = [] \/ exists l, get "cameras" n = Some (YSeq l) /\ Forall2 (fun z c => exists m, z = YMap m /\
    get "name" m = Some (YStr (topic c)) /\ get "type" m = Some (YStr (type c)) /\ In (type c) ["grayscale"; "rgb"; "bgr"; "rggb"; "grbg"; "bggr"; "gbrg"] /\
    get "path" m = Some (path c) /\ get "extension" m = Some (extension c) /\ get "bit_depth" m = Some (bit_depth c) /\
    (extension c = YStr "bag" \/ (dated m = Ok tt /\ exists k t, In k ["timestamp_file"; "filename_to_date"] /\ get k m = Some t /\ t <> YNull))) l (cameras s)).
Proof.
  intros dated y s H. unfold system_load in H. apply then_ok in H. destruct H as (n & Ey & H). apply mapping_ok in Ey. exists n. split; [exact Ey|].
  destruct (get "camera_system" n) as [cs|]; [|discriminate]. destruct (get "cameras" n) as [[]|] eqn:G; try discriminate.
  - destruct s0; [|discriminate]. injection H as <-. split; [reflexivity|now left].
  - apply then_ok in H. destruct H as (ks & Ek & H). injection H as <-. split; [reflexivity|]. right. exists l. split; [reflexivity|]. apply each_ok in Ek.
    cbn [cameras]. clear -Ek. induction Ek as [|z c l ks H F IH]; constructor; [|exact IH]. clear -H. unfold camera_load in H.
    apply then_ok in H. destruct H as (m & Em & H). apply mapping_ok in Em. exists m. split; [exact Em|].
    apply then_ok in H. destruct H as (nm & En & H). apply item_ok in En. destruct nm; try discriminate.
    apply then_ok in H. destruct H as (t & Et & H). apply item_ok in Et. destruct (among allowed_types t) eqn:A; [|discriminate]. cbn [negb] in H. apply among_iff in A. destruct A as (t' & -> & I).
    apply then_ok in H. destruct H as (b & Eb & H). apply item_ok in Eb. apply then_ok in H. destruct H as (p & Ep & H). apply item_ok in Ep. apply then_ok in H. destruct H as (e & Ee & H). apply item_ok in Ee.
    destruct (among ["bag"] e) eqn:B.
    + injection H as <-. cbn [topic type path extension bit_depth]. do 6 (split; [assumption|]). left. apply among_iff in B. destruct B as (x & -> & [<-|[]]). reflexivity.
    + destruct (null (get "timestamp_file" m) && null (get "filename_to_date" m)) eqn:N; [discriminate|]. apply then_ok in H. destruct H as ([] & Ed & H). injection H as <-.
      cbn [topic type path extension bit_depth]. do 6 (split; [assumption|]). right. split; [exact Ed|].
      assert (X : forall k, null (get k m) = false -> exists t, get k m = Some t /\ t <> YNull) by (intros k K; destruct (get k m) as [z0|]; [|discriminate]; exists z0; split; [reflexivity|intros ->; discriminate]).
      apply Bool.andb_false_iff in N. destruct N as [N|N]; apply X in N; destruct N as (t0 & N1 & N2); [exists "timestamp_file"|exists "filename_to_date"]; exists t0; cbn; tauto.
  - destruct l; [|discriminate]. injection H as <-. split; [reflexivity|now left].
Qed.
Print Assumptions C239_system.
(** A camera called /a/b is called a_b. *)
Fixpoint slashless (s : string) : Prop := match s with EmptyString => True | String c s => c <> "/"%char /\ slashless s end.
Lemma slashless_iff : forall s, slash s = false <-> slashless s.
Proof.
  induction s as [|c s IH]; cbn [slash slashless]; [tauto|]. rewrite Bool.orb_false_iff, IH, Ascii.eqb_neq. tauto.
Qed.
Lemma replaced_same : forall s, slashless s -> replaced s = s.
Proof. induction s as [|c s IH]; cbn [replaced slashless]; [reflexivity|]. intros [C S]. apply Ascii.eqb_neq in C. rewrite C, IH by exact S. reflexivity. Qed.
Lemma replaced_app : forall a b, replaced (a ++ b)%string = (replaced a ++ replaced b)%string.
Proof. induction a as [|c a IH]; intros b; cbn [replaced append]; [reflexivity|now rewrite IH]. Qed.
Theorem C239_entry_name : (forall s, slashless s -> entry_name s = s) /\
  (forall a, slashless a -> entry_name ("/" ++ a) = a) /\ (forall a b, slashless a -> slashless b -> entry_name ("/" ++ a ++ "/" ++ b) = (a ++ "_" ++ b)%string).
Proof.
  split; [|split].
  - intros s S. unfold entry_name. apply slashless_iff in S. now rewrite S.
  - intros a A. unfold entry_name. cbn [append slash Ascii.eqb]. change (Ascii.eqb "/" "/" || slash a)%bool with true. cbn iota. now apply replaced_same.
  - intros a b A B. unfold entry_name. cbn [append slash]. change (Ascii.eqb "/" "/" || slash (a ++ String "/" b))%bool with true. cbn iota.
    change (String "/" b) with ("/" ++ b)%string. rewrite !replaced_app, (replaced_same a A), (replaced_same b B). reflexivity.
Qed.
Print Assumptions C239_entry_name.

(** ** Which files are read and written *)
(** The name of the configuration file. *)
Definition file_name (suffix : option string) (f : string) : Prop :=
  ((suffix = None \/ suffix = Some "") /\ f = "correct_images.yaml") \/ exists s, suffix = Some s /\ s <> "" /\ f = ("correct_images_" ++ s ++ ".yaml")%string.
Theorem C239_file : forall suffix f, config_file suffix = f <-> file_name suffix f.
Proof.
  intros suffix f. unfold config_file, file_name. destruct suffix as [[|c s]|].
  - split; [intros <-; left; split; [now right|reflexivity]|]. intros [[_ ->]|(s & E & N & _)]; [reflexivity|congruence].
  - split; [intros <-; right; exists (String c s); repeat split; discriminate|]. intros [[[E|E] _]|(s' & E & N & ->)]; [discriminate|discriminate|]. injection E as <-. reflexivity.
  - split; [intros <-; left; split; [now left|reflexivity]|]. intros [[_ ->]|(s & E & _)]; [reflexivity|discriminate].
Qed.
Print Assumptions C239_file.
Lemma place_eqb_iff : forall p q, place_eqb p q = true <-> p = q.
Proof. intros [] []; cbn; split; intros H; try discriminate; try reflexivity; try (apply String.eqb_eq in H; now subst); injection H as ->; apply String.eqb_refl. Qed.
Lemma write_same : forall d p y, write d p y p = Some y.
Proof. intros d p y. unfold write. now rewrite (proj2 (place_eqb_iff p p) eq_refl). Qed.
Lemma write_other : forall d p q y, p <> q -> write d p y q = d q.
Proof. intros d p q y N. unfold write. destruct (place_eqb p q) eqn:E; [apply place_eqb_iff in E; contradiction|reflexivity]. Qed.

Section Files.
  Variables (dated : node -> res unit) (package : string -> option yaml) (frames : list string).
  Notation load := (load dated package frames).
  (** Where the description of the cameras comes from: the configuration folder, else the raw folder, else the package. *)
  Definition nine (format file : string) : Prop := In (format, file)
    [("acfr_standard", "ts1/SSK17-01"); ("seaxerocks_3", "ae2000/YK17-23C"); ("biocam", "as6/DY109"); ("biocam4000_15c", "alr/jc220"); ("hybis", "hybis");
     ("ntnu_stereo", "ntnu_stereo/tautra21"); ("stereo_gopro", "smarty200/stereo_gopro"); ("voyis", "smarty200/voyis"); ("rosbag", "rosbag/grassmap")].
  Inductive source (d : disk) (format : string) : yaml -> Prop :=
  | from_config y : d ConfigCamera = Some y -> source d format y
  | from_raw y : d ConfigCamera = None -> d RawCamera = Some y -> source d format y
  | from_package y v : d ConfigCamera = None -> d RawCamera = None -> nine format v -> package ("auv_nav/default_yaml/" ++ v ++ "/camera.yaml") = Some y -> source d format y.
  Lemma default_camera_nine : forall f p, default_camera f = Some p -> exists v, nine f v /\ p = ("auv_nav/default_yaml/" ++ v ++ "/camera.yaml")%string.
  Proof.
    intros f p H. unfold default_camera in H. cbn [find fst] in H. unfold nine.
    repeat (match type of H with context [String.eqb f ?s] => destruct (String.eqb f s) eqn:?E; [apply String.eqb_eq in E; subst f; injection H as <-; eexists; split; [cbn; tauto|reflexivity]|clear E] end).
    discriminate.
  Qed.
  Lemma camera_yaml_ok : forall d f y d', camera_yaml package d f = Ok (y, d') -> source d f y /\ (forall p, p <> ConfigCamera -> d' p = d p) /\
    (d' ConfigCamera = d ConfigCamera \/ (d ConfigCamera = None /\ d RawCamera = None /\ f = "rosbag" /\ d' ConfigCamera = Some y)).
  Proof.
    intros d f y d' H. unfold camera_yaml in H. destruct (d RawCamera) as [r|] eqn:R; destruct (d ConfigCamera) as [c|] eqn:C.
    - injection H as <- <-. split; [now apply from_config|]. split; [reflexivity|now left].
    - injection H as <- <-. split; [now apply from_raw|]. split; [reflexivity|now left].
    - injection H as <- <-. split; [now apply from_config|]. split; [reflexivity|now left].
    - destruct (default_camera f) as [p|] eqn:P; [|discriminate]. destruct (package p) as [z|] eqn:K; [|destruct (String.eqb f "rosbag"); discriminate]. injection H as <- <-.
      destruct (default_camera_nine _ _ P) as (v & N & ->). split; [now apply from_package with v|]. destruct (String.eqb f "rosbag") eqn:E; [|split; [reflexivity|left; exact C]].
      apply String.eqb_eq in E. split; [intros p Q; apply write_other; congruence|]. right. do 2 (split; [reflexivity|]). split; [exact E|apply write_same].
  Qed.

  (** The outcome step by step. *)
  Definition config_yaml (d : disk) (format : string) (suffix : option string) : res (yaml * disk) :=
    let file := ConfigFile (config_file suffix) in
    match d file with
    | Some c => Ok (c, d)
    | None => match default_config format with Some p => match package p with Some c => Ok (c, write d file c) | None => Raised end | None => Raised end
    end.
  Lemma config_yaml_ok : forall d f x y d', config_yaml d f x = Ok (y, d') -> d' (ConfigFile (config_file x)) = Some y /\ (forall p, p <> ConfigFile (config_file x) -> d' p = d p) /\
    (d (ConfigFile (config_file x)) = Some y \/ (d (ConfigFile (config_file x)) = None /\ exists p, default_config f = Some p /\ package p = Some y)).
  Proof.
    intros d f x y d' H. unfold config_yaml in H. destruct (d (ConfigFile (config_file x))) as [c|] eqn:D.
    - injection H as <- <-. repeat split; [exact D|now left].
    - destruct (default_config f) as [p|]; [|discriminate]. destruct (package p) as [c|] eqn:P; [|discriminate]. injection H as <- <-.
      split; [apply write_same|]. split; [intros q N; apply write_other; congruence|]. right. split; [reflexivity|]. now exists p.
  Qed.
  Lemma load_cases : forall stamp x d, load stamp x d =
    match d MissionYaml with
    | None => (d, Quit)
    | Some m => match mission_image frames m with
      | Quit => (d, Quit) | Raised => (d, Raised)
      | Ok (f, cams) => match camera_yaml package d f with
        | Quit => (d, Quit) | Raised => (d, Raised)
        | Ok (y, d1) => match system_load dated y with
          | Quit => (d1, Quit) | Raised => (d1, Raised)
          | Ok s => if negb (among [f] (camera_system s)) then (d1, Quit) else
              match config_yaml d1 f x with
              | Quit => (d1, Quit) | Raised => (d1, Raised)
              | Ok (c, d2) => match config_load c with
                | Quit => (d2, Quit) | Raised => (d2, Raised)
                | Ok k => (write d2 (Log stamp) c, Ok (mkloaded k s (filter (fun n => negb (existsb (named n) (cameras s))) cams))) end end end end end end.
  Proof. reflexivity. Qed.

  (** Whatever happens, only a missing camera.yaml, the configuration file and the log are written. *)
  Lemma load_writes : forall stamp x d p, p <> ConfigFile (config_file x) -> p <> Log stamp -> (p = ConfigCamera -> d ConfigCamera <> None \/ d RawCamera <> None) ->
    fst (load stamp x d) p = d p.
  Proof.
    intros stamp x d p NF NL NC. rewrite load_cases. destruct (d MissionYaml) as [m|]; [|reflexivity]. destruct (mission_image frames m) as [[f cams]| |]; try reflexivity.
    destruct (camera_yaml package d f) as [[y d1]| |] eqn:C; try reflexivity. apply camera_yaml_ok in C. destruct C as (_ & C1 & C2).
    assert (E1 : d1 p = d p) by (destruct p; try (apply C1; discriminate); destruct C2 as [C2|(X & Y & _)]; [exact C2|destruct (NC eq_refl); congruence]).
    destruct (system_load dated y) as [s| |]; try exact E1. destruct (negb _); [exact E1|].
    destruct (config_yaml d1 f x) as [[c d2]| |] eqn:K; try exact E1. apply config_yaml_ok in K. destruct K as (_ & K & _).
    assert (E2 : d2 p = d p) by (rewrite K by exact NF; exact E1). destruct (config_load c); try exact E2. cbn [fst]. rewrite write_other by congruence. exact E2.
  Qed.
  Theorem C239_writes : forall stamp x f d p, file_name x f -> p <> ConfigFile f -> p <> Log stamp -> (p = ConfigCamera -> d ConfigCamera <> None \/ d RawCamera <> None) ->
    fst (load stamp x d) p = d p.
  Proof. intros stamp x f d p F. apply C239_file in F. subst f. apply load_writes. Qed.
  (** A file of the dive that exists is not changed. *)
  Theorem C239_keeps : forall stamp x d p y, d p = Some y -> p <> Log stamp -> fst (load stamp x d) p = Some y.
  Proof.
    intros stamp x d p y D N. destruct (place_eqb p (ConfigFile (config_file x))) eqn:E.
    - apply place_eqb_iff in E. subst p. rewrite load_cases. destruct (d MissionYaml) as [m|]; [|exact D]. destruct (mission_image frames m) as [[f cams]| |]; try exact D.
      destruct (camera_yaml package d f) as [[z d1]| |] eqn:C; try exact D. apply camera_yaml_ok in C. destruct C as (_ & C1 & _).
      assert (E1 : d1 (ConfigFile (config_file x)) = Some y) by (rewrite C1 by discriminate; exact D).
      destruct (system_load dated z) as [s| |]; try exact E1. destruct (negb _); [exact E1|].
      unfold config_yaml. rewrite E1. destruct (config_load y); exact E1.
    - rewrite load_writes; [exact D| |exact N|].
      + intros ->. rewrite (proj2 (place_eqb_iff _ _) eq_refl) in E. discriminate E.
      + intros ->. left. congruence.
  Qed.
  (** What a dive is corrected with. *)
  Theorem C239_loaded : forall stamp x file d d' r, file_name x file -> load stamp x d = (d', Ok r) ->
    exists m format cams y c, d MissionYaml = Some m /\ mission_image frames m = Ok (format, cams) /\
      source d format y /\ system_load dated y = Ok (cam_system r) /\ camera_system (cam_system r) = YStr format /\
      d' (ConfigFile file) = Some c /\ config_load c = Ok (correct_config r) /\ d' (Log stamp) = Some c /\
      (d (ConfigFile file) = Some c \/ (d (ConfigFile file) = None /\ exists p, default_config format = Some p /\ package p = Some c)) /\
      forall n, In n (warned r) <-> In n cams /\ forall k, In k (cameras (cam_system r)) -> n <> YStr (name k).
  Proof.
    intros stamp x file d d' r F H. apply C239_file in F. subst file. rewrite load_cases in H. destruct (d MissionYaml) as [m|]; [|discriminate].
    destruct (mission_image frames m) as [[f cams]| |] eqn:M; try discriminate.
    destruct (camera_yaml package d f) as [[y d1]| |] eqn:C; try discriminate. apply camera_yaml_ok in C. destruct C as (C0 & C1 & C2).
    destruct (system_load dated y) as [s| |] eqn:S; try discriminate. destruct (among [f] (camera_system s)) eqn:A; [|discriminate]. cbn [negb] in H. apply among_iff in A. destruct A as (f' & A & [<-|[]]).
    destruct (config_yaml d1 f x) as [[c d2]| |] eqn:K; try discriminate. apply config_yaml_ok in K. destruct K as (K1 & K2 & K3).
    destruct (config_load c) as [k| |] eqn:L; try discriminate. injection H as <- <-. exists m, f, cams, y, c. cbn [cam_system correct_config warned].
    split; [reflexivity|]. split; [exact M|]. split; [exact C0|]. do 2 (split; [assumption|]). split; [rewrite write_other by discriminate; exact K1|]. split; [exact L|]. split; [apply write_same|]. split.
    - rewrite C1 in K3 by discriminate. exact K3.
    - intros n. rewrite filter_In. split; intros [I N]; (split; [exact I|]).
      + intros k0 K E. subst n. apply Bool.negb_true_iff in N. assert (X : existsb (named (YStr (name k0))) (cameras s) = true) by (apply existsb_exists; exists k0; split; [exact K|cbn; apply String.eqb_refl]). congruence.
      + apply Bool.negb_true_iff. destruct (existsb (named n) (cameras s)) eqn:X; [|reflexivity]. apply existsb_exists in X. destruct X as (k0 & K & E). destruct n; try discriminate. cbn in E. apply String.eqb_eq in E. subst. exfalso. now apply (N k0 K).
  Qed.
  (** A second run finds what the first one used. *)
  Theorem C239_again : forall stamp stamp' x d d' r, load stamp x d = (d', Ok r) ->
    exists d'', load stamp' x d' = (d'', Ok r) /\ forall p, (forall s, p <> Log s) -> d'' p = d' p.
  Proof.
    intros stamp stamp' x d d' r H. rewrite load_cases in H. destruct (d MissionYaml) as [m|] eqn:M0; [|discriminate].
    destruct (mission_image frames m) as [[f cams]| |] eqn:M; try discriminate.
    destruct (camera_yaml package d f) as [[y d1]| |] eqn:C; try discriminate. pose proof (camera_yaml_ok _ _ _ _ C) as (C0 & C1 & C2).
    destruct (system_load dated y) as [s| |] eqn:S; try discriminate. destruct (negb (among [f] (camera_system s))) eqn:A; [discriminate|].
    destruct (config_yaml d1 f x) as [[c d2]| |] eqn:K; try discriminate. apply config_yaml_ok in K. destruct K as (K1 & K2 & K3).
    destruct (config_load c) as [k| |] eqn:L; try discriminate. injection H as <- <-.
    assert (P1 : write d2 (Log stamp) c MissionYaml = Some m) by (rewrite write_other, K2, C1 by discriminate; exact M0).
    assert (P2 : write d2 (Log stamp) c RawCamera = d RawCamera) by (rewrite write_other, K2, C1 by discriminate; reflexivity).
    assert (P3 : write d2 (Log stamp) c ConfigCamera = d1 ConfigCamera) by (rewrite write_other, K2 by discriminate; reflexivity).
    assert (P4 : write d2 (Log stamp) c (ConfigFile (config_file x)) = Some c) by (rewrite write_other by discriminate; exact K1).
    set (e := write d2 (Log stamp) c) in *.
    assert (Q : camera_yaml package e f = Ok (y, e)).
    { unfold camera_yaml in C |- *. rewrite P2, P3. destruct (d RawCamera) as [rc|] eqn:R; destruct (d ConfigCamera) as [cc|] eqn:CC.
      - injection C as <- <-. now rewrite CC.
      - injection C as <- <-. now rewrite CC.
      - injection C as <- <-. now rewrite CC.
      - destruct (default_camera f) as [p|]; [|discriminate]. destruct (package p) as [z|] eqn:P; [|destruct (String.eqb f "rosbag"); discriminate]. injection C as <- <-.
        destruct (String.eqb f "rosbag") eqn:E; [now rewrite write_same|]. now rewrite CC. }
    exists (write e (Log stamp') c). split; [|intros p N; apply write_other; intros X; now apply (N stamp')].
    rewrite load_cases, P1, M, Q, S, A. unfold config_yaml. rewrite P4, L. reflexivity.
  Qed.
End Files.
Print Assumptions C239_writes. Print Assumptions C239_keeps. Print Assumptions C239_loaded. Print Assumptions C239_again.

(** ** The files that come with the package *)
Definition shipped_file (p : string) : option yaml := option_map snd (find (fun e => String.eqb p (fst e)) shipped).
Lemma camera_load_dated : forall dated y, (forall n, dated n = Ok tt) -> camera_load dated y = camera_load (fun _ => Ok tt) y.
Proof.
  intros dated y D. unfold camera_load. destruct (mapping y) as [n| |]; try reflexivity. cbn [then_]. destruct (item "name" n) as [[]| |]; try reflexivity. cbn [then_].
  destruct (item "type" n); try reflexivity. cbn [then_]. destruct (negb _); [reflexivity|]. destruct (item "bit_depth" n); try reflexivity. cbn [then_]. destruct (item "path" n); try reflexivity. cbn [then_].
  destruct (item "extension" n); try reflexivity. cbn [then_]. destruct (among ["bag"] a2); [reflexivity|]. destruct (null _ && null _)%bool; [reflexivity|]. now rewrite D.
Qed.
Lemma system_load_dated : forall dated y, (forall n, dated n = Ok tt) -> system_load dated y = system_load (fun _ => Ok tt) y.
Proof.
  intros dated y D. unfold system_load. destruct (mapping y) as [n| |]; try reflexivity. cbn [then_]. destruct (get "camera_system" n); [|reflexivity]. destruct (get "cameras" n) as [[]|]; try reflexivity.
  assert (E : each (camera_load dated) l = each (camera_load (fun _ => Ok tt)) l) by (induction l as [|z l IH]; [reflexivity|]; cbn [each]; rewrite (camera_load_dated _ _ D), IH; reflexivity).
  now rewrite E.
Qed.
(** Every camera that is configured is one of the camera system; colour correction has its section. *)
Definition configured (s : system) (k : config) : Prop :=
  configs k <> [] /\ (forall c, In c (configs k) -> exists e, In e (cameras s) /\ camera_name c = YStr (name e)) /\
  (method k = "colour_correction" -> color_correction k <> None).
Definition configuredb (s : system) (k : config) : bool :=
  negb (match configs k with [] => true | _ => false end) && forallb (fun c => existsb (fun e => match camera_name c with YStr n => String.eqb n (name e) | _ => false end) (cameras s)) (configs k)
  && (negb (String.eqb (method k) "colour_correction") || match color_correction k with Some _ => true | None => false end).
Lemma configuredb_ok : forall s k, configuredb s k = true -> configured s k.
Proof.
  intros s k H. unfold configuredb in H. apply Bool.andb_true_iff in H. destruct H as [H H3]. apply Bool.andb_true_iff in H. destruct H as [H1 H2].
  split; [intros E; rewrite E in H1; discriminate|]. split.
  - intros c I. rewrite forallb_forall in H2. specialize (H2 c I). apply existsb_exists in H2. destruct H2 as (e & J & E). exists e. split; [exact J|]. destruct (camera_name c); try discriminate. apply String.eqb_eq in E. now subst.
  - intros M. rewrite M in H3. cbn in H3. destruct (color_correction k); [discriminate|discriminate].
Qed.
Definition default_result (f : string) : option (system * config * yaml) :=
  match default_camera f, default_config f with
  | Some p, Some q => match shipped_file p, shipped_file q with
                      | Some y, Some c => match system_load (fun _ => Ok tt) y, config_load c with Ok s, Ok k => if among [f] (camera_system s) then Some (s, k, y) else None | _, _ => None end
                      | _, _ => None end
  | _, _ => None
  end.
Definition formats : list string := ["acfr_standard"; "seaxerocks_3"; "biocam"; "biocam4000_15c"; "hybis"; "ntnu_stereo"; "stereo_gopro"; "voyis"; "rosbag"].
Lemma default_results : forallb (fun f => match default_result f with Some (s, k, _) => String.eqb f "rosbag" || configuredb s k | None => false end) formats = true.
Proof. vm_compute. reflexivity. Qed.
(** A dive of any of the nine formats that has only its mission.yaml can be corrected with the files of the package. *)
Theorem C239_defaults : forall dated frames stamp x file d m format cams, (forall n, dated n = Ok tt) -> file_name x file ->
  In format ["acfr_standard"; "seaxerocks_3"; "biocam"; "biocam4000_15c"; "hybis"; "ntnu_stereo"; "stereo_gopro"; "voyis"; "rosbag"] ->
  d MissionYaml = Some m -> mission_image frames m = Ok (format, cams) -> d RawCamera = None -> d ConfigCamera = None -> d (ConfigFile file) = None ->
  exists d' r, load dated shipped_file frames stamp x d = (d', Ok r) /\ (format <> "rosbag" -> configured (cam_system r) (correct_config r)).
Proof.
  intros dated frames stamp x file d m f cams D F I M MI R C N. apply C239_file in F. subst file. pose proof default_results as T. rewrite forallb_forall in T. specialize (T f I).
  destruct (default_result f) as [[[s k] y]|] eqn:E; [|discriminate]. unfold default_result in E. destruct (default_camera f) as [p|] eqn:P; [|discriminate]. destruct (default_config f) as [q|] eqn:Q; [|discriminate].
  destruct (shipped_file p) as [y'|] eqn:SP; [|discriminate]. destruct (shipped_file q) as [c|] eqn:SQ; [|discriminate].
  destruct (system_load (fun _ => Ok tt) y') as [s'| |] eqn:SL; try discriminate. destruct (config_load c) as [k'| |] eqn:CL; try discriminate. destruct (among [f] (camera_system s')) eqn:A; [|discriminate]. injection E as -> -> ->.
  rewrite load_cases, M, MI. unfold camera_yaml. rewrite R, C, P, SP, (system_load_dated _ _ D), SL, A. cbn [negb]. unfold config_yaml.
  assert (X : (if String.eqb f "rosbag" then write d ConfigCamera y else d) (ConfigFile (config_file x)) = None) by (destruct (String.eqb f "rosbag"); [rewrite write_other by discriminate|]; exact N).
  rewrite X, Q, SQ, CL. do 2 eexists. split; [reflexivity|]. intros NR. cbn [cam_system correct_config]. apply configuredb_ok. apply String.eqb_neq in NR. now rewrite NR in T.
Qed.
Print Assumptions C239_defaults.
(** The output folder of a camera balanced by hand can be named exactly when the gains reach the diagonal of a 3 by 3 matrix and there are three subtractors. *)
Theorem C239_folder : forall c, folder_named c = true <->
  exists r0 r1 r2 rest a b d subs, gains c = YSeq (YSeq r0 :: YSeq r1 :: YSeq r2 :: rest) /\ (1 <= length r0 /\ 2 <= length r1 /\ 3 <= length r2)%nat /\
    subtractors c = YSeq (a :: b :: d :: subs).
Proof.
  intros c. unfold folder_named. cbn [forallb]. split.
  - intros H. repeat (apply andb_true_iff in H; destruct H as [? H]). repeat match goal with X : (_ && _)%bool = true |- _ => apply andb_true_iff in X; destruct X end. clear H.
    unfold entry_of, element_of in *. destruct (gains c) as [| | | |rows|]; try discriminate. destruct (subtractors c) as [| | | |subs|]; try discriminate.
    destruct rows as [|[| | | |r0|] [|[| | | |r1|] [|[| | | |r2|] rest]]]; try discriminate. destruct subs as [|a [|b [|d subs]]]; try discriminate.
    exists r0, r1, r2, rest, a, b, d, subs. split; [reflexivity|]. split; [|reflexivity].
    destruct r0 as [|? r0]; [discriminate|]. destruct r1 as [|? [|? r1]]; try discriminate. destruct r2 as [|? [|? [|? r2]]]; try discriminate. cbn [length]. lia.
  - intros (r0 & r1 & r2 & rest & a & b & d & subs & -> & (L0 & L1 & L2) & ->).
    destruct r0 as [|? r0]; [cbn in L0; lia|]. destruct r1 as [|? [|? r1]]; try (cbn in L1; lia). destruct r2 as [|? [|? [|? r2]]]; try (cbn in L2; lia). reflexivity.
Qed.
Print Assumptions C239_folder.

(** ** Examples *)
Definition ex_mission (format : string) (cams : list node) : yaml :=
  YMap [("version", YNum 1); ("origin", YMap [("latitude", YNum 50); ("longitude", YNum 1); ("coordinate_reference_system", YStr "wgs84"); ("date", YStr "2020/01/01")]);
        ("image", YMap [("format", YStr format); ("cameras", YSeq (map YMap cams))])].
Definition ex_dive (m : yaml) : disk := fun p => match p with MissionYaml => Some m | _ => None end.
Definition ex_load (d : disk) := load (fun _ => Ok tt) shipped_file ["LC"; "RC"; "camera1"] "20200101_000000" None d.
Definition ex_lc : node := [("name", YStr "LC"); ("path", YStr "image/i*/*LC*")].
Example loads_defaults : exists d' r, ex_load (ex_dive (ex_mission "acfr_standard" [ex_lc])) = (d', Ok r) /\ map name (cameras (cam_system r)) = ["LC"; "RC"] /\
  d' (ConfigFile "correct_images.yaml") = Some correct_acfr /\ d' ConfigCamera = None /\ warned r = [].
Proof. do 2 eexists. split; [reflexivity|]. repeat split. Qed.
Example config_over_raw : exists d' r, ex_load (write (write (ex_dive (ex_mission "acfr_standard" [ex_lc])) RawCamera camera_hybis) ConfigCamera camera_acfr_standard) = (d', Ok r).
Proof. do 2 eexists. reflexivity. Qed.
Example other_system : snd (ex_load (write (ex_dive (ex_mission "acfr_standard" [ex_lc])) RawCamera camera_hybis)) = Quit.
Proof. reflexivity. Qed.
Example old_range : exists c, colour_load (YMap [("distance_metric", YStr "none"); ("metric_path", YNull); ("altitude_filter", YMap [("min_m", YNum 2); ("max_m", YNum 9)]);
  ("smoothing", YStr "mean"); ("window_size", YNum 3)]) = Ok c /\ distance_metric c = "uniform" /\ process_max c = YNum 9.
Proof. eexists. split; [reflexivity|]. split; reflexivity. Qed.

(** ** C240 *)
(** A camera that has one type in mission.yaml and another in camera.yaml is not accepted (531-543). *)
Theorem C240_type_refuted : exists m n, get "type" n = Some (YStr "grayscale") /\ m = ex_mission "acfr_standard" [n] /\
  exists d' r, ex_load (ex_dive m) = (d', Ok r) /\ map (fun c => (name c, type c)) (cameras (cam_system r)) = [("LC", "rggb"); ("RC", "rggb")] /\ get "name" n = Some (YStr "LC").
Proof. eexists. exists (ex_lc ++ [("type", YStr "grayscale")]). split; [reflexivity|]. split; [reflexivity|]. do 2 eexists. split; [reflexivity|]. split; reflexivity. Qed.
(** A camera with the same name in mission.yaml and in camera.yaml is found (526-529). *)
Theorem C240_found_refuted : exists n y, get "name" n = Some (YStr "/cam/left") /\
  y = YMap [("camera_system", YStr "rosbag"); ("cameras", YSeq [YMap [("name", YStr "/cam/left"); ("type", YStr "rgb"); ("bit_depth", YNum 8); ("path", YStr "image"); ("extension", YStr "bag")]])] /\
  exists d' r, ex_load (write (ex_dive (ex_mission "rosbag" [n])) ConfigCamera y) = (d', Ok r) /\ warned r = [YStr "/cam/left"].
Proof. exists [("name", YStr "/cam/left"); ("path", YStr "image"); ("origin", YStr "camera1")]. eexists. split; [reflexivity|]. split; [reflexivity|]. do 2 eexists. split; reflexivity. Qed.
(** A dive with its own camera.yaml gets a default correct_images.yaml (517-525): not with a format that auv_nav reads but that has no default. *)
Theorem C240_no_default_refuted : exists y, y = YMap [("camera_system", YStr "unagi"); ("cameras", YSeq [])] /\
  snd (ex_load (write (ex_dive (ex_mission "unagi" [ex_lc])) ConfigCamera y)) = Raised.
Proof. eexists. split; reflexivity. Qed.
(** The cameras of the default correct_images.yaml are those of the default camera.yaml: not for rosbag. *)
Theorem C240_rosbag_refuted : exists d' r, ex_load (ex_dive (ex_mission "rosbag" [[("name", YStr "LC"); ("path", YStr "image")]])) = (d', Ok r) /\ configs (correct_config r) <> [] /\
  forall c e, In c (configs (correct_config r)) -> In e (cameras (cam_system r)) -> camera_name c <> YStr (name e) /\ camera_name c <> YStr (topic e).
Proof.
  do 2 eexists. split; [reflexivity|]. split; [discriminate|]. cbn [correct_config cam_system configs cameras]. intros c e [<-|[]] [<-|[<-|[]]]; split; discriminate.
Qed.
(** With the default configuration of a format that is balanced by hand the output folders can be named. *)
Theorem C240_gains_refuted : exists d' r c, ex_load (ex_dive (ex_mission "biocam4000_15c" [ex_lc])) = (d', Ok r) /\ method (correct_config r) = "manual_balance" /\
  In c (configs (correct_config r)) /\ folder_named c = false.
Proof. do 3 eexists. split; [reflexivity|]. split; [reflexivity|]. split; [left; reflexivity|]. reflexivity. Qed.
(** The size of the pixels is in metres, as all nine files say. *)
Theorem C240_metres_refuted : exists y r, rescaling_load y = Ok r /\ (exists n, y = YMap n /\ get "target_pixel_size" n = Some (YNum (1 # 100))) /\ r_target r == 1 # 10000.
Proof.
  exists (YMap [("camera_name", YStr "LC"); ("path", YStr "p"); ("distance_path", YStr "d"); ("interpolate_method", YStr "bicubic"); ("target_pixel_size", YNum (1 # 100)); ("maintain_pixels", YBool true); ("output_folder", YStr "o")]).
  eexists. split; [reflexivity|]. split; [eexists; split; reflexivity|]. reflexivity.
Qed.
Theorem C240_metres_never : forall y r, rescaling_load y = Ok r -> exists n q, y = YMap n /\ (get "target_pixel_size" n = Some (YNum q) \/ (exists b : bool, get "target_pixel_size" n = Some (YBool b) /\ q = if b then 1 else 0)) /\ r_target r == q / 100.
Proof.
  intros y r H. unfold rescaling_load in H. steps H. injection H as <-. subst y. do 2 eexists. split; [reflexivity|]. cbn [r_target]. split; [|reflexivity].
  rewrite E4. match goal with X : number ?t = Ok ?q |- _ => destruct t; try discriminate X; injection X as <- end; [now left|right; now eexists].
Qed.
(** The rescale section of the default files can be used as it is (path_processed / None, rescale.py:157). *)
Theorem C240_rescale_refuted : exists d' r rs c, ex_load (ex_dive (ex_mission "acfr_standard" [ex_lc])) = (d', Ok r) /\ camerarescale (correct_config r) = Some rs /\ In c rs /\ r_path c = YNull /\ r_output c = YNull.
Proof. do 4 eexists. split; [reflexivity|]. split; [reflexivity|]. split; [left; reflexivity|]. split; reflexivity. Qed.
Print Assumptions C240_type_refuted. Print Assumptions C240_found_refuted. Print Assumptions C240_no_default_refuted. Print Assumptions C240_rosbag_refuted.
Print Assumptions C240_gains_refuted. Print Assumptions C240_metres_refuted. Print Assumptions C240_metres_never. Print Assumptions C240_rescale_refuted.
