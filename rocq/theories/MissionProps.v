(** C41: mission files. *)
From Coq Require Import String.
From Verif Require Import PyBase MissionModel.
Open Scope string_scope.

(** ** Specification: what a written file can hold *)
(** The options that have no place in a written file are at their defaults. *)
Definition default_options (e : entry) : Prop :=
  e_field e = YNum 0 /\ e_depth_filter e = YBool true /\ e_ne_filter e = YBool true /\ e_topic e = YNull.
Definition sensor_ok (d : string) (s : option entry) : Prop :=
  match s with Some e => default_options e /\ e_origin e = Some (YStr d) | None => True end.
Definition plain_ok (s : option entry) : Prop := match s with Some e => default_options e /\ e_origin e = None | None => True end.
Definition camera_ok (frames : list string) (c : camera) : Prop :=
  (exists n, c_name c = YStr n) /\ (exists o, c_origin c = YStr o /\ In o frames) /\ c_topic c = YNull /\ c_timeoffset_s c = YNull.
Definition image_ok (frames : list string) (i : option image) : Prop :=
  match i with Some i => i_cameras i <> [] /\ forall c, In c (i_cameras i) -> camera_ok frames c | None => True end.
Definition mission_ok (frames : list string) (m : mission) : Prop :=
  (forall f, In f ["dvl"; "ins"; "depth"; "usbl"] -> In f frames) /\
  sensor_ok "dvl" (m_velocity m) /\ sensor_ok "ins" (m_orientation m) /\ sensor_ok "depth" (m_depth m) /\ sensor_ok "dvl" (m_altitude m) /\
  sensor_ok "usbl" (m_usbl m) /\ plain_ok (m_tide m) /\ plain_ok (m_dr m) /\ image_ok frames (m_image m) /\ m_payloads m = [].

Lemma in_frames : forall s fs, In s fs -> existsb (String.eqb s) fs = true.
Proof. intros s fs I. apply existsb_exists. exists s. split; [exact I|apply String.eqb_refl]. Qed.

(** ** One sensor *)
(** What always survives: time zone, clock offset, format, files, label and the
    uncertainty model. *)
Theorem C41_sensor : forall e, exists e', entry_load (entry_write e) = Some e' /\
  e_zone e' = e_zone e /\ e_format e' = e_format e /\ e_filepath e' = e_filepath e /\ e_filename e' = e_filename e /\
  e_label e' = e_label e /\ e_factor e' = e_factor e /\ e_offset e' = e_offset e.
Proof. intros [[z o] f p n l sf so fi df ne t og]. eexists. split; [reflexivity|]. repeat split. Qed.
Print Assumptions C41_sensor.
(** What never survives: it comes back exactly if it was at its default and mounted at the
    sensor's default frame. *)
Theorem C41_sensor_exact : forall frames d e, In d frames ->
  (sensor_load frames d (Some (YMap (entry_write e))) = Some (Some e) <-> sensor_ok d (Some e)).
Proof.
  intros frames d [[z o] f p n l sf so fi df ne t og] I. cbn [sensor_load as_map bind].
  assert (entry_load (entry_write (mkentry (mkzone z o) f p n l sf so fi df ne t og)) =
          Some (mkentry (mkzone z o) f p n l sf so (YNum 0) (YBool true) (YBool true) YNull None)) as -> by reflexivity.
  cbn [bind mounted e_origin]. unfold mounted. cbn [e_origin]. rewrite in_frames by exact I.
  unfold with_origin, sensor_ok, default_options.
  cbn [e_zone e_format e_filepath e_filename e_label e_factor e_offset e_field e_depth_filter e_ne_filter e_topic e_origin bind].
  split.
  - intros H. injection H as <- <- <- <- <-. repeat split.
  - intros [(-> & -> & -> & ->) ->]. reflexivity.
Qed.
Print Assumptions C41_sensor_exact.
Definition usbl : entry := mkentry (mkzone 0 0) (YStr "gaps") (YStr "nav/usbl/") (YStr "") (YNum 4) (YNum 0) (YNum 0)
  (YNum 7) (YBool false) (YBool true) YNull (Some (YStr "usbl")).
Theorem C141_usbl_options_refuted : exists frames e e', In "usbl" frames /\ e_origin e = Some (YStr "usbl") /\
  sensor_load frames "usbl" (Some (YMap (entry_write e))) = Some (Some e') /\
  e_field e' <> e_field e /\ e_depth_filter e' <> e_depth_filter e.
Proof. exists ["usbl"], usbl. eexists. split; [now left|]. split; [reflexivity|]. split; [reflexivity|]. split; discriminate. Qed.
Print Assumptions C141_usbl_options_refuted.
(** A sensor mounted on another frame moves to the default one. *)
Definition altimeter : entry := mkentry (mkzone 0 0) (YStr "phins") (YStr "nav/") (YStr "a.log") (YNum 0) (YNum 0) (YNum 0)
  (YNum 0) (YBool true) (YBool true) YNull (Some (YStr "altimeter")).
Theorem C141_mounting_refuted : exists frames e e', mounted frames "dvl" e = Some e /\
  sensor_load frames "dvl" (Some (YMap (entry_write e))) = Some (Some e') /\ e_origin e' <> e_origin e.
Proof. exists ["dvl"; "altimeter"], altimeter. eexists. split; [reflexivity|]. split; [reflexivity|discriminate]. Qed.
Print Assumptions C141_mounting_refuted.

(** ** Cameras *)
Theorem C41_camera_exact : forall c n o, c_name c = YStr n -> c_origin c = YStr o ->
  (camera_load (camera_write c) = Some c <-> c_topic c = YNull /\ c_timeoffset_s c = YNull).
Proof.
  intros [na la og pa to ti ts] n o N O. cbn [c_name c_origin] in N, O. subst na og. unfold camera_load, camera_write.
  cbn [c_name c_origin c_path c_laser c_timeoffset c_topic c_timeoffset_s get get_or String.eqb Ascii.eqb Bool.eqb bind].
  unfold get_or. cbn [get String.eqb Ascii.eqb Bool.eqb]. split.
  - intros H. injection H as <- <-. now split.
  - intros [-> ->]. reflexivity.
Qed.
Print Assumptions C41_camera_exact.
Theorem C141_camera_refuted : exists c c', camera_load (camera_write c) = Some c' /\ c_timeoffset_s c' <> c_timeoffset_s c /\ c_topic c' <> c_topic c.
Proof.
  exists (mkcamera (YStr "cam1") (YBool false) (YStr "cam1") (YStr "image/") (YStr "/cam") (YNum 0) (YNum (3 # 2))).
  eexists. split; [reflexivity|]. split; discriminate.
Qed.
Print Assumptions C141_camera_refuted.
(** A camera without an explicit frame is written with [origin: null], which cannot be
    loaded. *)
Theorem C141_camera_origin_refuted : exists c, c_origin c = YNull /\ camera_load (camera_write c) = None.
Proof. exists (mkcamera (YStr "cam1") (YBool false) YNull (YStr "image/") YNull (YNum 0) YNull). now split. Qed.
Print Assumptions C141_camera_origin_refuted.

Lemma cameras_back : forall frames cs, (forall c, In c cs -> camera_ok frames c) ->
  all_load (fun y => bind (as_map y) camera_load) (map (fun c => YMap (camera_write c)) cs) = Some cs.
Proof.
  induction cs as [|c cs IH]; intros H; [reflexivity|]. cbn [map all_load].
  destruct (H c (or_introl eq_refl)) as ((n & N) & (o & O & _) & T & S).
  assert (bind (as_map (YMap (camera_write c))) camera_load = Some c) as ->.
  { cbn [bind as_map]. apply (C41_camera_exact c n o N O). now split. }
  cbn [bind]. rewrite IH by (intros d I; apply H; now right). reflexivity.
Qed.
Lemma image_back : forall frames i, image_ok frames (Some i) -> images_load frames (Some (YMap (image_write i))) = Some (Some i).
Proof.
  intros frames [[z o] f cs] [NE H]. cbn [i_cameras] in *. cbn [images_load as_map bind]. unfold image_load, image_write.
  cbn [i_zone i_format i_cameras zone_write timezone timeoffset app get get_or zone_load String.eqb Ascii.eqb Bool.eqb bind].
  unfold zone_load, get_or. cbn [get String.eqb Ascii.eqb Bool.eqb bind as_num].
  rewrite (cameras_back frames) by exact H. cbn [bind]. destruct cs as [|c cs]; [congruence|]. cbn [map].
  cbn [camera_write get String.eqb Ascii.eqb Bool.eqb bind i_cameras].
  assert (forallb (on_frame frames) (c :: cs) = true) as ->; [|reflexivity].
  apply forallb_forall. intros x I. destruct (H x I) as (_ & (s & O & F) & _). unfold on_frame. rewrite O. now apply in_frames.
Qed.
Lemma plain_back : forall e, plain_ok (Some e) -> plain_load (Some (YMap (entry_write e))) = Some (Some e).
Proof.
  intros [[z o] f p n l sf so fi df ne t og] [(A & B & C & D) E]. cbn [e_field e_depth_filter e_ne_filter e_topic e_origin] in *. subst. reflexivity.
Qed.

Ltac absent := cbn [section option_map app get String.eqb Ascii.eqb Bool.eqb].
(** A whole mission of representable parts comes back as it was. *)
Theorem C41_mission : forall frames m, mission_ok frames m -> exists n, mission_write m = Some n /\ mission_load frames n = Some m.
Proof.
  intros frames [[a b c d] v r dp al u t k i ps] (F & V & R & D & A & U & T & K & I & P).
  cbn [m_velocity m_orientation m_depth m_altitude m_usbl m_tide m_dr m_image m_payloads] in *. subst ps.
  unfold mission_write. cbn [m_payloads m_origin m_velocity m_orientation m_depth m_altitude m_usbl m_tide m_dr m_image].
  eexists. split; [reflexivity|]. unfold mission_load.
  assert (forall d e, In d ["dvl"; "ins"; "depth"; "usbl"] -> sensor_ok d e ->
    sensor_load frames d (option_map YMap (option_map entry_write e)) = Some e) as HS.
  { intros x [e|] J H; [|reflexivity]. cbn [option_map]. apply C41_sensor_exact; [now apply F|exact H]. }
  assert (forall e, plain_ok e -> plain_load (option_map YMap (option_map entry_write e)) = Some e) as HP.
  { intros [e|] H; [|reflexivity]. now apply plain_back. }
  assert (images_load frames (option_map YMap (option_map image_write i)) = Some i) as HI.
  { destruct i as [i|]; [|reflexivity]. now apply image_back. }
  assert (forall k w rest key, get key (section k w ++ rest)%list = if String.eqb key k then match w with Some n => Some (YMap n) | None => get key rest end else get key rest) as G.
  { intros k0 [w|] rest key; cbn [section app get]; [reflexivity|]. now destruct (String.eqb key k0). }
  cbn [app]. cbn [get String.eqb Ascii.eqb Bool.eqb bind as_map origin_load origin_write o_lat o_lon o_crs o_date].
  rewrite !G. cbn [String.eqb Ascii.eqb Bool.eqb].
  assert (forall key w, get key (section "image" w) = if String.eqb key "image" then option_map YMap w else None) as G0.
  { intros key [w|]; cbn [section get]; destruct (String.eqb key "image"); reflexivity. }
  rewrite !G0. cbn [String.eqb Ascii.eqb Bool.eqb].
  assert (forall w : option node, match w with Some n => Some (YMap n) | None => None end = option_map YMap w) as W by now intros [w|].
  rewrite !W. rewrite (HS "dvl" v), (HS "ins" r), (HS "depth" dp), (HS "dvl" al), (HS "usbl" u), (HP t), (HP k), HI by (assumption || (cbn; tauto)).
  reflexivity.
Qed.
Print Assumptions C41_mission.

(** The file says version 1, without which Mission(filename) would read it as the old format. *)
Theorem C41_version : forall m n, mission_write m = Some n -> get "version" n = Some (YNum 1).
Proof. intros m n H. unfold mission_write in H. destruct (m_payloads m) as [|p [|q ps]]; try discriminate; injection H as <-; reflexivity. Qed.
Print Assumptions C41_version.
(** A loaded mission has cameras only on frames of the vehicle. *)
Theorem C41_camera_frames : forall frames n m i c, mission_load frames n = Some m -> m_image m = Some i -> In c (i_cameras i) -> exists s, c_origin c = YStr s /\ In s frames.
Proof.
  intros frames n m i c L I C. unfold mission_load in L.
  repeat match type of L with bind ?e _ = Some _ => let x := fresh "x" in let E := fresh "E" in destruct e as [x|] eqn:E; [cbn [bind] in L|discriminate] end.
  injection L as <-. cbn [m_image] in I. subst. unfold images_load in *. destruct (get "image" n) as [y|]; [|discriminate]. destruct (as_map y) as [w|]; [cbn [bind] in *|discriminate]. destruct (image_load w) as [i'|]; [cbn [bind] in *|discriminate].
  destruct (forallb (on_frame frames) (i_cameras i')) eqn:F; [|discriminate]. match goal with E : Some (Some _) = Some (Some _) |- _ => injection E as -> end.
  rewrite forallb_forall in F. specialize (F c C). unfold on_frame in F. destruct (c_origin c) as [| | |s| |]; try discriminate. exists s. split; [reflexivity|].
  apply existsb_exists in F. destruct F as (fr & X & E'). apply String.eqb_eq in E'. now subst fr.
Qed.
Print Assumptions C41_camera_frames.

(** Payloads are lost or stop the writing. *)
Definition o0 : origin := mkorigin (YNum 50) (YNum (-4)) (YStr "wgs84") (YStr "2020/01/01").
Definition pl : payload := mkpayload (mkzone 0 0) (YStr "nav/co2.csv") (YStr "generic_csv") YNull.
Definition with_payloads (ps : list (string * payload)) : mission := mkmission o0 None None None None None None None None ps.
Theorem C141_payload_refuted : exists frames m n m', mission_write m = Some n /\ mission_load frames n = Some m' /\ m_payloads m' <> m_payloads m.
Proof. exists [], (with_payloads [("co2", pl)]). eexists. eexists. split; [reflexivity|]. split; [reflexivity|discriminate]. Qed.
Print Assumptions C141_payload_refuted.
Theorem C141_payloads_refuted : exists m, mission_write m = None.
Proof. exists (with_payloads [("co2", pl); ("chl", pl)]). reflexivity. Qed.
Print Assumptions C141_payloads_refuted.

Definition dvl : entry := mkentry (mkzone 9 2) (YStr "phins") (YStr "nav/phins/") (YStr "log.txt") (YNum 0) (YNum (1 # 1000)) (YNum (1 # 5))
  (YNum 0) (YBool true) (YBool true) YNull (Some (YStr "dvl")).
Definition m1 : mission := mkmission o0 (Some dvl) None None (Some dvl) None None None
  (Some (mkimage (mkzone 0 0) (YStr "acfr_standard") [mkcamera (YStr "LC") (YBool false) (YStr "camera1") (YStr "image/") YNull (YNum 0) YNull])) [].
Example C41_example : exists n, mission_write m1 = Some n /\ mission_load ["dvl"; "ins"; "depth"; "usbl"; "camera1"] n = Some m1.
Proof. eexists. split; vm_compute; reflexivity. Qed.
