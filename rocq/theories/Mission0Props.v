(** C283/C284: missions of version 0, and payloads. *)
From Coq Require Import String.
From Verif Require Import PyBase MissionModel Mission0Model.
From Verif Require MissionProps.
Open Scope string_scope.

(** ** Specification *)
(** The image section of version 1 for the same files. *)
Definition new_camera (name origin path : string) : yaml := YMap [("name", YStr name); ("origin", YStr origin); ("path", YStr path)].
(** What the rest of the program sees of a camera (but for its topic). *)
Definition seen_new (c : camera) : yaml * yaml * yaml * yaml := (c_name c, c_origin c, c_path c, c_timeoffset c).
Definition seen_old (c : old_camera) : yaml * yaml * yaml * yaml := (oc_name c, oc_origin c, oc_path c, oc_timeoffset c).
Definition seen (i : images) : option (zone * yaml * list (yaml * yaml * yaml * yaml)) :=
  match i with NoImages => None | Old i => Some (oi_zone i, oi_format i, map seen_old (oi_cameras i)) | New i => Some (i_zone i, i_format i, map seen_new (i_cameras i)) end.
Definition old_file (v : option yaml) : Prop := v = None \/ exists q, v = Some (YNum q) /\ (q < 1)%Q.
(** A payload that can be read *)
Definition readable (known : option (list string)) (x : string * yaml) (p : string * payload) : Prop :=
  fst p = fst x /\ (exists names, known = Some names /\ In (fst x) names) /\
  exists n, snd x = YMap n /\ get "path" n = Some (p_path (snd p)) /\ get "format" n = Some (p_format (snd p)) /\
    p_columns (snd p) = match get "columns" n with Some c => c | None => YNull end /\
    YNum (timezone (p_zone (snd p))) = match get "timezone" n with Some c => c | None => YNum 0 end /\
    YNum (timeoffset (p_zone (snd p))) = match get "timeoffset" n with Some c => c | None => YNum 0 end.

(** ** Facts *)
Lemma version_old : forall frames v y, old_file v -> images_any frames (match v with Some v => v | None => YNum 0 end) (Some y) =
  let* n := as_map y in let* i := old_image_load n in if forallb (old_on_frame frames) (oi_cameras i) then Some (Old i) else None.
Proof.
  intros frames v y [ -> | (q & -> & H) ]; [reflexivity|]. cbn [images_any bind as_num]. destruct (Qle_bool 1 q) eqn:E; [|reflexivity].
  apply Qle_bool_iff in E. exfalso. exact (Qlt_irrefl _ (Qlt_le_trans _ _ _ H E)).
Qed.

(** ** C283 *)
(** An old SeaXerocks3 section is read like the new one with the cameras fore, aft and laser on camera1 to camera3 and the joined paths. *)
Theorem C283_seaxerocks : forall frames v n p c1 c2 c3, old_file v -> get "format" n = Some (YStr "seaxerocks_3") -> get "filepath" n = Some (YStr p) ->
  get "camera1" n = Some (YStr c1) -> get "camera2" n = Some (YStr c2) -> get "camera3" n = Some (YStr c3) ->
  option_map seen (images_any frames (match v with Some v => v | None => YNum 0 end) (Some (YMap n))) =
  option_map seen (images_any frames (YNum 1) (Some (YMap (("cameras", YSeq [new_camera "fore" "camera1" (p ++ c1); new_camera "aft" "camera2" (p ++ c2); new_camera "laser" "camera3" (p ++ c3)]) :: n)))).
Proof.
  intros frames v n p c1 c2 c3 V F P C1 C2 C3. rewrite (version_old _ _ _ V). cbn [as_map bind]. unfold old_image_load, text_at. rewrite F, P, C1, C2, C3.
  unfold images_any, images_load, image_load, zone_load, get_or. cbn [as_map bind as_num as_str get String.eqb Ascii.eqb Bool.eqb Qle_bool Qnum Qden Z.leb Z.compare Z.mul Pos.mul Pos.compare Pos.compare_cont].
  rewrite F. cbn [bind]. destruct (as_num _) as [z|]; [cbn [bind]|reflexivity]. destruct (as_num _) as [o|]; [cbn [bind]|reflexivity].
  cbn [oi_cameras forallb old_on_frame oc_origin]. unfold new_camera.
  destruct (existsb (String.eqb "camera1") frames) eqn:E1, (existsb (String.eqb "camera2") frames) eqn:E2, (existsb (String.eqb "camera3") frames) eqn:E3;
    cbn in E1, E2, E3 |- *; rewrite ?E1, ?E2, ?E3; reflexivity.
Qed.
Print Assumptions C283_seaxerocks.
(** And an old ACFR section like the new one with the two cameras by their names, both on the same path. *)
Theorem C283_acfr : forall frames v n p c1 c2, old_file v -> get "format" n = Some (YStr "acfr_standard") -> get "filepath" n = Some (YStr p) ->
  get "camera1" n = Some (YStr c1) -> get "camera2" n = Some (YStr c2) ->
  option_map seen (images_any frames (match v with Some v => v | None => YNum 0 end) (Some (YMap n))) =
  option_map seen (images_any frames (YNum 1) (Some (YMap (("cameras", YSeq [new_camera c1 "camera1" p; new_camera c2 "camera2" p]) :: n)))).
Proof.
  intros frames v n p c1 c2 V F P C1 C2. rewrite (version_old _ _ _ V). cbn [as_map bind]. unfold old_image_load. rewrite F, P, C1, C2.
  unfold images_any, images_load, image_load, zone_load, get_or. cbn [as_map bind as_num as_str get String.eqb Ascii.eqb Bool.eqb Qle_bool Qnum Qden Z.leb Z.compare Z.mul Pos.mul Pos.compare Pos.compare_cont].
  rewrite F. cbn [bind]. destruct (as_num _) as [z|]; [cbn [bind]|reflexivity]. destruct (as_num _) as [o|]; [cbn [bind]|reflexivity].
  cbn [oi_cameras forallb old_on_frame oc_origin]. unfold new_camera.
  destruct (existsb (String.eqb "camera1") frames) eqn:E1, (existsb (String.eqb "camera2") frames) eqn:E2; cbn in E1, E2 |- *; rewrite ?E1, ?E2; reflexivity.
Qed.
Print Assumptions C283_acfr.
(** The payloads loaded are those of the file, in its order, each with a path and a format and known to vehicle.yaml; and there is no other reason not to load. *)
Theorem C283_payloads : forall known l ps, payloads_load known l = Some ps <-> Forall2 (readable known) l ps.
Proof.
  intros known. induction l as [|[k y] l IH]; intros ps; cbn [payloads_load].
  - split; [intros E; injection E as <-; constructor|intros F; inversion F; reflexivity].
  - split.
    + intros E. destruct y as [| | | | |m]; try discriminate. cbn [as_map bind] in E. unfold payload_load, zone_load, get_or in E.
      destruct (get "timezone" m) as [tz|] eqn:TZ; [destruct tz; try discriminate|]; cbn [as_num bind] in E;
      (destruct (get "timeoffset" m) as [to|] eqn:TO; [destruct to; try discriminate|]); cbn [as_num bind] in E;
      (destruct (get "path" m) as [pa|] eqn:PA; [|discriminate]); cbn [bind] in E; (destruct (get "format" m) as [fo|] eqn:FO; [|discriminate]); cbn [bind] in E;
      (destruct known as [names|]; [|discriminate]); cbn [bind] in E; (destruct (existsb (String.eqb k) names) eqn:X; [|discriminate]);
      (destruct (payloads_load (Some names) l) as [r|] eqn:R; [|discriminate]); cbn [bind] in E; injection E as <-;
      (constructor; [|now apply IH]); (split; [reflexivity|]); (split; [exists names; split; [reflexivity|]; apply existsb_exists in X; destruct X as (x & I & X); apply String.eqb_eq in X; now subst x|]);
      exists m; cbn [fst snd p_path p_format p_columns p_zone timezone timeoffset]; rewrite TZ, TO; repeat (split; [first [assumption|reflexivity]|]); reflexivity.
    + intros F. inversion F as [|a b l' ps' H T]; subst. destruct b as [k' p]. destruct H as (K & (names & KN & I) & n & Y & PA & FO & CO & TZ & TO). cbn [fst snd] in *. subst.
      cbn [as_map bind]. unfold payload_load, zone_load, get_or. rewrite PA, FO. rewrite <- TZ, <- TO. cbn [as_num bind].
      assert (existsb (String.eqb k) names = true) as -> by (apply existsb_exists; exists k; split; [exact I|apply String.eqb_refl]).
      apply IH in T. rewrite T. cbn [bind]. destruct p as [[tz to] pa fo co]. cbn [p_zone timezone timeoffset p_path p_format p_columns] in *. now rewrite CO.
Qed.
Print Assumptions C283_payloads.
(** A file of version 1 without payloads is the mission of MissionModel. *)
Theorem C283_version_1 : forall frames known n q, get "version" n = Some (YNum q) -> (1 <= q)%Q -> get "payloads" n = None ->
  option_map fst (mission_open frames known n) = mission_load frames n.
Proof.
  intros frames known n q V L P. unfold mission_open, mission_load, get_or. rewrite V, P.
  repeat match goal with |- option_map fst (bind ?e _) = bind ?e _ => destruct e; [cbn [bind]|reflexivity] end.
  unfold images_any. destruct (get "image" n) as [im|]; [|reflexivity]. cbn [as_num bind]. apply Qle_bool_iff in L. rewrite L.
  destruct (images_load frames (Some im)) as [[i|]|]; reflexivity.
Qed.
Print Assumptions C283_version_1.
(** Whatever the version, every camera of a mission that loads is on a frame of the vehicle, and so is every payload. *)
Theorem C283_mounted : forall frames known n m i, mission_open frames known n = Some (m, i) ->
  (match seen i with None => True | Some (_, cams) => forall c, In c cams -> exists s, snd (fst (fst c)) = YStr s /\ In s frames end) /\
  forall k p, In (k, p) (m_payloads m) -> exists names, known = Some names /\ In k names.
Proof.
  intros frames known n m i L. unfold mission_open in L.
  repeat match type of L with bind ?e _ = Some _ => let x := fresh "x" in let E := fresh "E" in destruct e as [x|] eqn:E; [cbn [bind] in L|discriminate] end.
  injection L as <- <-. cbn [m_payloads]. split.
  - match goal with H0 : images_any _ _ _ = Some ?x |- _ => revert H0; generalize x as j; clear; intros j E end. unfold images_any in E. destruct (get "image" n) as [y|]; [|injection E as <-; exact I].
    destruct (as_num _) as [v|]; [cbn [bind] in E|discriminate]. destruct (Qle_bool 1 v).
    + destruct (images_load frames (Some y)) as [[im|]|] eqn:IL; cbn [bind] in E; try discriminate; injection E as <-; [|exact I]. cbn [seen].
      intros c H. apply in_map_iff in H. destruct H as (c0 & <- & H). cbn [seen_new fst snd]. unfold images_load in IL. destruct (as_map y) as [w|]; [cbn [bind] in IL|discriminate].
      destruct (image_load w) as [i'|]; [cbn [bind] in IL|discriminate]. destruct (forallb (on_frame frames) (i_cameras i')) eqn:F; [|discriminate]. injection IL as ->.
      rewrite forallb_forall in F. specialize (F _ H). unfold on_frame in F. destruct (c_origin c0) as [| | |s| |]; try discriminate. exists s. split; [reflexivity|].
      apply existsb_exists in F. destruct F as (fr & X & E'). apply String.eqb_eq in E'. now subst fr.
    + destruct (as_map y) as [w|]; [cbn [bind] in E|discriminate]. destruct (old_image_load w) as [i'|]; [cbn [bind] in E|discriminate].
      destruct (forallb (old_on_frame frames) (oi_cameras i')) eqn:F; [|discriminate]. injection E as <-. cbn [seen]. intros c H. apply in_map_iff in H. destruct H as (c0 & <- & H). cbn [seen_old fst snd].
      rewrite forallb_forall in F. specialize (F _ H). unfold old_on_frame in F. destruct (oc_origin c0) as [| | |s| |]; try discriminate. exists s. split; [reflexivity|].
      apply existsb_exists in F. destruct F as (fr & X & E'). apply String.eqb_eq in E'. now subst fr.
  - intros k p IN. match goal with H0 : match get "payloads" n with _ => _ end = Some ?x |- _ => revert IN H0; generalize x as ps; clear; intros ps IN E end.
    destruct (get "payloads" n) as [[| | | |[|? ?]|l]|]; try discriminate; try (injection E as <-; destruct IN).
    apply C283_payloads in E. clear -IN E. induction E as [|a b l ps H E IH]; [destruct IN|]. destruct IN as [->|IN]; [|exact (IH IN)].
    destruct H as (K & (names & KN & IK) & _). exists names. split; [exact KN|]. cbn [fst] in K. now rewrite K.
Qed.
Print Assumptions C283_mounted.

Definition seax : node := [("format", YStr "seaxerocks_3"); ("filepath", YStr "image/SeaXerocks/"); ("camera1", YStr "Xviii/Cam51707923"); ("camera2", YStr "Xviii/Cam51707925"); ("camera3", YStr "LM165/data"); ("timezone", YNum 9)].
Definition frames0 : list string := ["camera1"; "camera2"; "camera3"; "dvl"; "ins"].
Definition the_origin : yaml := YMap [("latitude", YNum 26); ("longitude", YNum 127); ("coordinate_reference_system", YStr "wgs84"); ("date", YStr "2019/09/03")].
Example old_seax : option_map (fun r => seen (snd r)) (mission_open frames0 None [("origin", the_origin); ("image", YMap seax)]) =
  Some (Some (mkzone 9 0, YStr "seaxerocks_3", [(YStr "fore", YStr "camera1", YStr "image/SeaXerocks/Xviii/Cam51707923", YNum 0);
    (YStr "aft", YStr "camera2", YStr "image/SeaXerocks/Xviii/Cam51707925", YNum 0); (YStr "laser", YStr "camera3", YStr "image/SeaXerocks/LM165/data", YNum 0)])).
Proof. reflexivity. Qed.
Example two_payloads : option_map (fun r => map fst (m_payloads (fst r))) (mission_open frames0 (Some ["chl"; "co2"; "ph"])
  [("version", YNum 1); ("origin", the_origin); ("payloads", YMap [("co2", YMap [("path", YStr "nav/co2.csv"); ("format", YStr "csv")]); ("chl", YMap [("path", YStr "nav/chl.csv"); ("format", YStr "csv"); ("timezone", YNum 9)])])]) = Some ["co2"; "chl"].
Proof. reflexivity. Qed.

(** ** C284 *)
(** The format of the images may be any that version 1 takes: with another one than the two no old file loads, whatever frames the vehicle has. *)
Theorem C284_format_refuted : exists n, get "format" n = Some (YStr "biocam") /\ (exists i, images_any ["a"; "b"] (YNum 1) (Some (YMap (("cameras", YSeq [new_camera "a" "a" "x"; new_camera "b" "b" "y"]) :: n))) = Some i) /\
  forall frames, images_any frames (YNum 0) (Some (YMap n)) = None.
Proof. exists [("format", YStr "biocam"); ("filepath", YStr "image/")]. split; [reflexivity|]. split; [eexists; reflexivity|]. intros frames. reflexivity. Qed.
Print Assumptions C284_format_refuted.
(** The cameras' folders are inside the file path: a path that does not end in a slash becomes part of the folder's name. *)
Theorem C284_path_refuted : exists n p c i, get "filepath" n = Some (YStr p) /\ get "camera1" n = Some (YStr c) /\ images_any frames0 (YNum 0) (Some (YMap n)) = Some (Old i) /\
  forall x, In x (oi_cameras i) -> oc_path x <> YStr (p ++ "/" ++ c).
Proof.
  exists [("format", YStr "seaxerocks_3"); ("filepath", YStr "image"); ("camera1", YStr "a"); ("camera2", YStr "b"); ("camera3", YStr "c")], "image", "a". eexists.
  split; [reflexivity|]. split; [reflexivity|]. split; [reflexivity|]. intros x [<-|[<-|[<-|[]]]]; discriminate.
Qed.
Print Assumptions C284_path_refuted.
(** An old file may say where its cameras are mounted: "origin" entries are not looked at. *)
Theorem C284_origin_refuted : exists n i j, images_any frames0 (YNum 0) (Some (YMap n)) = Some i /\ images_any frames0 (YNum 0) (Some (YMap (("origin", YStr "dvl") :: n))) = Some j /\ seen i = seen j.
Proof. exists seax. eexists. eexists. split; [reflexivity|]. split; reflexivity. Qed.
Print Assumptions C284_origin_refuted.
(** A payload unknown to the vehicle is left out: it stops the whole mission from loading. *)
Theorem C284_payload_refuted : exists n l, get "payloads" n = Some (YMap l) /\ (exists r, mission_open frames0 (Some ["co2"; "chl"]) n = Some r) /\ (exists r, mission_open frames0 None (List.removelast n) = Some r) /\
  mission_open frames0 (Some ["co2"]) n = None /\ mission_open frames0 None n = None.
Proof.
  exists [("origin", the_origin); ("payloads", YMap [("co2", YMap [("path", YStr "nav/co2.csv"); ("format", YStr "csv")]); ("chl", YMap [("path", YStr "nav/chl.csv"); ("format", YStr "csv")])])].
  eexists. split; [reflexivity|]. split; [eexists; reflexivity|]. split; [eexists; reflexivity|]. split; reflexivity.
Qed.
Print Assumptions C284_payload_refuted.
(** The number of the version may be a text, which yaml makes of "1" in quotes: then a mission with images does not load. *)
Theorem C284_version_refuted : exists frames y i, images_any frames (YNum 1) (Some y) = Some (New i) /\ images_any frames (YStr "1") (Some y) = None.
Proof. exists ["a"], (YMap [("format", YStr "biocam"); ("cameras", YSeq [new_camera "a" "a" "x"])]). eexists. split; reflexivity. Qed.
Print Assumptions C284_version_refuted.
