(** C90, C91: the mounting offsets read from vehicle.yaml. *)
From Coq Require Import String.
From Verif Require Import PyBase MissionModel VehicleModel.
Open Scope string_scope.

(** The offset written in a frame of the present format, and of the old one with the heading of a mission entry. *)
Definition writes (y : yaml) (o : offset) : Prop := exists n, y = YMap n /\
  get "surge_m" n = Some (surge o) /\ get "sway_m" n = Some (sway o) /\ get "heave_m" n = Some (heave o) /\
  get "roll_deg" n = Some (roll o) /\ get "pitch_deg" n = Some (pitch o) /\ get "yaw_deg" n = Some (yaw o) /\ empty o = false.
Definition writes_old (heading : option yaml) (y : yaml) (o : offset) : Prop := exists n, y = YMap n /\ get "surge_m" n = None /\
  get "x_offset" n = Some (surge o) /\ get "y_offset" n = Some (sway o) /\ get "z_offset" n = Some (heave o) /\
  roll o = YNum 0 /\ pitch o = YNum 0 /\ empty o = false /\
  yaw o = match heading with Some (YMap h) => match get "headingoffset" h with Some w => w | None => YNum 0 end | _ => YNum 0 end.
(** [o] is the offset of frame [k], all zeros if there is no such frame. *)
Definition of_frame (data : node) (k : string) (o : offset) : Prop :=
  match get k data with Some y => writes y o | None => o = mkoffset (YNum 0) (YNum 0) (YNum 0) (YNum 0) (YNum 0) (YNum 0) true end.
Definition complete (y : yaml) : Prop := exists o, writes y o.
(** The camera's own frame: the one named as its origin, otherwise the one with its name. *)
Definition own_frame (c : camera) (s : string) : Prop := c_origin c = YStr s \/ (c_origin c = YNull /\ c_name c = YStr s).
Definition of_camera (data : node) (cameras : list camera) (i : nat) (o : offset) : Prop :=
  match nth_error cameras i with
  | Some c => exists s y, own_frame c s /\ get s data = Some y /\ writes y o
  | None => o = mkoffset (YNum 0) (YNum 0) (YNum 0) (YNum 0) (YNum 0) (YNum 0) true
  end.

Lemma load_writes : forall y o h, writes y o -> frame_load y h = Some o.
Proof.
  intros y o h (n & -> & A & B & C & D & E & F & G). unfold frame_load, offset_load. cbn [bind as_map]. rewrite A, B, C, D, E, F. cbn [bind].
  destruct o. cbn in *. now rewrite G.
Qed.
Lemma optional_ok : forall data k h, (forall y, get k data = Some y -> complete y) -> exists o, optional k data h = Some o /\ of_frame data k o.
Proof.
  intros data k h C. unfold optional, of_frame. destruct (get k data) as [y|].
  - destruct (C y eq_refl) as [o W]. exists o. split; [now apply load_writes|exact W].
  - eexists. split; reflexivity.
Qed.
Lemma camera_ok : forall data cameras i,
  (forall c, nth_error cameras i = Some c -> exists s y, own_frame c s /\ get s data = Some y /\ complete y) ->
  exists o, nth_camera data cameras i = Some o /\ of_camera data cameras i o.
Proof.
  intros data cameras i C. unfold nth_camera, of_camera. destruct (nth_error cameras i) as [c|]; [|eexists; split; reflexivity].
  destruct (C c eq_refl) as (s & y & F & G & o & W). exists o. split; [|now exists s, y]. unfold camera_offset, camera_frame.
  destruct F as [->|[-> ->]]; rewrite G; cbn [bind]; now apply load_writes.
Qed.
Lemma payloads_ok : forall l, (forall k y, In (k, y) l -> complete y) ->
  exists ps, payloads_load l = Some ps /\ map fst ps = map fst l /\ forall i k o, nth_error ps i = Some (k, o) -> exists y, nth_error l i = Some (k, y) /\ writes y o.
Proof.
  induction l as [|[k y] l IH]; intros C; [exists []; repeat split; now intros [|i]|].
  destruct (C k y (or_introl eq_refl)) as [o W]. destruct IH as (ps & E & K & N); [intros k' y' I; apply (C k' y'); now right|].
  exists ((k, o) :: ps). cbn [payloads_load]. rewrite (load_writes _ _ None W). cbn [bind]. rewrite E. cbn [bind map fst]. rewrite K. repeat split.
  intros [|i] k' o' J; [injection J as <- <-; now exists y|]. now apply N in J.
Qed.

(** Files in the present format whose frames are complete load, and every offset is that of its frame. *)
Theorem C90_offsets : forall data mission cameras,
  (forall k y, In k ["origin"; "ins"; "dvl"; "depth"; "usbl"] -> get k data = Some y -> complete y) ->
  (forall i c, (i < 3)%nat -> nth_error cameras i = Some c -> exists s y, own_frame c s /\ get s data = Some y /\ complete y) ->
  (forall y, get "payloads" data = Some y -> exists l, y = YMap l /\ forall k z, In (k, z) l -> complete z) ->
  (forall o, get "origin" data = Some (YMap o) -> get "x_offset" o = None) ->
  exists v, vehicle_load data mission cameras = Some v /\
    of_frame data "origin" (v_origin v) /\ of_frame data "ins" (v_ins v) /\ of_frame data "dvl" (v_dvl v) /\
    of_frame data "depth" (v_depth v) /\ of_frame data "usbl" (v_usbl v) /\
    of_camera data cameras 0 (v_camera1 v) /\ of_camera data cameras 1 (v_camera2 v) /\ of_camera data cameras 2 (v_camera3 v) /\
    match get "payloads" data with
    | Some (YMap l) => map fst (v_payloads v) = map fst l /\
                       forall i k o, nth_error (v_payloads v) i = Some (k, o) -> exists y, nth_error l i = Some (k, y) /\ writes y o
    | _ => v_payloads v = []
    end.
Proof.
  intros data mission cameras F C P O. unfold vehicle_load.
  replace (match get "origin" data with Some (YMap o) => match get "x_offset" o with Some _ => true | None => false end | _ => false end) with false.
  2:{ destruct (get "origin" data) as [[| | | | |o]|]; try reflexivity. now rewrite (O o eq_refl). }
  destruct (optional_ok data "origin" None) as (o1 & E1 & H1); [intros y; apply F; cbn; tauto|]. rewrite E1. cbn [bind].
  replace (match get "ins" data with Some _ => Some None | None => Some None end) with (Some (@None node)) by now destruct (get "ins" data).
  replace (match get "dvl" data with Some _ => Some None | None => Some None end) with (Some (@None node)) by now destruct (get "dvl" data).
  cbn [bind].
  destruct (optional_ok data "ins" None) as (o2 & E2 & H2); [intros y; apply F; cbn; tauto|]. rewrite E2. cbn [bind].
  destruct (optional_ok data "dvl" None) as (o3 & E3 & H3); [intros y; apply F; cbn; tauto|]. rewrite E3. cbn [bind].
  destruct (optional_ok data "depth" None) as (o4 & E4 & H4); [intros y; apply F; cbn; tauto|]. rewrite E4. cbn [bind].
  destruct (optional_ok data "usbl" None) as (o5 & E5 & H5); [intros y; apply F; cbn; tauto|]. rewrite E5. cbn [bind].
  destruct (camera_ok data cameras 0) as (c1 & G1 & K1); [intros c Z; apply (C 0%nat c); [lia|exact Z]|]. rewrite G1. cbn [bind].
  destruct (camera_ok data cameras 1) as (c2 & G2 & K2); [intros c Z; apply (C 1%nat c); [lia|exact Z]|]. rewrite G2. cbn [bind].
  destruct (camera_ok data cameras 2) as (c3 & G3 & K3); [intros c Z; apply (C 2%nat c); [lia|exact Z]|]. rewrite G3. cbn [bind].
  destruct (get "payloads" data) as [y|].
  - destruct (P y eq_refl) as (l & -> & Z). destruct (payloads_ok l Z) as (ps & E & K & N). cbn [as_map bind]. rewrite E. cbn [bind].
    eexists. split; [reflexivity|]. cbn. repeat (split; [assumption|]). exact N.
  - cbn [bind]. eexists. split; [reflexivity|]. cbn. repeat (split; [assumption|]). reflexivity.
Qed.
Print Assumptions C90_offsets.

(** A camera whose frame is missing: the file is rejected. *)
Theorem C90_missing_camera : forall data mission cameras i c s, (i < 3)%nat -> nth_error cameras i = Some c -> own_frame c s -> get s data = None ->
  vehicle_load data mission cameras = None.
Proof.
  intros data mission cameras i c s L N F G.
  assert (nth_camera data cameras i = None) as K.
  { unfold nth_camera. rewrite N. unfold camera_offset, camera_frame. destruct F as [->|[-> ->]]; now rewrite G. }
  unfold vehicle_load. cbv zeta. repeat match goal with |- bind ?x _ = None => destruct x eqn:?; cbn [bind]; [|reflexivity] end.
  destruct i as [|[|[|i]]]; [congruence|congruence|congruence|lia].
Qed.
Print Assumptions C90_missing_camera.

(** A file in the old format: the headings of the INS and the DVL are those of the mission's orientation and velocity entries. *)
Theorem C90_old_format : forall data mission cameras v o, vehicle_load data mission cameras = Some v ->
  get "origin" data = Some (YMap o) -> get "x_offset" o <> None -> get "surge_m" o = None ->
  (forall k n, In k ["ins"; "dvl"] -> get k data = Some (YMap n) -> get "surge_m" n = None /\ get "x_offset" n <> None) ->
  writes_old None (YMap o) (v_origin v) /\
  (forall y, get "ins" data = Some y -> writes_old (get "orientation" mission) y (v_ins v)) /\
  (forall y, get "dvl" data = Some y -> writes_old (get "velocity" mission) y (v_dvl v)).
Proof.
  intros data mission cameras v o V O X S F. unfold vehicle_load in V. cbv zeta in V. rewrite O in V.
  destruct (get "x_offset" o) as [x|] eqn:E; [clear X|congruence].
  assert (forall n h r, get "surge_m" n = None -> get "x_offset" n <> None -> offset_load n h = Some r -> writes_old (option_map YMap h) (YMap n) r) as K.
  { intros n h r A B C. unfold offset_load in C. rewrite A in C. destruct (get "x_offset" n) as [x'|] eqn:E'; [|congruence].
    destruct (get "y_offset" n) as [y'|] eqn:EY; [|discriminate]. destruct (get "z_offset" n) as [z'|] eqn:EZ; [|discriminate]. cbn [bind] in C.
    injection C as <-. exists n. cbn. rewrite E', EY, EZ. repeat split; try assumption. destruct h as [h|]; [|reflexivity]. cbn. unfold get_or, zero. now destruct (get "headingoffset" h). }
  destruct (optional "origin" data None) as [o1|] eqn:E1; [|discriminate]. cbn [bind] in V.
  assert (writes_old None (YMap o) o1) as H1.
  { unfold optional in E1. rewrite O in E1. cbn [frame_load as_map bind] in E1. apply (K o None); [exact S|now rewrite E|exact E1]. }
  destruct (match get "ins" data with Some _ => _ | None => _ end) as [h2|] eqn:E2; [|discriminate]. cbn [bind] in V.
  destruct (optional "ins" data h2) as [o2|] eqn:F2; [|discriminate]. cbn [bind] in V.
  destruct (match get "dvl" data with Some _ => _ | None => _ end) as [h3|] eqn:E3; [|discriminate]. cbn [bind] in V.
  destruct (optional "dvl" data h3) as [o3|] eqn:F3; [|discriminate]. cbn [bind] in V.
  repeat match type of V with bind ?x _ = _ => destruct x eqn:?; cbn [bind] in V; [|discriminate] end. injection V as <-. cbn [v_origin v_ins v_dvl].
  split; [exact H1|]. split.
  - intros y Y. rewrite Y in E2. unfold optional in F2. rewrite Y in F2. destruct y as [| | | | |n]; try discriminate F2. cbn [frame_load as_map bind] in F2.
    destruct (F "ins" n ltac:(cbn; tauto) Y) as [A B]. destruct (get "orientation" mission) as [[| | | | |m]|]; try discriminate E2. cbn in E2. injection E2 as <-.
    now apply (K n (Some m)).
  - intros y Y. rewrite Y in E3. unfold optional in F3. rewrite Y in F3. destruct y as [| | | | |n]; try discriminate F3. cbn [frame_load as_map bind] in F3.
    destruct (F "dvl" n ltac:(cbn; tauto) Y) as [A B]. destruct (get "velocity" mission) as [[| | | | |m]|]; try discriminate E3. cbn in E3. injection E3 as <-.
    now apply (K n (Some m)).
Qed.
Print Assumptions C90_old_format.

Definition ex_frame (x y z r p w : Q) : yaml := YMap [("surge_m", YNum x); ("sway_m", YNum y); ("heave_m", YNum z); ("roll_deg", YNum r); ("pitch_deg", YNum p); ("yaw_deg", YNum w)].
Definition ex_camera (n : string) (o : yaml) : camera := mkcamera (YStr n) (YBool false) o YNull YNull YNull YNull.
Definition ex_data : node := [("origin", ex_frame 0 0 0 0 0 0); ("dvl", ex_frame 1 0 (1#2) 0 0 45); ("dvl_aft", ex_frame (-2) 0 (1#2) 0 0 135); ("fore", ex_frame 3 0 0 0 90 0); ("aft", ex_frame (-3) 1 0 0 90 0);
  ("payloads", YMap [("chem", ex_frame 0 0 7 0 0 0)])].
Example C90_ex : exists v, vehicle_load ex_data [] [ex_camera "left" (YStr "fore"); ex_camera "aft" YNull] = Some v /\
  yaw (v_dvl v) = YNum 45 /\ surge (v_camera1 v) = YNum 3 /\ sway (v_camera2 v) = YNum 1 /\ empty (v_camera3 v) = true /\ empty (v_ins v) = true /\
  map fst (v_payloads v) = ["chem"].
Proof. eexists. split; [reflexivity|]. repeat split. Qed.
Definition old_frame (x y z : Q) : yaml := YMap [("x_offset", YNum x); ("y_offset", YNum y); ("z_offset", YNum z)].
Example C90_ex_old : exists v, vehicle_load [("origin", old_frame 0 0 0); ("dvl", old_frame 1 2 3)] [("velocity", YMap [("headingoffset", YNum 45)])] [] = Some v /\
  yaw (v_dvl v) = YNum 45 /\ heave (v_dvl v) = YNum 3.
Proof. eexists. split; [reflexivity|]. repeat split. Qed.

(** The mission may put the velocity sensor on another frame, and that frame is checked to exist, but the offset used is
    still that of "dvl". *)
Theorem C91_named_frame_refuted : exists data mission cameras v e y o,
  sensor_load (map fst data) "dvl" (get "velocity" mission) = Some (Some e) /\ e_origin e = Some (YStr "dvl_aft") /\
  vehicle_load data mission cameras = Some v /\ get "dvl_aft" data = Some y /\ writes y o /\ v_dvl v <> o /\ surge (v_dvl v) <> surge o.
Proof.
  exists ex_data, [("velocity", YMap [("format", YStr "phins"); ("origin", YStr "dvl_aft")])], [].
  do 3 eexists. exists (mkoffset (YNum (-2)) (YNum 0) (YNum (1#2)) (YNum 0) (YNum 0) (YNum 135) false).
  split; [reflexivity|]. split; [reflexivity|]. split; [reflexivity|]. split; [reflexivity|]. split; [eexists; split; [reflexivity|]; repeat split|]. split; discriminate.
Qed.
Print Assumptions C91_named_frame_refuted.
(** More generally: which frame the mission names for a sensor makes no difference. *)
Theorem C91_named_frame_ignored : forall data cameras mission mission', (forall o, get "origin" data = Some (YMap o) -> get "x_offset" o = None) ->
  vehicle_load data mission cameras = vehicle_load data mission' cameras.
Proof.
  intros data cameras mission mission' O. unfold vehicle_load.
  replace (match get "origin" data with Some (YMap o) => match get "x_offset" o with Some _ => true | None => false end | _ => false end) with false; [reflexivity|].
  destruct (get "origin" data) as [[| | | | |o]|]; try reflexivity. now rewrite (O o eq_refl).
Qed.
Print Assumptions C91_named_frame_ignored.
(** The heading of an old-format DVL frame is lost if the origin's frame is absent or in the present format. *)
Theorem C91_heading_lost_refuted : exists data mission v n h w, vehicle_load data mission [] = Some v /\
  get "dvl" data = Some (YMap n) /\ get "x_offset" n <> None /\ get "velocity" mission = Some (YMap h) /\ get "headingoffset" h = Some w /\ yaw (v_dvl v) <> w.
Proof.
  exists [("origin", ex_frame 0 0 0 0 0 0); ("dvl", old_frame 1 2 3)], [("velocity", YMap [("headingoffset", YNum 45)])].
  do 4 eexists. split; [reflexivity|]. repeat split; discriminate.
Qed.
Print Assumptions C91_heading_lost_refuted.
(** A frame without any offset in it is taken as mounted at the origin. *)
Theorem C91_no_offsets_refuted : exists data v n, vehicle_load data [] [] = Some v /\ get "dvl" data = Some (YMap n) /\ n <> [] /\ ~ complete (YMap n) /\
  surge (v_dvl v) = YNum 0 /\ empty (v_dvl v) = false.
Proof.
  exists [("dvl", YMap [("surge", YNum 1); ("sway", YNum 2)])]. do 2 eexists. split; [reflexivity|]. split; [reflexivity|]. split; [discriminate|].
  split; [|split; reflexivity]. intros (o & n & E & A & _). injection E as <-. discriminate.
Qed.
Print Assumptions C91_no_offsets_refuted.
(** From the fourth camera on, cameras are not looked at. *)
Theorem C91_fourth_camera : forall data mission a b c more more',
  vehicle_load data mission (a :: b :: c :: more) = vehicle_load data mission (a :: b :: c :: more').
Proof. reflexivity. Qed.
Print Assumptions C91_fourth_camera.
