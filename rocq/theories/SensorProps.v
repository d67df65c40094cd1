(** C36: the sensor records through the navigation JSON. *)
From Coq Require Import Ascii String.
From Verif Require Import PyBase SensorModel.
Open Scope Q_scope.

(** ** Specification: the fields processing uses. *)
Definition used_velocity (v : velocity) := (bv_x v, bv_y v, bv_z v, bv_xs v, bv_ys v, bv_zs v).
Definition used_altitude (a : altitude) := (al_t a, al_a a, al_s a).

Lemma num_fon : forall x, num (fon x) = Some x.
Proof. destruct x; reflexivity. Qed.

Ltac crush := repeat (cbn; rewrite ?num_fon); reflexivity.

Theorem C36_orientation : forall sensor o, orientation_from (orientation_json sensor o) Sensor = Some o.
Proof. intros sensor [t r p y rs ps ys]. unfold orientation_from, orientation_json, top, field, two. crush. Qed.
Print Assumptions C36_orientation.
Theorem C36_depth : forall sensor d, depth_from (depth_json sensor d) Sensor = Some d.
Proof. intros sensor [t dt d s]. unfold depth_from, depth_json, top, field, two. crush. Qed.
Print Assumptions C36_depth.
(** An export without a timestamp raises; every other one is read back. *)
Theorem C36_inertial : forall sensor v t, iv_t v = Some t ->
  exists j, inertial_json sensor v = Some j /\ inertial_from j = Some v.
Proof.
  intros sensor [t n e d ns es ds] q H. cbn in H. subst t. eexists. split; [reflexivity|].
  unfold inertial_from, top, field, two. crush.
Qed.
Print Assumptions C36_inertial.
Theorem C36_altitude : forall sensor a, exists a', altitude_from (altitude_json sensor a) = Some a' /\ used_altitude a' = used_altitude a.
Proof. intros sensor [t d a s sv svc]. eexists. split; [unfold altitude_from, altitude_json, top, field, two; crush|reflexivity]. Qed.
Print Assumptions C36_altitude.
Theorem C36_usbl : forall hypot m2ll sensor u, usbl_from hypot m2ll (usbl_json sensor u) Sensor = Some u.
Proof. intros hypot m2ll sensor [t la lo n e d las los ns es ds di sla slo sn se sh]. unfold usbl_from, ship_pose, usbl_json, top, field, two. crush. Qed.
Print Assumptions C36_usbl.
Theorem C36_stereo : forall sensor l r tl tr, im_t l = Some tl -> im_t r = Some tr ->
  (exists j, stereo_json sensor l r = Some j /\ camera_from j "camera1" = Some l /\ camera_from j "camera2" = Some r) /\
  (exists j, camera_json sensor l = Some j /\ camera_from j "camera1" = Some l).
Proof.
  intros sensor [tl fl] [tr fr] ql qr Hl Hr. cbn in Hl, Hr. subst tl tr. split; eexists; (split; [reflexivity|]); repeat split; reflexivity.
Qed.
Print Assumptions C36_stereo.

(** A single image is not read back by a caller that expects it under another name. *)
Theorem C136_camera_name_refuted : exists sensor c j, im_file c <> EmptyString /\
  camera_json sensor c = Some j /\ camera_from j "camera2" = Some (mkimage None EmptyString).
Proof. exists "biocam"%string, (mkimage (Some 1) "a.tif"%string). eexists. split; [discriminate|split; reflexivity]. Qed.
Print Assumptions C136_camera_name_refuted.

(** The body velocity keeps its values; its timestamp becomes the DVL's. *)
Theorem C36_velocity : forall sensor v, exists v', velocity_from (velocity_json sensor v) Sensor = Some v' /\
  used_velocity v' = used_velocity v /\ bv_t v' = bv_dvl v.
Proof. intros sensor [t d x y z xs ys zs]. eexists. split; [unfold velocity_from, velocity_json, top, field, two; crush|split; reflexivity]. Qed.
Print Assumptions C36_velocity.
Theorem C136_velocity_stamp_refuted : exists sensor v v', velocity_from (velocity_json sensor v) Sensor = Some v' /\ bv_t v' <> bv_t v.
Proof.
  exists "phins"%string, (mkvelocity (Some 10) (Some (99 # 10)) (Some 1) (Some 0) (Some 0) (Some 0) (Some 0) (Some 0)). eexists.
  split; [reflexivity|discriminate].
Qed.
Print Assumptions C136_velocity_stamp_refuted.

(** With the linear model the measured values are the same, and the deviations those of
    the configuration. *)
Theorem C36_linear : forall sensor f o v t d x y z,
  v = mkvelocity t d (Some x) (Some y) (Some z) (bv_xs v) (bv_ys v) (bv_zs v) ->
  exists v', velocity_from (velocity_json sensor v) (Linear f o) = Some v' /\
    (bv_x v', bv_y v', bv_z v') = (Some x, Some y, Some z) /\
    (bv_xs v', bv_ys v', bv_zs v') = (Some (o + f * x), Some (o + f * y), Some (o + f * z)) /\ bv_t v' = d.
Proof.
  intros sensor f o [t' d' x' y' z' xs ys zs] t d x y z H. cbn in H. injection H as -> -> -> -> ->. eexists.
  split; [unfold velocity_from, velocity_json, top, field, two; crush|repeat split; reflexivity].
Qed.
Print Assumptions C36_linear.
Theorem C36_linear_axes : forall sensor fx ox fy oy fz oz t d x y z xs ys zs,
  velocity_from (velocity_json sensor (mkvelocity t d (Some x) (Some y) (Some z) xs ys zs)) (LinearAxes fx ox fy oy fz oz) =
  Some (mkvelocity d None (Some x) (Some y) (Some z) (Some (ox + fx * x)) (Some (oy + fy * y)) (Some (oz + fz * z))).
Proof. intros. unfold velocity_from, velocity_json, top, field, two. crush. Qed.
Print Assumptions C36_linear_axes.
(** The horizontal deviations grow with the distance to the ship, those of the latitude and
    longitude with the slant range; everything measured is kept. *)
Theorem C36_linear_usbl : forall hypot m2ll sensor f o u la lo d di,
  us_lat u = Some la -> us_lon u = Some lo -> us_d u = Some d -> us_dist u = Some di ->
  exists u', usbl_from hypot m2ll (usbl_json sensor u) (Linear f o) = Some u' /\
    (us_t u', us_lat u', us_lon u', us_n u', us_e u', us_d u', us_ds u', us_dist u') =
    (us_t u, Some la, Some lo, us_n u, us_e u, Some d, us_ds u, Some di) /\
    (us_slat u', us_slon u', us_sn u', us_se u', us_sh u') = (us_slat u, us_slon u, us_sn u, us_se u, us_sh u) /\
    us_ns u' = Some (o + f * di) /\ us_es u' = Some (o + f * di) /\
    let there := m2ll (Qabs la) (Qabs lo) (f * hypot di d + o) (f * hypot di d + o) in
    us_lats u' = Some (Qabs (Qabs la - fst there)) /\ us_lons u' = Some (Qabs (Qabs lo - snd there)).
Proof.
  intros hypot m2ll sensor f o [t la' lo' n e d' las los ns es ds di' sla slo sn se sh] la lo d di H1 H2 H3 H4.
  cbn in H1, H2, H3, H4. subst la' lo' d' di'.
  unfold usbl_from, ship_pose, usbl_json, top, field, two. repeat (cbn; rewrite ?num_fon).
  destruct (m2ll (Qabs la) (Qabs lo) (f * hypot di d + o) (f * hypot di d + o)) as [p q].
  eexists. split; [reflexivity|]. repeat split.
Qed.
Print Assumptions C36_linear_usbl.
Theorem C36_linear_orientation : forall sensor f o t r p y rs ps ys,
  orientation_from (orientation_json sensor (mkorientation t (Some r) (Some p) (Some y) rs ps ys)) (Linear f o) =
  Some (mkorientation t (Some r) (Some p) (Some y) (Some (o + f * r)) (Some (o + f * p)) (Some (o + f * y))).
Proof. intros. unfold orientation_from, orientation_json, top, field, two. crush. Qed.
Print Assumptions C36_linear_orientation.
Theorem C36_linear_depth : forall sensor f o t dt d s,
  depth_from (depth_json sensor (mkdepth t dt (Some d) s)) (Linear f o) = Some (mkdepth t dt (Some d) (Some (o + f * d))).
Proof. intros. unfold depth_from, depth_json, top, field, two. crush. Qed.
Print Assumptions C36_linear_depth.
(** A record with the names the tide reader expects. *)
Theorem C36_tide : forall t h s f o,
  let j := JObj [("epoch_timestamp"%string, fon t); ("data"%string, JArr [JObj [("tide"%string, JNum h); ("tide_std"%string, fon s)]])] in
  tide_from j Sensor = Some (mktide t (Some h) s) /\ tide_from j (Linear f o) = Some (mktide t (Some h) (Some (o + f * h))).
Proof. intros. unfold tide_from, j, top, field. split; crush. Qed.
Print Assumptions C36_tide.

(** A position without a distance to the ship cannot be read with the linear model. *)
Theorem C136_linear_usbl_refuted : exists hypot m2ll u, us_lat u <> None /\ us_lon u <> None /\ us_d u <> None /\
  usbl_from hypot m2ll (usbl_json "gaps" u) (Linear (1 # 100) 1) = None.
Proof.
  exists (fun a _ => a), (fun a b _ _ => (a, b)),
    (mkusbl (Some 1) (Some 50) (Some 4) (Some 1) (Some 2) (Some 3) None None None None None None None None None None None).
  repeat split; discriminate.
Qed.
Print Assumptions C136_linear_usbl_refuted.
(** The per-axis linear model, accepted for the velocity, cannot be used for the orientation. *)
Theorem C136_axes_refuted : exists o fx ox fy oy fz oz, orientation_from (orientation_json "phins" o) (LinearAxes fx ox fy oy fz oz) = None.
Proof. exists (mkorientation (Some 1) (Some 2) (Some 3) (Some 4) None (Some 6) (Some 7)), 1, 1, 1, 1, 1, 1. reflexivity. Qed.
Print Assumptions C136_axes_refuted.
(** The deviations of the linear model are negative for a vehicle moving backwards. *)
Theorem C136_linear_std_refuted : exists v v', velocity_from (velocity_json "phins" v) (Linear (1 # 10) (1 # 100)) = Some v' /\
  exists s, bv_xs v' = Some s /\ s < 0.
Proof.
  exists (mkvelocity (Some 1) (Some 1) (Some (-1)) (Some 0) (Some 0) (Some 0) (Some 0) (Some 0)). eexists. split; [reflexivity|].
  eexists. split; reflexivity.
Qed.
Print Assumptions C136_linear_std_refuted.

(** No exported tide record can be read back: it is written as "height", read as "tide". *)
Theorem C136_tide_never : forall sensor d m, tide_from (tide_json sensor d) m = None.
Proof. intros sensor [t h s] m. unfold tide_from, tide_json, top, field, two. cbn. rewrite num_fon. reflexivity. Qed.
Print Assumptions C136_tide_never.
Theorem C136_tide_refuted : exists d, ti_h d <> None /\ tide_from (tide_json "noc_polpred" d) Sensor = None.
Proof. exists (mktide (Some 1) (Some 2) (Some 0)). split; [discriminate|reflexivity]. Qed.
Print Assumptions C136_tide_refuted.

Example C36_example :
  orientation_from (orientation_json "phins" (mkorientation (Some 1) (Some 2) (Some 3) (Some 4) None (Some 6) (Some 7))) Sensor =
  Some (mkorientation (Some 1) (Some 2) (Some 3) (Some 4) None (Some 6) (Some 7)).
Proof. reflexivity. Qed.
Example C36_usbl_example :
  option_map (fun u => (us_ns u, us_lats u)) (usbl_from (fun _ _ => 5) (fun a b x y => (a + x / 100000, b + y / 100000))
    (usbl_json "gaps" (mkusbl (Some 1) (Some (-50)) (Some 4) (Some 1) (Some 2) (Some 3) None None None None None (Some 4) None None None None None)) (Linear (1 # 10) 1))
  = Some (Some (14 # 10), Some (Qabs (50 - (50 + (15 # 10) / 100000)))).
Proof. reflexivity. Qed.
