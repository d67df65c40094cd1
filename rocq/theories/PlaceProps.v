(** C88, C89: mounting offsets and the positions derived from them. *)
From Verif Require Import FramesModel FramesSpec FramesProofs PlaceModel.
Open Scope R_scope.

(** A rigid vehicle: the point of the vehicle at body coordinates [o] is at [p + rotation of o], [p] being where
    the body coordinates' zero is (north, east, down); the rotation is roll, then pitch, then yaw. *)
Definition place (p : vec) (w : attitude) (o : vec) : vec :=
  vadd p (rot_z (degrees_to_radians (yaw w)) (rot_y (degrees_to_radians (pitch w)) (rot_x (degrees_to_radians (roll w)) o))).
(** The sample tells where the point [o] is, above a flat seafloor at depth [bottom]. *)
Definition is_at (p : vec) (bottom : R) (o : vec) (s : sample) : Prop :=
  (north s, east s, depth s) = place p (att s) o /\ altitude s = bottom - vz (place p (att s) o).
(** What dead reckoning has: the DVL's northings, eastings and altitude, but the depth sensor's depth. *)
Definition dvl_and_depth (p : vec) (bottom : R) (dvl depth_sensor : vec) (s : sample) : Prop :=
  north s = vx (place p (att s) dvl) /\ east s = vy (place p (att s) dvl) /\ depth s = vz (place p (att s) depth_sensor) /\
  altitude s = bottom - vz (place p (att s) dvl).

Lemma turn_place : forall p w o, place p w o = vadd p (turn w o).
Proof. intros p w o. unfold place, turn. now rewrite b2i_composition. Qed.
Lemma turn_minus : forall w a b, turn w (minus a b) = minus (turn w a) (turn w b).
Proof.
  intros w a b. unfold turn, minus. vdestr. cbn [vx vy vz fst snd]. unfold body_to_inertial. apply vec_eq; unfold vx, vy, vz; cbn [fst snd]; ring.
Qed.
Ltac parts := repeat (cbn [minus vx vy vz at_t att north east depth altitude fst snd] in *; match goal with
  | e : turn ?w ?v = (_, _, _) |- context [turn ?w ?v] => rewrite e
  | e : turn ?w ?v = (_, _, _), H : context [turn ?w ?v] |- _ => lazymatch type of H with turn w v = _ => fail | _ => rewrite e in H end
  | |- context [turn ?w ?v] => is_var v; let e := fresh in destruct (turn w v) as [[? ?] ?] eqn:e
  | H : context [turn ?w ?v] |- _ => is_var v; lazymatch type of H with turn w v = _ => fail | _ => let e := fresh in destruct (turn w v) as [[? ?] ?] eqn:e end
  end).
(** Spells everything out in coordinates of the turned offsets. *)
Ltac spell := unfold is_at, dvl_and_depth, sensor_at, from_synced, dr_centre, pf_centre, ekf_centre, ekf_depth, ekf_fix, ekf_start in *;
  cbn [at_t att north east depth altitude fst snd] in *; rewrite ?turn_place, ?turn_minus in *; parts;
  unfold minus, vadd in *;
  cbn [vx vy vz fst snd at_t att north east depth altitude] in *; unfold vx, vy, vz in *; cbn [fst snd] in *; subst.
Lemma interpolate_end : forall t1 t2 v1 v2, t1 <> t2 -> interpolate t2 t1 t2 v1 v2 = v2.
Proof. intros t1 t2 v1 v2 H. unfold interpolate. destruct (Req_EM_T t2 t1); [congruence|]. field. lra. Qed.

(** Dead reckoning: a camera (or payload) at the time of a track sample is where it is mounted, whatever the origin. *)
Theorem C88_camera : forall L (m2ll : R -> R -> L) origin dvl depth_sensor sensor p bottom a b,
  at_t a <> at_t b -> dvl_and_depth p bottom dvl depth_sensor b ->
  let c := sensor_at m2ll origin sensor (at_t b) (att b) (dr_centre origin dvl depth_sensor a) (dr_centre origin dvl depth_sensor b) in
  at_t (fst c) = at_t b /\ att (fst c) = att b /\ is_at p bottom sensor (fst c) /\ snd c = m2ll (east (fst c)) (north (fst c)).
Proof.
  intros L m2ll origin dvl ds sensor [[px py] pz] bottom [ta wa na ea da aa] [tb wb nb eb db ab] T (N & E & D & A). cbv zeta. spell.
  rewrite !interpolate_end by exact T. repeat split; [f_equal; [f_equal|]; ring|ring].
Qed.
Print Assumptions C88_camera.

(** Between two samples of a vehicle that does not turn, it is where it is mounted on the line between. *)
Theorem C88_camera_between : forall L (m2ll : R -> R -> L) origin dvl depth_sensor sensor p q bottom k a b,
  at_t a <> at_t b -> att a = att b -> dvl_and_depth p bottom dvl depth_sensor a -> dvl_and_depth q bottom dvl depth_sensor b ->
  let t := (1 - k) * at_t a + k * at_t b in
  let c := sensor_at m2ll origin sensor t (att b) (dr_centre origin dvl depth_sensor a) (dr_centre origin dvl depth_sensor b) in
  is_at (vadd (vscale (1 - k) p) (vscale k q)) bottom sensor (fst c) /\ snd c = m2ll (east (fst c)) (north (fst c)).
Proof.
  intros L m2ll origin dvl ds sensor [[px py] pz] [[qx qy] qz] bottom k [ta wa na ea da aa] [tb wb nb eb db ab] T W (N & E & D & A) (N' & E' & D' & A').
  cbn [att] in W. subst wa. cbv zeta. unfold vscale in *. spell.
  assert (forall v1 v2, interpolate ((1 - k) * ta + k * tb) ta tb v1 v2 = (1 - k) * v1 + k * v2) as I.
  { intros v1 v2. unfold interpolate. destruct (Req_EM_T tb ta); [congruence|]. field. lra. }
  rewrite !I. repeat split; [f_equal; [f_equal|]; ring|ring].
Qed.
Print Assumptions C88_camera_between.

(** The filter's measurements are of the DVL: a fix of the transponder and a depth of the depth sensor are moved there;
    so is the depth it starts from. *)
Theorem C88_measurements : forall dvl usbl depth_sensor p w,
  ekf_fix dvl usbl w (vx (place p w usbl)) (vy (place p w usbl)) = (vx (place p w dvl), vy (place p w dvl)) /\
  ekf_depth dvl depth_sensor w (vz (place p w depth_sensor)) = vz (place p w dvl).
Proof. intros dvl usbl ds [[px py] pz] w. spell. split; [f_equal; ring|ring]. Qed.
Print Assumptions C88_measurements.
Theorem C88_start : forall dvl depth_sensor p bottom s, dvl_and_depth p bottom dvl depth_sensor s -> is_at p bottom dvl (ekf_start dvl depth_sensor s).
Proof. intros dvl ds [[px py] pz] bottom [t w n e d a] (N & E & D & A). spell. split; [f_equal; ring|ring]. Qed.
Print Assumptions C88_start.

(** A camera of the filter: northings, eastings and depth are where it is mounted, for a state that tells where the DVL is. *)
Theorem C88_camera_ekf : forall L (m2ll : R -> R -> L) origin dvl sensor alt p s,
  (north s, east s, depth s) = place p (att s) dvl ->
  let c := fst (from_synced m2ll origin sensor (ekf_centre origin dvl alt s)) in
  at_t c = at_t s /\ att c = att s /\ (north c, east c, depth c) = place p (att s) sensor.
Proof.
  intros L m2ll origin dvl sensor alt [[px py] pz] [t w n e d a] H. cbv zeta. spell. injection H as -> -> ->. repeat split. f_equal; [f_equal|]; ring.
Qed.
Print Assumptions C88_camera_ekf.

(** The filter's altitudes: off by the height of the origin above the DVL. *)
Theorem C89_ekf_altitude : forall L (m2ll : R -> R -> L) origin dvl sensor p bottom s, is_at p bottom dvl s ->
  let c := fst (from_synced m2ll origin sensor (ekf_centre origin dvl (altitude s) s)) in
  altitude c = bottom - vz (place p (att s) sensor) + (vz (place p (att s) origin) - vz (place p (att s) dvl)).
Proof. intros L m2ll origin dvl sensor [[px py] pz] bottom [t w n e d a] [H A]. cbv zeta. spell. injection H as -> -> ->. ring. Qed.
Print Assumptions C89_ekf_altitude.
(** Its latitude and longitude: those of the origin. *)
Theorem C89_ekf_latlon : forall L (m2ll : R -> R -> L) origin dvl sensor alt p s, (north s, east s, depth s) = place p (att s) dvl ->
  snd (from_synced m2ll origin sensor (ekf_centre origin dvl alt s)) = m2ll (vy (place p (att s) origin)) (vx (place p (att s) origin)).
Proof. intros L m2ll origin dvl sensor alt [[px py] pz] [t w n e d a] H. spell. injection H as -> -> ->. f_equal; ring. Qed.
Print Assumptions C89_ekf_latlon.
(** The particle filter's cameras: northings and eastings are right, the depth is off by the height of the origin above
    the depth sensor and the altitude by that of the origin above the DVL. *)
Theorem C89_pf : forall L (m2ll : R -> R -> L) origin dvl depth_sensor sensor p bottom a b, at_t a <> at_t b -> dvl_and_depth p bottom dvl depth_sensor b ->
  let c := fst (sensor_at m2ll origin sensor (at_t b) (att b) (pf_centre origin dvl a) (pf_centre origin dvl b)) in
  let z o := vz (place p (att b) o) in
  north c = vx (place p (att b) sensor) /\ east c = vy (place p (att b) sensor) /\
  depth c = z sensor - (z origin - z depth_sensor) /\ altitude c = bottom - z sensor + (z origin - z dvl).
Proof.
  intros L m2ll origin dvl ds sensor [[px py] pz] bottom [ta wa na ea da aa] [tb wb nb eb db ab] T (N & E & D & A). cbv zeta. spell.
  rewrite !interpolate_end by exact T. repeat split; ring.
Qed.
Print Assumptions C89_pf.
(** Dead reckoning integrates the velocity of the point twice as far out as the DVL. *)
Theorem C89_track_point : forall dvl w v rates,
  track_velocity dvl w (point_velocity v (vrad rates) dvl) rates = turn w (point_velocity v (vrad rates) (vscale 2 dvl)).
Proof.
  intros dvl w v rates. unfold track_velocity. f_equal. rewrite lever_arm_doubles. vdestr. apply vec_eq; vunfold; ring.
Qed.
Print Assumptions C89_track_point.

(** The DVL one metre ahead of the origin and half a metre below, the camera two metres behind and one metre up, the depth
    sensor on top; nose up by 90 degrees for the example. *)
Lemma turn_level : forall v, turn (mkatt 0 0 0) v = v.
Proof. intros v. unfold turn. cbn. apply b2i_identity. Qed.
Lemma place_level : forall p o, place p (mkatt 0 0 0) o = vadd p o.
Proof. intros p o. now rewrite turn_place, turn_level. Qed.
Ltac level := unfold dvl_and_depth, is_at, from_synced, ekf_centre, sensor_at, pf_centre, dr_centre; cbn [att at_t north east depth altitude fst snd];
  rewrite ?place_level, ?turn_level; unfold minus, vadd, vx, vy, vz; cbn [fst snd att at_t north east depth altitude].
Example C88_ex : let w := mkatt 0 90 0 in
  let s0 := mksample 0 w 5 5 5 5 in let s1 := mksample 1 w (1 / 2) 0 10 21 in
  dvl_and_depth (0, 0, 10) 30 (1, 0, 1 / 2) (0, 0, -1) s1 /\
  fst (sensor_at pair (0, 0, 0) (-2, 0, -1) 1 w (dr_centre (0, 0, 0) (1, 0, 1 / 2) (0, 0, -1) s0) (dr_centre (0, 0, 0) (1, 0, 1 / 2) (0, 0, -1) s1)) = mksample 1 w (-1) 0 12 18.
Proof.
  assert (forall x y z, turn (mkatt 0 90 0) (x, y, z) = (z, y, - x)) as W.
  { intros x y z. unfold turn, body_to_inertial. cbn [roll pitch yaw]. rewrite rad90, Rmult_0_l, sin_0, cos_0, sin_PI2, cos_PI2. repeat f_equal; ring. }
  cbv zeta. split.
  - unfold dvl_and_depth. cbn [att north east depth altitude]. rewrite !turn_place, !W. unfold vadd, vx, vy, vz. cbn [fst snd]. repeat split; lra.
  - unfold sensor_at, dr_centre. cbn [att at_t north east depth altitude]. unfold minus, vx, vy, vz. cbn [fst snd]. rewrite !W.
    cbn [att at_t north east depth altitude fst]. rewrite !interpolate_end by lra. f_equal; lra.
Qed.

Theorem C89_ekf_altitude_refuted : exists L (m2ll : R -> R -> L) origin dvl sensor p bottom s, is_at p bottom dvl s /\
  let c := fst (from_synced m2ll origin sensor (ekf_centre origin dvl (altitude s) s)) in altitude c <> bottom - vz (place p (att s) sensor).
Proof.
  exists (R * R)%type, pair, (0, 0, 0), (1, 0, 1 / 2), (-2, 0, -1), (0, 0, 10), 30, (mksample 0 (mkatt 0 0 0) 1 0 (21 / 2) (39 / 2)).
  level. repeat split; [f_equal; [f_equal|]; lra|lra|lra].
Qed.
Print Assumptions C89_ekf_altitude_refuted.
Theorem C89_ekf_latlon_refuted : exists L (m2ll : R -> R -> L) origin dvl sensor p alt s, (north s, east s, depth s) = place p (att s) dvl /\
  let c := from_synced m2ll origin sensor (ekf_centre origin dvl alt s) in snd c <> m2ll (east (fst c)) (north (fst c)).
Proof.
  exists (R * R)%type, pair, (0, 0, 0), (1, 0, 1 / 2), (-2, 0, -1), (0, 0, 10), 0, (mksample 0 (mkatt 0 0 0) 1 0 (21 / 2) (39 / 2)).
  level. split; [f_equal; [f_equal|]; lra|]. intros H. injection H as _ H. lra.
Qed.
Print Assumptions C89_ekf_latlon_refuted.
Theorem C89_pf_depth_refuted : exists L (m2ll : R -> R -> L) origin dvl depth_sensor sensor p bottom a b, at_t a <> at_t b /\ dvl_and_depth p bottom dvl depth_sensor b /\
  let c := fst (sensor_at m2ll origin sensor (at_t b) (att b) (pf_centre origin dvl a) (pf_centre origin dvl b)) in
  depth c <> vz (place p (att b) sensor) /\ altitude c <> bottom - vz (place p (att b) sensor).
Proof.
  exists (R * R)%type, pair, (0, 0, 0), (1, 0, 1 / 2), (0, 0, -1), (-2, 0, -1), (0, 0, 10), 30, (mksample 0 (mkatt 0 0 0) 1 0 9 20), (mksample 1 (mkatt 0 0 0) 1 0 9 (39 / 2)).
  level. rewrite !interpolate_end by lra. repeat split; lra.
Qed.
Print Assumptions C89_pf_depth_refuted.
(** Spinning on the spot: the track moves, and not as the DVL does. *)
Theorem C89_track_refuted : exists dvl w v rates,
  track_velocity dvl w (point_velocity v (vrad rates) dvl) rates <> turn w (point_velocity v (vrad rates) dvl) /\
  track_velocity dvl w (point_velocity v (vrad rates) dvl) rates <> turn w v.
Proof.
  exists (1, 0, 0), (mkatt 0 0 0), vzero, (0, 0, 180). rewrite C89_track_point, !turn_level. pose proof PI_RGT_0 as P.
  split; intros H; apply (f_equal vy) in H; vunfold; lra.
Qed.
Print Assumptions C89_track_refuted.
