(** Model of how the mounting offsets of vehicle.yaml are used: auv_nav/process.py:860-873, 952-976, 1197-1219
    and 1299-1322, auv_nav/localisation/ekf.py:222-300 and 1073-1110, auv_nav/tools/interpolate.py:446-508 and
    Camera.fromSyncedBodyVelocity, auv_nav/sensors.py:1849-1905.  Over the reals; only position, attitude and
    altitude are kept of a record.  Offsets are (surge, sway, heave). *)
From Verif Require Import FramesModel FramesSpec.
Open Scope R_scope.

Record attitude := mkatt { roll : R; pitch : R; yaw : R }.
(** A track sample: time, attitude, northings, eastings, depth, altitude. *)
Record sample := mksample { at_t : R; att : attitude; north : R; east : R; depth : R; altitude : R }.
Definition turn (a : attitude) (v : vec) : vec := body_to_inertial (roll a) (pitch a) (yaw a) v.
Definition minus (a b : vec) : vec := (vx a - vx b, vy a - vy b, vz a - vz b).

(** process.py:954-976: the dead-reckoning track moved from the DVL (depth: from the depth sensor) to the origin. *)
Definition dr_centre (origin dvl depth_sensor : vec) (s : sample) : sample :=
  let '(x, y, a) := turn (att s) (minus origin dvl) in
  let '(_, _, z) := turn (att s) (minus origin depth_sensor) in
  mksample (at_t s) (att s) (north s + x) (east s + y) (depth s + z) (altitude s - a).
(** process.py:1197-1205: the particle filter's track; depth and altitude are not moved. *)
Definition pf_centre (origin dvl : vec) (s : sample) : sample :=
  let '(x, y, z) := turn (att s) (minus origin dvl) in
  mksample (at_t s) (att s) (north s + x) (east s + y) (depth s) (altitude s).
(** ekf.py:1082-1122, shift_to_origin; [alt] is the altitude interpolated on the dead-reckoning track at the DVL. *)
Definition ekf_centre (origin dvl : vec) (alt : R) (s : sample) : sample :=
  let '(x, y, z) := turn (att s) (minus origin dvl) in
  mksample (at_t s) (att s) (north s + x) (east s + y) (depth s + z) alt.

(** interpolate.py:20-27 *)
Definition interpolate (t t1 t2 v1 v2 : R) : R := if Req_EM_T t2 t1 then v1 else (v2 - v1) / (t2 - t1) * (t - t1) + v1.
(** interpolate.py:446-502: the sensor at time [t] between the track samples [a] and [b]; [w] is the interpolated
    attitude (C02).  The result is followed by its latitude and longitude (503-508). *)
Definition sensor_at {L} (m2ll : R -> R -> L) (origin sensor : vec) (t : R) (w : attitude) (a b : sample) : sample * L :=
  let '(x, y, z) := turn w (minus origin sensor) in
  let at_ v := interpolate t (at_t a) (at_t b) (v a) (v b) in
  let n := at_ north - x in let e := at_ east - y in
  (mksample t w n e (at_ depth - z) (at_ altitude + z), m2ll e n).
(** sensors.py:1849-1905 *)
Definition from_synced {L} (m2ll : R -> R -> L) (origin sensor : vec) (s : sample) : sample * L :=
  let '(x, y, z) := turn (att s) (minus origin sensor) in
  (mksample (at_t s) (att s) (north s - x) (east s - y) (depth s - z) (altitude s + z), m2ll (east s) (north s)).

(** ekf.py:222-227, with depth_to_dvl of process.py:1304-1308: the depth given to the filter. *)
Definition ekf_depth (dvl depth_sensor : vec) (w : attitude) (d : R) : R := let '(_, _, z) := turn w (minus dvl depth_sensor) in d + z.
(** ekf.py:289-298, with usbl_to_dvl of process.py:1299-1303: northings and eastings given to the filter. *)
Definition ekf_fix (dvl usbl : vec) (w : attitude) (n e : R) : R * R := let '(x, y, _) := turn w (minus dvl usbl) in (n + x, e + y).
(** process.py:1310-1319 *)
Definition ekf_start (dvl depth_sensor : vec) (s : sample) : sample :=
  let '(_, _, z) := turn (att s) (minus dvl depth_sensor) in mksample (at_t s) (att s) (north s) (east s) (depth s + z) (altitude s).

(** process.py:860-884: the north, east and down velocity that dead reckoning integrates. *)
Definition track_velocity (dvl : vec) (w : attitude) (measured rates : vec) : vec := turn w (correct_lever_arm measured rates dvl).
