(** Model of the reading of ROS bags: auv_nav/parsers/parse_rosbag.py [rosbag_topic_worker] and the
    [from_ros], [valid], [clear] and [export] methods of auv_nav/sensors.py, over the reals (no
    rounding, no NaN). Orientation messages are in QuatModel, image messages in RosImgModel. *)
From Coq Require Import List Ascii Reals Lra.
From Verif Require Import FramesModel EulerModel QuatModel.
Import ListNotations.
Open Scope bool_scope.
Open Scope R_scope.

(** sensors.py:24-39 [ros_stamp_to_epoch]. *)
Record stamp := mkstamp { secs : R; nsecs : R }.
Definition ros_stamp_to_epoch (s : stamp) : R := secs s + nsecs s * (1 / 1000000000).

(** oplab/mission.py:69-71 *)
Definition offset_s (timezone timeoffset : R) : R := timezone * 60 * 60 + timeoffset.
(** parse_rosbag.py:150-162: [tz_offset_s] from [read_timezone], in hours (time_conversions.py:82-103),
    and the sensor's [offset_s]. *)
Definition tz_offset (timezone offset : R) : R := timezone * 60 + offset.

(** ** The worker *)
(** sensors.py:80-81: [OutputFormat.OPLAB] and [OutputFormat.ACFR]. *)
Inductive format := Oplab | Acfr.
(** What a call does: it ends with a new state, or it raises (the object keeps what was assigned
    before, which for every case below is nothing). [Console.quit] raises SystemExit. *)
Inductive outcome (A : Type) := Done (a : A) | Raised.
Arguments Done {A} a. Arguments Raised {A}.

Section worker.
Context {msg state record : Type}.
Variables (from_ros : state -> msg -> outcome state) (valid : state -> bool) (to_json : state -> record) (clear : state -> state).

(** sensors.py:115-126 [OutputFormat.export]: [_to_acfr] is defined only in the base class
    (96-98), where it raises; the sensors define [to_acfr]. *)
Definition export (f : format) (st : state) : outcome (state * option record) :=
  if valid st then match f with Oplab => Done (clear st, Some (to_json st)) | Acfr => Raised end else Done (st, None).

(** parse_rosbag.py:66-79: one bag. The messages are those of the wanted topic, in the order in
    which the bag gives them. An exception leaves the loop; the records appended before stay. *)
Fixpoint read_bag (f : format) (st : state) (bag : list msg) (data_list : list record) : state * list record :=
  match bag with
  | [] => (st, data_list)
  | m :: bag => match from_ros st m with
    | Raised => (st, data_list)
    | Done st => if valid st then match export f st with
        | Done (st, Some r) => read_bag f st bag (data_list ++ [r])
        | Done (st, None) => read_bag f st bag data_list
        | Raised => (st, data_list)
        end else read_bag f st bag data_list
    end
  end.
(** parse_rosbag.py:64-83: [None] is a file that rosbag cannot open. *)
Fixpoint topic_worker (f : format) (st : state) (bags : list (option (list msg))) (data_list : list record) : list record :=
  match bags with
  | [] => data_list
  | None :: bags => topic_worker f st bags data_list
  | Some bag :: bags => let '(st, data_list) := read_bag f st bag data_list in topic_worker f st bags data_list
  end.
End worker.

Definition is {A} (x : option A) : bool := match x with Some _ => true | None => false end.

(** ** Velocity: sensors.py:129-343 *)
Record velocity := mkvel { v_t : option R; v_dvl : option R; v_xyz : option vec; v_std : option vec }.
(** sensors.py:137-144 *)
Definition velocity_new : velocity := mkvel None None None None.
(** sensors.py:152-159. The three components are always set together. *)
Definition velocity_clear (v : velocity) : velocity := mkvel (v_t v) None None None.
(** sensors.py:161-168 *)
Definition velocity_valid (v : velocity) : bool := is (v_xyz v) && is (v_t v) && is (v_dvl v).

(** A Teledyne record's axes and error, in mm/s, and a one letter status. *)
Record axes := mkaxes { status : ascii; x_mms : R; y_mms : R; z_mms : R; error_mms : R }.
Inductive velocity_msg :=
| Cola2Dvl (s : stamp) (v : vec) (covariance : nat -> R) (altitude : R)
| Teledyne (s : stamp) (bi wi : axes)
| HNavVel (s : stamp) (v : vec) (quality : R)
| OtherVel.

Definition above (a : axes) : bool :=
  (if Rlt_dec (-32768) (x_mms a) then true else false) && (if Rlt_dec (-32768) (y_mms a) then true else false) && (if Rlt_dec (-32768) (z_mms a) then true else false).
Definition metres (a : axes) : vec := (x_mms a * 0.001, y_mms a * 0.001, z_mms a * 0.001).
Definition verr (a : axes) : vec := let e := Rabs (error_mms a * 0.001) in (e, e, e).

(** sensors.py:341-342 and [apply_offset] (252-274), which returns at once on an invalid object.
    [None] for the deviations cannot be rotated, but they are set whenever the velocity is. *)
Definition velocity_stamp (tz yaw_offset : R) (s : stamp) (v : velocity) : velocity :=
  let t := ros_stamp_to_epoch s - tz in
  let v := mkvel (Some t) (Some t) (v_xyz v) (v_std v) in
  if velocity_valid v
  then mkvel (v_t v) (v_dvl v) (option_map (body_to_inertial 0 0 yaw_offset) (v_xyz v)) (option_map (body_to_inertial 0 0 yaw_offset) (v_std v))
  else v.

(** sensors.py:276-343 [BodyVelocity.from_ros]. *)
Definition velocity_from_ros (tz yaw_offset : R) (st : velocity) (m : velocity_msg) : outcome velocity :=
  match m with
  | Cola2Dvl s v cov alt =>
      if Rle_dec (cov 0%nat) 0 then Done st else
      if Rlt_dec alt 0 then Done st else
      let st := if Rlt_dec (sqrt (vx v ^ 2 + vy v ^ 2)) 2.5
                then mkvel (v_t st) (v_dvl st) (Some v) (Some (sqrt (cov 0%nat), sqrt (cov 4%nat), sqrt (cov 8%nat)))
                else st in
      Done (velocity_stamp tz yaw_offset s st)
  | Teledyne s bi wi =>
      match (if Ascii.eqb (status bi) "A" then Some bi else if Ascii.eqb (status wi) "A" then Some wi else None) with
      | None => Done st
      | Some a =>
          let st := mkvel (v_t st) (v_dvl st) (Some (metres a)) (Some (verr a)) in
          let st := if above bi || above wi then st else mkvel (v_t st) (v_dvl st) None (v_std st) in
          Done (velocity_stamp tz yaw_offset s st)
      end
  | HNavVel s v quality =>
      Done (velocity_stamp tz yaw_offset s (mkvel (v_t st) (v_dvl st) (Some v) (Some (quality, quality, quality))))
  | OtherVel => Raised
  end.

(** ** Altitude: sensors.py:987-1036 *)
Record altitude := mkalt { al_t : option R; al_dvl : option R; al_alt : option R; al_std : option R }.
Definition altitude_new : altitude := mkalt None None None None.
Definition altitude_clear (a : altitude) : altitude := mkalt (al_t a) None None None.
Definition altitude_valid (a : altitude) : bool := is (al_alt a) && is (al_t a) && is (al_dvl a).
Inductive altitude_msg :=
| Cola2Alt (s : stamp) (altitude : R) | Range (s : stamp) (range : R)
| TeledyneAlt (s : stamp) (bi_status : ascii) (bd_range : R) | HNavAlt (s : stamp) (altitude : R) | OtherAlt.
(** The lines that end [from_ros]. *)
Definition altitude_stamp (tz factor : R) (s : stamp) (x : R) : altitude :=
  let t := ros_stamp_to_epoch s - tz in mkalt (Some t) (Some t) (Some x) (Some (x * factor)).
(** sensors.py:1011-1036 *)
Definition altitude_from_ros (tz factor : R) (st : altitude) (m : altitude_msg) : outcome altitude :=
  match m with
  | Cola2Alt s x => Done (if Rlt_dec x 0 then st else altitude_stamp tz factor s x)
  | Range s x => Done (if Rlt_dec x 0 then st else altitude_stamp tz factor s x)
  | TeledyneAlt s b x => Done (if Ascii.eqb b "V" then st else altitude_stamp tz factor s x)
  | HNavAlt s x => Done (if Req_EM_T x 0 then mkalt (al_t st) (al_dvl st) None (al_std st) else altitude_stamp tz factor s x)
  | OtherAlt => Raised
  end.

(** ** Depth: sensors.py:848-885 *)
Record depth := mkdep { d_t : option R; d_dt : option R; d_depth : option R; d_std : option R }.
Definition depth_new : depth := mkdep None None None None.
Definition depth_clear (d : depth) : depth := mkdep (d_t d) None None None.
Definition depth_valid (d : depth) : bool := is (d_depth d) && is (d_t d) && is (d_dt d).
Inductive depth_msg :=
| FluidPressure (s : stamp) (pressure variance : R) | PoseDepth (s : stamp) (z : R) (covariance : nat -> R)
| HNavDepth (s : stamp) (depth cep50 : R) | OtherDepth.
Definition depth_stamp (tz factor : R) (s : stamp) (x std : R) : depth :=
  let t := ros_stamp_to_epoch s - tz in mkdep (Some t) (Some t) (Some x) (Some (if Req_EM_T std 0 then x * factor else std)).
(** sensors.py:869-885 *)
Definition depth_from_ros (tz factor : R) (st : depth) (m : depth_msg) : outcome depth :=
  match m with
  | FluidPressure s p v => Done (depth_stamp tz factor s (p / (1030 * 9.80665)) (sqrt (v / (1030 * 9.80665))))
  | PoseDepth s z cov => Done (depth_stamp tz factor s z (sqrt (cov 14%nat)))
  | HNavDepth s x c => Done (depth_stamp tz factor s x (c * 1.2))
  | OtherDepth => Raised
  end.

(** ** Usbl: sensors.py:1116-1335 *)
Record usbl := mkus { u_t : option R; u_lat : option R; u_lon : option R; u_north : option R; u_east : option R; u_depth : option R;
  u_lat_std : option R; u_lon_std : option R; u_north_std : option R; u_east_std : option R; u_depth_std : option R }.
Definition usbl_new : usbl := mkus None None None None None None None None None None None.
(** sensors.py:1170-1175: the depth and the deviations stay. *)
Definition usbl_clear (u : usbl) : usbl :=
  mkus None None None None None (u_depth u) (u_lat_std u) (u_lon_std u) (u_north_std u) (u_east_std u) (u_depth_std u).
(** sensors.py:1177-1184 *)
Definition usbl_valid (u : usbl) : bool := is (u_lat u) && is (u_lon u) && is (u_east u) && is (u_north u) && is (u_t u).
Inductive usbl_msg :=
| PoseUsbl (s : stamp) (modem : bool) (p : vec) (covariance : nat -> R)
  (* [modem]: the frame_id is "sparus2/modem" *)
| NavSatFix (s : stamp) (status : Z) (lat lon : R) (covariance : nat -> R)
| Evologics (s : stamp) (n e d : R)
| OtherUsbl.

Section geodesy.
(** geographiclib's WGS84: Inverse lat1 lon1 lat2 lon2 = (s12, azi1) and Direct lat1 lon1 azi1 s12
    = (lat2, lon2). *)
Variables (Inverse : R -> R -> R -> R -> R * R) (Direct : R -> R -> R -> R -> R * R).
Variables (lat_ref lon_ref std_factor std_offset tz : R).

(** latlon_wgs84.py:14-20 *)
Definition latlon_to_metres (lat lon lat0 lon0 : R) : R * R := Inverse lat0 lon0 lat lon.
(** latlon_wgs84.py:23-29 *)
Definition metres_to_latlon (lat lon e n : R) : R * R := Direct lat lon (degrees (atan2 e n)) (sqrt (e ^ 2 + n ^ 2)).
Definition linear (d : R) : R := std_factor * d + std_offset.
(** sensors.py:1309-1334 [fill_from_lat_lon_depth]; distance_to_ship, set to -1, is left out. *)
Definition fill (t : option R) (lat lon depth : R) : usbl :=
  let '(distance, bearing) := latlon_to_metres lat lon lat_ref lon_ref in
  mkus t (Some lat) (Some lon) (Some (cos (bearing * PI / 180) * distance)) (Some (sin (bearing * PI / 180) * distance)) (Some depth)
       (Some (linear depth / 111111)) (Some (linear depth / (111111 * cos (lat * PI / 180))))
       (Some (linear depth)) (Some (linear depth)) (Some (linear depth)).
Definition or_linear (std depth : R) : R := if Req_EM_T std 0 then linear depth else std.
(** sensors.py:1270: the line that ends [from_ros]. *)
Definition usbl_stamp (s : stamp) (u : usbl) : usbl :=
  mkus (Some (ros_stamp_to_epoch s - tz)) (u_lat u) (u_lon u) (u_north u) (u_east u) (u_depth u) (u_lat_std u) (u_lon_std u) (u_north_std u) (u_east_std u) (u_depth_std u).
(** sensors.py:1206-1270 [Usbl.from_ros] *)
Definition usbl_from_ros (st : usbl) (m : usbl_msg) : outcome usbl :=
  match m with
  | PoseUsbl s modem p cov =>
      let n := vx p in let e := vy p in let d := vz p in
      let n_std := or_linear (sqrt (cov 0%nat)) d in let e_std := or_linear (sqrt (cov 7%nat)) d in let d_std := or_linear (sqrt (cov 14%nat)) d in
      let '(lat, lon) := metres_to_latlon lat_ref lon_ref e n in
      let '(lat_std, lon_std) := metres_to_latlon lat_ref lon_ref e_std n_std in
      Done (usbl_stamp s (if modem then fill (u_t st) (vx p) (vy p) (- vz p)
        else mkus (u_t st) (Some lat) (Some lon) (Some n) (Some e) (Some d) (Some lat_std) (Some lon_std) (Some n_std) (Some e_std) (Some d_std)))
  | NavSatFix s status lat lon cov =>
      let st := if Z.eq_dec status 0 then let u := fill (u_t st) lat lon 0 in
          mkus (u_t u) (u_lat u) (u_lon u) (u_north u) (u_east u) (u_depth u) (u_lat_std u) (u_lon_std u) (Some (cov 4%nat)) (Some (cov 0%nat)) (Some (cov 8%nat))
        else st in
      Done (usbl_stamp s st)
  | Evologics s n e d =>
      let '(lat, lon) := metres_to_latlon lat_ref lon_ref e n in
      Done (usbl_stamp s (mkus (u_t st) (Some lat) (Some lon) (Some n) (Some e) (Some d) (u_lat_std st) (u_lon_std st) (u_north_std st) (u_east_std st) (u_depth_std st)))
  | OtherUsbl => Raised
  end.
End geodesy.

(** ** Orientation: sensors.py:602-628 and 716-755 *)
Inductive orientation_msg :=
| Imu (s : stamp) (q : quat) (covariance : nat -> R) | HNavOri (s : stamp) (roll pitch heading quality : R) | OtherOri.
(** The angles are set and cleared together, and the deviations are set with them. *)
Definition orientation_from_ros (tz yaw_offset : R) (st : option attitude) (m : orientation_msg) : outcome (option attitude) :=
  match m with
  | Imu s q cov => Done (Some (from_ros yaw_offset tz (ros_stamp_to_epoch s) q cov))
  | HNavOri s r p h w => Done (Some (apply_std_offset yaw_offset (apply_offset yaw_offset (mkatt (ros_stamp_to_epoch s - tz) r p h w w w))))
  | OtherOri => Raised
  end.
Definition orientation_clear (st : option attitude) : option attitude := None.
