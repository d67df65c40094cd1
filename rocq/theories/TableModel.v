(** Model of the parsers that read one table with a row per time: auv_nav/parsers/parse_alr.py,
    parse_autosub.py and parse_koyo21rov.py, with the from_alr, from_autosub and from_koyo21rov
    methods of auv_nav/sensors.py.  A missing number (NaN) is [None]; other numbers are exact
    (rationals; reals for the angles in radians).  Reading the table, the choice of the file, USBL
    positions in metres and the names of the JSON fields are left out, as is the export of an
    orientation without a standard deviation (mission.py:243 gives 0 by default). *)
From Verif Require Import PyBase TimeModel.
From Coq Require Import Reals.
Open Scope Q_scope.

(** One loop of a parser over the rows it uses, e.g. parse_alr.py:82-98 (the same in every branch of
    the three parsers): a record at a later time than the one before is appended, otherwise it
    replaces the last one.  [out] is in reverse.  [None]: IndexError, no record to replace. *)
Section Loop.
  Context {V : Type}.
  Variable time : V -> Q.
  Fixpoint collect (previous : Q) (out rows : list V) : option (list V) :=
    match rows with
    | [] => Some (rev out)
    | v :: rows =>
        if Qltb previous (time v) then collect (time v) (v :: out) rows
        else match out with [] => None | _ :: o => collect (time v) (v :: o) rows end
    end.
  Definition parse (rows : list V) : option (list V) := collect 0 [] rows.
End Loop.

(** The exported records. *)
Record velocity := mkvelocity { v_t : Q; v_x : Q; v_x_std : Q; v_y : Q; v_y_std : Q; v_z : Q; v_z_std : Q }.
Record orientation := mkorientation { o_t : Q; o_roll : R; o_pitch : R; o_yaw : R; o_std : Q }.
Record scalar := mkscalar { s_t : Q; s_value : Q; s_std : Q }.   (* depth or altitude *)
Record position := mkposition { p_t : Q; p_lat : option Q; p_lon : option Q; p_depth : option Q; p_std : option Q }.

(** sensors.py:170-171 *)
Definition get_std (factor offset v : Q) : Q := Qabs v * factor + offset.
(** sensors.py:173-181; the DVL's heading offset is not used. *)
Definition body_velocity (factor offset t x y z : Q) : velocity :=
  mkvelocity t x (get_std factor offset x) y (get_std factor offset y) z (get_std factor offset z).
(** sensors.py:679-683 *)
Definition degrees (a : R) : R := (a * 180 / PI)%R.
(** sensors.py:900-904, 1052-1056 *)
Definition scaled (factor t v : Q) : scalar := mkscalar t v (v * factor).
(** sensors.py:1294-1299 and 1318-1323: the standard deviation from the depth. *)
Definition fix_at (factor offset t : Q) (lat lon depth : option Q) : position :=
  mkposition t lat lon depth (option_map (fun d => factor * d + offset) depth).

(** ** parse_alr.py:80-180 *)
Record alr_row := mkalr {
  a_t : Q; a_lock : Z; a_vx : option Q; a_vy : option Q; a_vz : option Q;
  a_roll : option R; a_pitch : option R; a_heading : option R;
  a_depth : option Q; a_alt : option Q; a_lat : option Q; a_lon : option Q }.
Definition alr_velocity (factor offset : Q) (rows : list alr_row) : option (list velocity) :=
  parse v_t (flat_map (fun r =>
    if (a_lock r =? 1)%Z then
      match a_vx r, a_vy r, a_vz r with
      | Some x, Some y, Some z => [body_velocity factor offset (a_t r) x y z]
      | _, _, _ => []
      end
    else []) rows).
Definition alr_orientation (std : Q) (rows : list alr_row) : option (list orientation) :=
  parse o_t (flat_map (fun r =>
    match a_roll r, a_pitch r, a_heading r with
    | Some x, Some y, Some z => [mkorientation (a_t r) (degrees x) (degrees y) (degrees z) std]
    | _, _, _ => []
    end) rows).
Definition alr_depth (factor : Q) (rows : list alr_row) : option (list scalar) :=
  parse s_t (flat_map (fun r => match a_depth r with Some d => [scaled factor (a_t r) d] | None => [] end) rows).
Definition alr_altitude (factor : Q) (rows : list alr_row) : option (list scalar) :=
  parse s_t (flat_map (fun r =>
    if (a_lock r =? 1)%Z then match a_alt r with Some a => [scaled factor (a_t r) a] | None => [] end else []) rows).
Definition alr_usbl (factor offset : Q) (rows : list alr_row) : option (list position) :=
  parse p_t (flat_map (fun r =>
    match a_lat r, a_lon r with
    | Some la, Some lo => [fix_at factor offset (a_t r) (Some la) (Some lo) (a_depth r)]
    | _, _ => []
    end) rows).

(** ** parse_autosub.py:47-90; the tables of the mission log, all numbers present. *)
Record adcp_row := mkadcp { ad_t : Q; ad_north : Q; ad_east : Q; ad_down : Q; ad_err : Q }.
(** sensors.py:183-191 *)
Definition autosub_velocity (rows : list adcp_row) : option (list velocity) :=
  parse v_t (map (fun r =>
    let std := ad_err r * (1 # 1000) in
    mkvelocity (ad_t r) (- ad_north r * (1 # 1000)) std (- ad_east r * (1 # 1000)) std (- ad_down r * (1 # 1000)) std) rows).
(** sensors.py:692-696: (time, roll, pitch, heading). *)
Definition autosub_orientation (std : Q) (rows : list (Q * R * R * R)) : option (list orientation) :=
  parse o_t (map (fun r => let '(t, a, b, c) := r in mkorientation t (degrees a) (degrees b) (degrees c) std) rows).
(** sensors.py:912-916, 1064-1068: (time, depth) or (time, altitude). *)
Definition autosub_scalar (factor : Q) (rows : list (Q * Q)) : option (list scalar) :=
  parse s_t (map (fun r => scaled factor (fst r) (snd r)) rows).

(** ** parse_koyo21rov.py:75-228.  The time of a row is a calendar date, read by [mktime] in the zone of
    the computer ([machine] seconds east of Greenwich); the date is taken to be valid. *)
Record koyo_row := mkkoyo {
  k_year : Z; k_month : Z; k_day : Z; k_hour : Z; k_min : Z; k_sec : Z;
  k_roll : option R; k_pitch : option R; k_heading : option R;
  k_depth : option Q; k_alt : option Q; k_lat : option Q; k_lon : option Q;
  k_surge : option Q; k_heave : option Q }.
Definition mktime (machine : Z) (r : koyo_row) : Q :=
  inject_Z (utc_seconds (k_year r) (k_month r) (k_day r) (k_hour r) (k_min r) (k_sec r) - machine).
Definition koyo_orientation (machine : Z) (std : Q) (rows : list koyo_row) : option (list orientation) :=
  parse o_t (flat_map (fun r =>
    match k_roll r, k_pitch r, k_heading r with
    | Some x, Some y, Some z => [mkorientation (mktime machine r) x y z std]
    | _, _, _ => []
    end) rows).
Definition koyo_depth (machine : Z) (factor : Q) (rows : list koyo_row) : option (list scalar) :=
  parse s_t (flat_map (fun r => match k_depth r with Some d => [scaled factor (mktime machine r) d] | None => [] end) rows).
Definition koyo_altitude (machine : Z) (factor : Q) (rows : list koyo_row) : option (list scalar) :=
  parse s_t (flat_map (fun r => match k_alt r with Some d => [scaled factor (mktime machine r) d] | None => [] end) rows).
(** 180-198: only the depth is checked. *)
Definition koyo_usbl (machine : Z) (factor offset : Q) (rows : list koyo_row) : option (list position) :=
  parse p_t (flat_map (fun r =>
    match k_depth r with
    | Some d => [fix_at factor offset (mktime machine r) (k_lat r) (k_lon r) (Some d)]
    | None => []
    end) rows).
Definition koyo_velocity (machine : Z) (factor offset : Q) (rows : list koyo_row) : option (list velocity) :=
  parse v_t (flat_map (fun r =>
    match k_surge r, k_heave r with
    | Some x, Some z => [body_velocity factor offset (mktime machine r) x 0 z]
    | _, _ => []
    end) rows).
