(** Model of the NTNU DVL parser, auv_nav/parsers/parse_ntnu_dvl.py:85-158, with from_ntnu_dvl of
    auv_nav/sensors.py.  Numbers are reals; reading the table (a row is its decoded values) and the
    decoding of dates and times are left out, as are rows with missing values. *)
From Verif Require Import TimeModel.
From Coq Require Import List ZArith.
From Verif Require Import FramesModel.
Import ListNotations.
Open Scope R_scope.

(** A row: time of day (seconds, microseconds) and the columns u_dvl, v_dvl, z_dvl, dvl_alt1, dvl_alt3.
    A file: the date in its name (filename[0:8]) and its rows. *)
Record nrow := mknrow { n_hour : Z; n_min : Z; n_sec : Z; n_us : Z; n_u : R; n_v : R; n_z : R; n_alt1 : R; n_alt3 : R }.
Record nfile := mknfile { f_year : Z; f_month : Z; f_day : Z; f_rows : list nrow }.

Record nvelocity := mknvelocity { nv_t : R; nv_x : R; nv_y : R; nv_z : R; nv_x_std : R; nv_y_std : R; nv_z_std : R }.
Record naltitude := mknaltitude { na_t : R; na_alt : R; na_std : R }.

Section Ntnu.
  (** [machine]: the zone of the computer, seconds east of Greenwich, used by datetime.timestamp. *)
  Variables (machine : Z) (yaw_offset velocity_factor velocity_offset altitude_factor : R).

  (** sensors.py:227-230 *)
  Definition stamp (f : nfile) (r : nrow) : R :=
    IZR (utc_seconds (f_year f) (f_month f) (f_day f) (n_hour r) (n_min r) (n_sec r)) + IZR (n_us r) / 1000000 - IZR machine.
  (** sensors.py:170-171 *)
  Definition get_std (v : R) : R := Rabs v * velocity_factor + velocity_offset.
  (** sensors.py:243-247 *)
  Definition beyond (v : R) : bool := if Rlt_dec 32 v then true else if Rlt_dec v (-32) then true else false.
  (** sensors.py:225-250 and parse_ntnu_dvl.py:122-128: [None] when the velocities were set to None. *)
  Definition from_row (f : nfile) (r : nrow) : option nvelocity :=
    let '(x, y, z) := body_to_inertial 0 0 yaw_offset (n_u r, n_v r, n_z r) in
    if (beyond x || beyond y || beyond z)%bool then None
    else Some (mknvelocity (stamp f r) x y z (get_std x) (get_std y) (get_std z)).

  Fixpoint rows_velocity (f : nfile) (rows : list nrow) : list nvelocity :=
    match rows with
    | [] => []
    | r :: rows => match from_row f r with Some v => v :: rows_velocity f rows | None => rows_velocity f rows end
    end.
  (** 114-128: the files in the order of the directory listing. *)
  Fixpoint parse_velocity (files : list nfile) : list nvelocity :=
    match files with [] => [] | f :: files => rows_velocity f (f_rows f) ++ parse_velocity files end.

  (** sensors.py:1038-1050 *)
  Definition altitude_row (f : nfile) (r : nrow) : naltitude :=
    let a := (n_alt1 r + n_alt3 r) / 2 in mknaltitude (stamp f r) a (a * altitude_factor).
  Fixpoint parse_altitude (files : list nfile) : list naltitude :=
    match files with [] => [] | f :: files => map (altitude_row f) (f_rows f) ++ parse_altitude files end.
End Ntnu.
