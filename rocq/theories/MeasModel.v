(** Model of the measurements made from sensor samples and of the values read from an EKF state:
    auv_nav/localisation/ekf.py:23-37, 78-180, 187-366 and 1058-1070, over any real closed field
    [R] (for the square roots).  Samples without NaN; warnings (warn_if_zero) are left out. *)
From mathcomp Require Import all_ssreflect all_algebra.
From Verif Require Import EkfModel EkfRunModel.
Set Implicit Arguments.
Unset Strict Implicit.
Unset Printing Implicit Defensive.
Import GRing.Theory Num.Theory.
Local Open Scope ring_scope.

(** ekf.py:23-37 [Index]: X, Y, Z, ROLL, PITCH, YAW, VX, VY, VZ, VROLL, VPITCH, VYAW are 0 to 11. *)
Notation DIM := 12%N.

Section Meas.
Variables (R : rcfType) (pi : R).

(** The fields of the sensor classes that are read. *)
Record depth_s := DepthS { d_t : R; d_depth : R; d_std : R }.
Record dvl_s := DvlS { v_t : R; v_x : R; v_y : R; v_z : R; v_x_std : R; v_y_std : R; v_z_std : R }.
Record usbl_s := UsblS { u_t : R; u_north : R; u_east : R; u_depth : R; u_north_std : R; u_east_std : R }.
Record ori_s := OriS { o_t : R; o_roll : R; o_pitch : R; o_yaw : R; o_roll_std : R; o_pitch_std : R; o_yaw_std : R }.

(** sensors_std: the factor and offset of a noise model; for velocities one for all axes or one for each. *)
Record noise := Noise { factor : R; offset : R }.
Inductive speed_noise := Common (n : noise) | PerAxis (nx ny nz : noise).
Record sensors_std := SensorsStd { position_z : noise; position_xy : noise; orientation : noise; speed : speed_noise }.

(** [body_to_inertial] (FramesModel) for angles in degrees. *)
Variable body_to_inertial : R -> R -> R -> R * R * R -> R * R * R.

(** ekf.py:197-211: all entries are zero and not to be updated until set; the off-diagonal ones stay zero. *)
Definition vector (f : nat -> R) : 'cV[R]_DIM := \col_(i < DIM) f i.
Definition diagonal (f : nat -> R) : 'M[R]_DIM := \matrix_(i < DIM, j < DIM) if i == j then f i else 0.
Definition among (l : seq nat) : pred 'I_DIM := fun i => (i : nat) \in l.
Definition zero : nat -> R := fun _ => 0.
Definition put (i : nat) (v : R) (f : nat -> R) : nat -> R := fun j => if j == i then v else f j.

(** ekf.py:222-239; [type] numbers the strings. *)
Definition from_depth (s : sensors_std) (v : depth_s) (roll pitch yaw : R) (arm : R * R * R) : measurement R DIM :=
  let: (_, _, depth_offset) := body_to_inertial roll pitch yaw arm in
  let cov := if 0 < d_std v then d_std v ^+ 2
             else (d_depth v * factor (position_z s) + offset (position_z s)) ^+ 2 in
  Measurement (vector (put 2 (d_depth v + depth_offset) zero)) (diagonal (put 2 cov zero)) (among [:: 2]%N) pred0 0 (d_t v).

(** ekf.py:241-287 *)
Definition from_dvl (s : sensors_std) (v : dvl_s) : measurement R DIM :=
  let: (nx, ny, nz) := match speed s with Common n => (n, n, n) | PerAxis nx ny nz => (nx, ny, nz) end in
  let: (cx, cy, cz) :=
    if 0 < v_x_std v then (v_x_std v ^+ 2, v_y_std v ^+ 2, v_z_std v ^+ 2)
    else ((`|v_x v| * factor nx + offset nx) ^+ 2, (`|v_y v| * factor ny + offset ny) ^+ 2,
          (`|v_z v| * factor nz + offset nz) ^+ 2) in
  Measurement (vector (put 6 (v_x v) (put 7 (v_y v) (put 8 (v_z v) zero))))
    (diagonal (put 6 cx (put 7 cy (put 8 cz zero)))) (among [:: 6; 7; 8]%N) pred0 1 (v_t v).

(** ekf.py:289-316 *)
Definition from_usbl (s : sensors_std) (v : usbl_s) (roll pitch yaw : R) (arm : R * R * R) : measurement R DIM :=
  let: (north_offset, east_offset, _) := body_to_inertial roll pitch yaw arm in
  let: (cx, cy) :=
    if 0 < u_north_std v then (u_north_std v ^+ 2, u_east_std v ^+ 2)
    else let distance := Num.sqrt (u_north v ^+ 2 + u_east v ^+ 2 + u_depth v ^+ 2) in
         let error := offset (position_xy s) + factor (position_xy s) * distance in (error ^+ 2, error ^+ 2) in
  Measurement (vector (put 0 (u_north v + north_offset) (put 1 (u_east v + east_offset) zero)))
    (diagonal (put 0 cx (put 1 cy zero))) (among [:: 0; 1]%N) pred0 2 (u_t v).

(** ekf.py:318-359 *)
Definition from_orientation (s : sensors_std) (v : ori_s) : measurement R DIM :=
  let n := orientation s in
  let: (cr, cp, cy) :=
    if 0 < o_roll_std v then
      ((o_roll_std v * pi / 180%:R) ^+ 2, (o_pitch_std v * pi / 180%:R) ^+ 2, (o_yaw_std v * pi / 180%:R) ^+ 2)
    else (((offset n + o_roll v * factor n) * pi / 180%:R) ^+ 2, ((offset n + o_pitch v * factor n) * pi / 180%:R) ^+ 2,
          ((offset n + o_yaw v * factor n) * pi / 180%:R) ^+ 2) in
  Measurement (vector (put 3 (o_roll v * pi / 180%:R) (put 4 (o_pitch v * pi / 180%:R) (put 5 (o_yaw v * pi / 180%:R) zero))))
    (diagonal (put 3 cr (put 4 cp (put 5 cy zero)))) (among [:: 3; 4; 5]%N) pred0 3 (o_t v).

(** The samples of the four lists of a run (ekf.py:838-872) and ekf.py:995-1029: the measurement made from the next
    sample of a list; USBL and depth use the attitude of the current state, in degrees. *)
Inductive sample := SO (v : ori_s) | SU (v : usbl_s) | SD (v : depth_s) | SV (v : dvl_s).
Definition stamp (e : sample) : R := match e with SO v => o_t v | SU v => u_t v | SD v => d_t v | SV v => v_t v end.
Definition degrees (x : R) : R := x * 180%:R / pi.
Definition angle (x : 'cV[R]_DIM) (i : nat) : R := degrees (x (inord i) 0).
Definition build (s : sensors_std) (usbl_to_dvl depth_to_dvl : R * R * R) (_ : kind) (e : sample) (x : 'cV[R]_DIM) : measurement R DIM :=
  match e with
  | SO v => from_orientation s v
  | SU v => from_usbl s v (angle x 3) (angle x 4) (angle x 5) usbl_to_dvl
  | SD v => from_depth s v (angle x 3) (angle x 4) (angle x 5) depth_to_dvl
  | SV v => from_dvl s v
  end.

(** The fields of SyncedOrientationBodyVelocity that are read or written. *)
Record synced := Synced {
  s_t : R; s_north : R; s_east : R; s_depth : R; s_roll : R; s_pitch : R; s_yaw : R;
  s_vx : R; s_vy : R; s_vz : R; s_vroll : R; s_vpitch : R; s_vyaw : R;
  s_std : nat -> R; s_cov : 'M[R]_DIM }.

(** ekf.py:127-180: the standard deviation of component [i]; those of angles (3-5, 9-11) in degrees. *)
Definition std_of (P : 'M[R]_DIM) (i : nat) : R :=
  let sd := Num.sqrt (Num.max 0 (P (inord i) (inord i))) in
  if (i \in [:: 3; 4; 5; 9; 10; 11])%N then 180%:R / pi * sd else sd.

(** ekf.py:96-125; the standard deviations as a function of the component. *)
Definition to_synced (k : ekf_state R DIM) : synced :=
  let x i := e_x k (inord i) 0 in
  let deg i := x i * 180%:R / pi in
  Synced (e_time k) (x 0%N) (x 1%N) (x 2%N) (deg 3%N) (deg 4%N) (deg 5%N) (x 6%N) (x 7%N) (x 8%N)
    (deg 9%N) (deg 10%N) (deg 11%N)
    (std_of (e_P k)) (e_P k).

(** ekf.py:78-94 *)
Definition of_synced (b : synced) : ekf_state R DIM :=
  let rad a := a * pi / 180%:R in
  EkfState (s_t b)
    (vector (nth 0 [:: s_north b; s_east b; s_depth b; rad (s_roll b); rad (s_pitch b); rad (s_yaw b);
                    s_vx b; s_vy b; s_vz b; rad (s_vroll b); rad (s_vpitch b); rad (s_vyaw b)])) (s_cov b).

(** ekf.py:1058-1070 *)
Definition build_state (b : synced) : 'cV[R]_DIM :=
  let rad a := a * pi / 180%:R in
  vector (nth 0 [:: s_north b; s_east b; s_depth b; rad (s_roll b); rad (s_pitch b); rad (s_yaw b); s_vx b; s_vy b; s_vz b; 0; 0; 0]).

End Meas.
