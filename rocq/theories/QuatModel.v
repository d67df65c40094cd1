(** Model of the attitude read from a ROS sensor_msgs/Imu message: auv_nav/tools/transformations.py
    and Orientation.from_ros, over the reals (no rounding). *)
From Coq Require Import Reals Lra.
From Verif Require Import FramesModel EulerModel.
Open Scope R_scope.

(** transformations.py [_EPS] (four times the double precision epsilon). *)
Definition eps : R := 4 / 4503599627370496.

(** The message's orientation: x, y, z, w. *)
Record quat := mkquat { qx : R; qy : R; qz : R; qw : R }.

Definition identity : mat := mkmat 1 0 0 0 1 0 0 0 1.

(** transformations.py:1191-1230 [quaternion_matrix], the 3x3 block; the fourth row and column
    are those of the identity and are dropped by the caller. *)
Definition quaternion_matrix (q : quat) : mat :=
  let nq := qx q * qx q + qy q * qy q + qz q * qz q + qw q * qw q in
  if Rlt_dec nq eps then identity else
  let s := sqrt (2 / nq) in
  let q0 := qx q * s in let q1 := qy q * s in let q2 := qz q * s in let q3 := qw q * s in
  mkmat (1 - q1 * q1 - q2 * q2) (q0 * q1 - q2 * q3) (q0 * q2 + q1 * q3)
        (q0 * q1 + q2 * q3) (1 - q0 * q0 - q2 * q2) (q1 * q2 - q0 * q3)
        (q0 * q2 - q1 * q3) (q1 * q2 + q0 * q3) (1 - q0 * q0 - q1 * q1).

(** transformations.py:1048-1103 [euler_from_matrix] with the default axes "sxyz": first axis 0,
    parity, repetition and frame 0, hence i, j, k = 0, 1, 2. *)
Definition euler_from_matrix (m : mat) : R * R * R :=
  let cy := sqrt (r00 m * r00 m + r10 m * r10 m) in
  if Rlt_dec eps cy
  then (atan2 (r21 m) (r22 m), atan2 (- r20 m) cy, atan2 (r10 m) (r00 m))
  else (atan2 (- r12 m) (r11 m), atan2 (- r20 m) cy, 0).

(** transformations.py:1106-1114. *)
Definition euler_from_quaternion (q : quat) : R * R * R := euler_from_matrix (quaternion_matrix q).

(** numpy.degrees *)
Definition degrees (x : R) : R := x * 180 / PI.

Record attitude := mkatt { a_stamp : R; a_roll : R; a_pitch : R; a_yaw : R; a_roll_std : R; a_pitch_std : R; a_yaw_std : R }.

(** sensors.py:724-741: the Imu case; the covariance is row major, 3x3. *)
Definition read_imu (tz_offset_s stamp : R) (q : quat) (cov : nat -> R) : attitude :=
  let '(r, p, y) := euler_from_quaternion q in
  mkatt (stamp - tz_offset_s) (degrees r) (degrees p) (degrees y)
        (degrees (sqrt (cov 0%nat))) (degrees (sqrt (cov 4%nat))) (degrees (sqrt (cov 8%nat))).

(** sensors.py:631-639 [Orientation.apply_offset]: roll, pitch and yaw are turned as if they were
    the components of a vector. *)
Definition apply_offset (yaw_offset : R) (a : attitude) : attitude :=
  let v := body_to_inertial 0 0 yaw_offset (a_roll a, a_pitch a, a_yaw a) in
  let yaw := vz v in
  let yaw := if Rlt_dec 360 yaw then yaw - 360 else yaw in
  let yaw := if Rlt_dec yaw 0 then yaw + 360 else yaw in
  mkatt (a_stamp a) (vx v) (vy v) yaw (a_roll_std a) (a_pitch_std a) (a_yaw_std a).

(** sensors.py:641-650 [Orientation.apply_std_offset]; the third component goes to a field
    [heading_std] that nothing reads, so [yaw_std] stays. *)
Definition apply_std_offset (yaw_offset : R) (a : attitude) : attitude :=
  let v := body_to_inertial 0 0 yaw_offset (a_roll_std a, a_pitch_std a, a_yaw_std a) in
  mkatt (a_stamp a) (a_roll a) (a_pitch a) (a_yaw a) (vx v) (vy v) (a_yaw_std a).

(** sensors.py:716-755: the Imu case with the two calls that end it. *)
Definition from_ros (yaw_offset tz_offset_s stamp : R) (q : quat) (cov : nat -> R) : attitude :=
  apply_std_offset yaw_offset (apply_offset yaw_offset (read_imu tz_offset_s stamp q cov)).
