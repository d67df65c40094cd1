(** Vocabulary for the frame theorems. *)
From Verif Require Import FramesModel.
Open Scope R_scope.

Definition dot (a b : vec) : R := vx a * vx b + vy a * vy b + vz a * vz b.
Definition norm2 (a : vec) : R := dot a a.
Definition cross (a b : vec) : vec :=
  (vy a * vz b - vz a * vy b, vz a * vx b - vx a * vz b, vx a * vy b - vy a * vx b).
Definition vadd (a b : vec) : vec := (vx a + vx b, vy a + vy b, vz a + vz b).
Definition vscale (k : R) (a : vec) : vec := (k * vx a, k * vy a, k * vz a).
Definition vzero : vec := (0, 0, 0).

(** Elementary rotations (angle in radians), right-handed axes. *)
Definition rot_x (t : R) (v : vec) : vec :=
  (vx v, cos t * vy v - sin t * vz v, sin t * vy v + cos t * vz v).
Definition rot_y (t : R) (v : vec) : vec :=
  (cos t * vx v + sin t * vz v, vy v, - sin t * vx v + cos t * vz v).
Definition rot_z (t : R) (v : vec) : vec :=
  (cos t * vx v - sin t * vy v, sin t * vx v + cos t * vy v, vz v).

Definition degrees_to_radians (d : R) : R := d * PI / 180.

(** Velocity of a point at [r] on a rigid body whose reference point moves with
    [v] and which rotates at [w] (radians per second). *)
Definition point_velocity (v w r : vec) : vec := vadd v (cross w r).
Definition vrad (w : vec) : vec := vscale (PI / 180) w.
