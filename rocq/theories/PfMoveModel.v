(** Model of the matrix product in the particles' motion: pf.py:200-219, over the reals. *)
From Coq Require Import Reals.
From Verif Require Import FramesModel.
Open Scope R_scope.

(** pf.py:200-216: rows X, Y, Z of [f] without the identity's ones, times the velocities; angles in
    radians. *)
Definition displacement (dt roll pitch yaw : R) (v : vec) : vec :=
  let cr := cos roll in let sr := sin roll in
  let cp := cos pitch in let sp := sin pitch in
  let cy := cos yaw in let sy := sin yaw in
  let '(vx, vy, vz) := v in
  (cy * cp * dt * vx + (cy * sp * sr - sy * cr) * dt * vy + (cy * sp * cr + sy * sr) * dt * vz,
   sy * cp * dt * vx + (sy * sp * sr + cy * cr) * dt * vy + (sy * sp * cr - cy * sr) * dt * vz,
   - sp * dt * vx + cp * sr * dt * vy + cp * cr * dt * vz).
