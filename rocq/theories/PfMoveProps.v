(** C23: how far a particle moves. *)
From Coq Require Import Reals Lra.
From Verif Require Import FramesModel EulerModel EulerProps QuatModel QuatProps PfMoveModel.
Open Scope R_scope.

(** A particle moves by its body velocity, turned by yaw about z after pitch about y after roll
    about x, times the time. *)
Theorem C23_displacement : forall dt roll pitch yaw v,
  displacement dt roll pitch yaw v = apply (mul (rot_z yaw) (mul (rot_y pitch) (rot_x roll))) (dt * vx v, dt * vy v, dt * vz v).
Proof.
  intros dt r p y [[a b] c]. fold (rotation r p y). rewrite rotation_entries. unfold displacement, apply, vx, vy, vz. cbn [fst snd r00 r01 r02 r10 r11 r12 r20 r21 r22]. f_equal; [f_equal|..]; ring.
Qed.
Print Assumptions C23_displacement.
(** That is the body_to_inertial conversion the rest of the pipeline uses, once the angles are in
    degrees. *)
Theorem C23_same_frame : forall dt roll pitch yaw v,
  displacement dt roll pitch yaw v = (let w := body_to_inertial (degrees roll) (degrees pitch) (degrees yaw) v in (dt * vx w, dt * vy w, dt * vz w)).
Proof.
  intros dt r p y v. rewrite C23_displacement. fold (rotation r p y). rewrite turned_matrix. destruct v as [[a b] c]. unfold apply, vx, vy, vz. cbn [fst snd]. f_equal; [f_equal|..]; ring.
Qed.
Print Assumptions C23_same_frame.
(** Example: heading east (90 degrees) at one metre per second for two seconds. *)
Example C23_ex_displacement : displacement 2 0 0 (PI / 2) (1, 0, 0) = (0, 2, 0).
Proof. unfold displacement. rewrite cos_0, sin_0, cos_PI2, sin_PI2. f_equal; [f_equal|..]; ring. Qed.
