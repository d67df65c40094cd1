(** C05-C07: frame conversions and lever arm, over the reals
    (tools/body_to_inertial.py, tools/inertial_to_body.py, tools/dvl_level_arm.py). *)
From Coq Require Import ZArith.
From Verif Require Import FramesModel FramesSpec FramesProofs.
Open Scope R_scope.

(** ** C05 *)
Theorem C05_yaw_after_pitch_after_roll : forall roll pitch yaw v,
  body_to_inertial roll pitch yaw v =
  rot_z (degrees_to_radians yaw)
    (rot_y (degrees_to_radians pitch) (rot_x (degrees_to_radians roll) v)).
Proof. exact b2i_composition. Qed.
Print Assumptions C05_yaw_after_pitch_after_roll.

Theorem C05_preserves_length : forall roll pitch yaw v,
  norm2 (body_to_inertial roll pitch yaw v) = norm2 v.
Proof. exact b2i_norm. Qed.
Print Assumptions C05_preserves_length.

Theorem C05_preserves_dot : forall roll pitch yaw a b,
  dot (body_to_inertial roll pitch yaw a) (body_to_inertial roll pitch yaw b) = dot a b.
Proof. exact b2i_dot. Qed.
Print Assumptions C05_preserves_dot.

Theorem C05_preserves_orientation : forall roll pitch yaw a b,
  body_to_inertial roll pitch yaw (cross a b) =
  cross (body_to_inertial roll pitch yaw a) (body_to_inertial roll pitch yaw b).
Proof. exact b2i_cross. Qed.
Print Assumptions C05_preserves_orientation.

Theorem C05_linear : forall roll pitch yaw k a b,
  body_to_inertial roll pitch yaw (vadd (vscale k a) b) =
  vadd (vscale k (body_to_inertial roll pitch yaw a)) (body_to_inertial roll pitch yaw b).
Proof. exact b2i_linear. Qed.
Print Assumptions C05_linear.

Theorem C05_identity_when_level : forall v, body_to_inertial 0 0 0 v = v.
Proof. exact b2i_identity. Qed.
Print Assumptions C05_identity_when_level.

Theorem C05_whole_turns_do_not_matter : forall roll pitch yaw (a b c : Z) v,
  body_to_inertial (roll + 360 * IZR a) (pitch + 360 * IZR b) (yaw + 360 * IZR c) v =
  body_to_inertial roll pitch yaw v.
Proof. exact b2i_periodic. Qed.
Print Assumptions C05_whole_turns_do_not_matter.

(** Heading 90 degrees turns surge into east. *)
Example C05_example : body_to_inertial 0 0 90 (1, 0, 0) = (0, 1, 0).
Proof.
  unfold body_to_inertial. rewrite Rmult_0_l, rad90, sin_0, cos_0, sin_PI2, cos_PI2.
  apply vec_eq; vunfold; ring.
Qed.

(** ** C06.  The full statement
    [forall roll pitch yaw v, inertial_to_body .. (body_to_inertial .. v) = v]
    is false of the code: inertial_to_body.py:70 has [sy*sp*sr] where the
    transpose has [sy*sp*cr]. *)
Theorem C106_round_trip_refuted : exists roll pitch yaw v,
  inertial_to_body roll pitch yaw (body_to_inertial roll pitch yaw v) <> v.
Proof.
  exists 0, 90, 90, (0, 0, 1). rewrite round_trip_witness. intro H. injection H. lra.
Qed.
Print Assumptions C106_round_trip_refuted.

(** Exactly when it holds. *)
Theorem C06_round_trip : forall roll pitch yaw v,
  inertial_to_body roll pitch yaw (body_to_inertial roll pitch yaw v) = v <->
  sin (yaw * deg_to_rad) = 0 \/ sin (pitch * deg_to_rad) = 0 \/
  sin (roll * deg_to_rad) = cos (roll * deg_to_rad) \/
  vy (body_to_inertial roll pitch yaw v) = 0.
Proof. exact round_trip_iff. Qed.
Print Assumptions C06_round_trip.

(** The first two components always come back; only the third is affected. *)
Theorem C06_horizontal_round_trip : forall roll pitch yaw v,
  vx (inertial_to_body roll pitch yaw (body_to_inertial roll pitch yaw v)) = vx v /\
  vy (inertial_to_body roll pitch yaw (body_to_inertial roll pitch yaw v)) = vy v.
Proof. intros. rewrite round_trip_defect. destruct v as [[? ?] ?]. vunfold. split; ring. Qed.
Print Assumptions C06_horizontal_round_trip.

Example C06_example : forall yaw v,
  inertial_to_body 30 0 yaw (body_to_inertial 30 0 yaw v) = v.
Proof. intros. apply C06_round_trip. right; left. rewrite Rmult_0_l. apply sin_0. Qed.

(** ** C07 *)
Theorem C07_adds_rotation_cross_arm : forall v w r,
  correct_lever_arm v w r = vadd v (cross (vrad w) r).
Proof. exact lever_arm_formula. Qed.
Print Assumptions C07_adds_rotation_cross_arm.

Theorem C07_no_rotation : forall v r, correct_lever_arm v vzero r = v.
Proof. exact lever_arm_no_rotation. Qed.
Print Assumptions C07_no_rotation.

Theorem C07_no_arm : forall v w, correct_lever_arm v w vzero = v.
Proof. exact lever_arm_no_lever. Qed.
Print Assumptions C07_no_arm.

Theorem C07_orthogonal : forall v w r,
  dot (vadd (correct_lever_arm v w r) (vscale (-1) v)) (vrad w) = 0 /\
  dot (vadd (correct_lever_arm v w r) (vscale (-1) v)) r = 0.
Proof. exact lever_arm_orthogonal. Qed.
Print Assumptions C07_orthogonal.

Theorem C07_opposite_arm_undoes : forall v w r,
  correct_lever_arm (correct_lever_arm v w r) w (vscale (-1) r) = v.
Proof. intros. rewrite (lever_arm_formula v w r). apply lever_arm_negated. Qed.
Print Assumptions C07_opposite_arm_undoes.

(** Rigid-body transfer.  A DVL mounted at [r] on a vehicle whose centre moves
    with [v] while rotating at [w] measures [v + w x r].  The corrected velocity
    should be the centre's, [v]; process.py:859-866 passes the DVL's position
    on the vehicle as lever arm, and the correction then doubles the lever-arm
    term instead of removing it. *)
Theorem C107_centre_velocity_refuted : exists v w r,
  correct_lever_arm (point_velocity v (vrad w) r) w r <> v.
Proof.
  exists vzero, (0, 0, 180), (1, 0, 0). destruct lever_arm_witness as [_ H]. rewrite H.
  intro K. injection K. intro. pose proof PI_RGT_0. lra.
Qed.
Print Assumptions C107_centre_velocity_refuted.

Theorem C107_lever_arm_term_doubled : forall v w r,
  correct_lever_arm (point_velocity v (vrad w) r) w r =
  vadd v (vscale 2 (cross (vrad w) r)).
Proof. exact lever_arm_doubles. Qed.
Print Assumptions C107_lever_arm_term_doubled.

(** With the arm from the DVL to the centre the transfer is exact. *)
Theorem C07_centre_velocity : forall v w r,
  correct_lever_arm (point_velocity v (vrad w) r) w (vscale (-1) r) = v.
Proof. exact lever_arm_negated. Qed.
Print Assumptions C07_centre_velocity.

Example C07_example : (* vehicle spinning on the spot, DVL one metre ahead *)
  correct_lever_arm (0, PI, 0) (0, 0, 180) (1, 0, 0) = (0, 2 * PI, 0) /\
  correct_lever_arm (0, PI, 0) (0, 0, 180) (-1, 0, 0) = (0, 0, 0).
Proof. unfold correct_lever_arm, deg_to_rad. split; apply vec_eq; vunfold; field. Qed.

(** ** C63 Rotating a standard deviation like a velocity (process.py:884-895)
    can make it negative. *)
Theorem C163_nonnegative_refuted : exists roll pitch yaw sx sy sz,
  0 <= sx /\ 0 <= sy /\ 0 <= sz /\
  vx (body_to_inertial roll pitch yaw (sx, sy, sz)) < 0.
Proof.
  exists 0, 0, 90, 1, 1, 1. repeat (split; [lra|]).
  unfold body_to_inertial. rewrite Rmult_0_l, rad90, sin_0, cos_0, sin_PI2, cos_PI2.
  vunfold. lra.
Qed.
Print Assumptions C163_nonnegative_refuted.

(** A vehicle with zero heading, roll and pitch keeps them nonnegative. *)
Theorem C63_level_north : forall sx sy sz,
  0 <= sx -> 0 <= sy -> 0 <= sz ->
  body_to_inertial 0 0 0 (sx, sy, sz) = (sx, sy, sz).
Proof. intros. apply b2i_identity. Qed.
Print Assumptions C63_level_north.
(** Whatever the attitude, the three together keep their size. *)
Theorem C63_norm : forall roll pitch yaw s, norm2 (body_to_inertial roll pitch yaw s) = norm2 s.
Proof. exact b2i_norm. Qed.
Print Assumptions C63_norm.
(** A level vehicle: the down deviation is kept, and the others are not negative exactly for the headings below. *)
Theorem C63_level : forall yaw sx sy sz, let c := cos (degrees_to_radians yaw) in let s := sin (degrees_to_radians yaw) in
  let r := body_to_inertial 0 0 yaw (sx, sy, sz) in
  vz r = sz /\ (0 <= vx r <-> s * sy <= c * sx) /\ (0 <= vy r <-> - (c * sy) <= s * sx) /\
  (* against the variances of a rotated vector of independent components *)
  vx r * vx r = (c * c * (sx * sx) + s * s * (sy * sy)) - 2 * (s * c) * (sx * sy) /\
  vy r * vy r = (s * s * (sx * sx) + c * c * (sy * sy)) + 2 * (s * c) * (sx * sy).
Proof.
  intros yaw sx sy sz c s r. assert (r = (c * sx - s * sy, s * sx + c * sy, sz)) as ->.
  { unfold r. rewrite b2i_composition. unfold c, s, degrees_to_radians. replace (0 * PI / 180) with 0 by lra. unfold rot_x, rot_y, rot_z. rewrite ?sin_0, ?cos_0. apply vec_eq; vunfold; ring. }
  vunfold. repeat split; intros; try lra; ring.
Qed.
Print Assumptions C63_level.
(** Heading 45 degrees, deviations 0.3 and 0.1: all positive. *)
Example C63_example : vx (body_to_inertial 0 0 45 (0.3, 0.1, 0.1)) > 0 /\ vy (body_to_inertial 0 0 45 (0.3, 0.1, 0.1)) > 0.
Proof.
  unfold body_to_inertial. replace (45 * deg_to_rad) with (PI / 4) by (unfold deg_to_rad; lra). rewrite Rmult_0_l, sin_0, cos_0, sin_PI4, cos_PI4. vunfold.
  assert (0 < 1 / sqrt 2) by (apply Rdiv_lt_0_compat; [lra|apply sqrt_lt_R0; lra]). split; nra.
Qed.
