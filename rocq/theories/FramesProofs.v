From Coq Require Import ZArith.
From Verif Require Import FramesModel FramesSpec.
Open Scope R_scope.

Lemma sc1 t : sin t * sin t + cos t * cos t = 1.
Proof. pose proof (sin2_cos2 t) as H. unfold Rsqr in H. exact H. Qed.

Ltac vdestr := repeat match goal with v : vec |- _ => destruct v as [[? ?] ?] end.
Ltac vunfold := unfold point_velocity, vrad, norm2 in *; unfold dot, rot_x, rot_y, rot_z, vzero in *;
                  unfold vadd in *; unfold cross in *; unfold vscale in *;
                  unfold vx, vy, vz in *; cbn [fst snd] in *.

Lemma vec_eq (a b : vec) : vx a = vx b -> vy a = vy b -> vz a = vz b -> a = b.
Proof. vdestr. vunfold. intros; subst; reflexivity. Qed.

Lemma b2i_composition roll pitch yaw v :
  body_to_inertial roll pitch yaw v =
  rot_z (degrees_to_radians yaw)
    (rot_y (degrees_to_radians pitch) (rot_x (degrees_to_radians roll) v)).
Proof.
  vdestr. unfold body_to_inertial, degrees_to_radians, deg_to_rad.
  replace (roll * (PI / 180)) with (roll * PI / 180) by field.
  replace (pitch * (PI / 180)) with (pitch * PI / 180) by field.
  replace (yaw * (PI / 180)) with (yaw * PI / 180) by field.
  apply vec_eq; vunfold; ring.
Qed.

Lemma rot_x_dot t a b : dot (rot_x t a) (rot_x t b) = dot a b.
Proof.
  destruct a as [[a1 a2] a3], b as [[b1 b2] b3]. vunfold.
  transitivity (a1 * b1 + (sin t * sin t + cos t * cos t) * (a2 * b2 + a3 * b3)); [ring|].
  rewrite sc1. ring.
Qed.
Lemma rot_y_dot t a b : dot (rot_y t a) (rot_y t b) = dot a b.
Proof.
  destruct a as [[a1 a2] a3], b as [[b1 b2] b3]. vunfold.
  transitivity (a2 * b2 + (sin t * sin t + cos t * cos t) * (a1 * b1 + a3 * b3)); [ring|].
  rewrite sc1. ring.
Qed.
Lemma rot_z_dot t a b : dot (rot_z t a) (rot_z t b) = dot a b.
Proof.
  destruct a as [[a1 a2] a3], b as [[b1 b2] b3]. vunfold.
  transitivity (a3 * b3 + (sin t * sin t + cos t * cos t) * (a1 * b1 + a2 * b2)); [ring|].
  rewrite sc1. ring.
Qed.

Lemma b2i_dot roll pitch yaw a b :
  dot (body_to_inertial roll pitch yaw a) (body_to_inertial roll pitch yaw b) = dot a b.
Proof. rewrite !b2i_composition, rot_z_dot, rot_y_dot, rot_x_dot. reflexivity. Qed.

Lemma b2i_norm roll pitch yaw a : norm2 (body_to_inertial roll pitch yaw a) = norm2 a.
Proof. apply b2i_dot. Qed.

Lemma rot_x_cross t a b : rot_x t (cross a b) = cross (rot_x t a) (rot_x t b).
Proof.
  vdestr. pose proof (sc1 t) as H. apply vec_eq; vunfold; set (s := sin t) in *; set (c := cos t) in *.
  - match goal with |- ?l = ?r => replace l with ((s*s+c*c) * l) by (rewrite H; ring) end. ring.
  - ring.
  - ring.
Qed.
Lemma rot_y_cross t a b : rot_y t (cross a b) = cross (rot_y t a) (rot_y t b).
Proof.
  vdestr. pose proof (sc1 t) as H. apply vec_eq; vunfold; set (s := sin t) in *; set (c := cos t) in *.
  - ring.
  - match goal with |- ?l = ?r => replace l with ((s*s+c*c) * l) by (rewrite H; ring) end. ring.
  - ring.
Qed.
Lemma rot_z_cross t a b : rot_z t (cross a b) = cross (rot_z t a) (rot_z t b).
Proof.
  vdestr. pose proof (sc1 t) as H. apply vec_eq; vunfold; set (s := sin t) in *; set (c := cos t) in *.
  - ring.
  - ring.
  - match goal with |- ?l = ?r => replace l with ((s*s+c*c) * l) by (rewrite H; ring) end. ring.
Qed.

Lemma b2i_cross roll pitch yaw a b :
  body_to_inertial roll pitch yaw (cross a b) =
  cross (body_to_inertial roll pitch yaw a) (body_to_inertial roll pitch yaw b).
Proof. rewrite !b2i_composition, rot_x_cross, rot_y_cross, rot_z_cross. reflexivity. Qed.

Lemma b2i_linear roll pitch yaw k a b :
  body_to_inertial roll pitch yaw (vadd (vscale k a) b) =
  vadd (vscale k (body_to_inertial roll pitch yaw a)) (body_to_inertial roll pitch yaw b).
Proof. vdestr. unfold body_to_inertial. apply vec_eq; vunfold; ring. Qed.

Lemma b2i_identity v : body_to_inertial 0 0 0 v = v.
Proof.
  vdestr. unfold body_to_inertial. rewrite Rmult_0_l, sin_0, cos_0. apply vec_eq; vunfold; ring.
Qed.

Lemma sin_turn x : sin ((x + 360) * deg_to_rad) = sin (x * deg_to_rad).
Proof.
  unfold deg_to_rad. replace ((x + 360) * (PI / 180)) with (x * (PI / 180) + 2 * INR 1 * PI) by (simpl; field).
  apply sin_period.
Qed.
Lemma cos_turn x : cos ((x + 360) * deg_to_rad) = cos (x * deg_to_rad).
Proof.
  unfold deg_to_rad. replace ((x + 360) * (PI / 180)) with (x * (PI / 180) + 2 * INR 1 * PI) by (simpl; field).
  apply cos_period.
Qed.

Lemma sin_turns (k : Z) x : sin ((x + 360 * IZR k) * deg_to_rad) = sin (x * deg_to_rad).
Proof.
  assert (P : forall n y, sin ((y + 360 * INR n) * deg_to_rad) = sin (y * deg_to_rad)).
  { induction n as [|n IH]; intro y.
    - simpl. f_equal. ring.
    - rewrite S_INR. replace (y + 360 * (INR n + 1)) with ((y + 360 * INR n) + 360) by ring.
      rewrite sin_turn. apply IH. }
  destruct (Z_le_dec 0 k) as [H|H].
  - rewrite <- (Z2Nat.id k H), <- INR_IZR_INZ. apply P.
  - rewrite <- (P (Z.to_nat (- k)) (x + 360 * IZR k)).
    rewrite INR_IZR_INZ, Z2Nat.id, opp_IZR by (apply Z.opp_nonneg_nonpos, Z.lt_le_incl, Z.nle_gt; exact H).
    f_equal. ring.
Qed.
Lemma cos_turns (k : Z) x : cos ((x + 360 * IZR k) * deg_to_rad) = cos (x * deg_to_rad).
Proof.
  assert (P : forall n y, cos ((y + 360 * INR n) * deg_to_rad) = cos (y * deg_to_rad)).
  { induction n as [|n IH]; intro y.
    - simpl. f_equal. ring.
    - rewrite S_INR. replace (y + 360 * (INR n + 1)) with ((y + 360 * INR n) + 360) by ring.
      rewrite cos_turn. apply IH. }
  destruct (Z_le_dec 0 k) as [H|H].
  - rewrite <- (Z2Nat.id k H), <- INR_IZR_INZ. apply P.
  - rewrite <- (P (Z.to_nat (- k)) (x + 360 * IZR k)).
    rewrite INR_IZR_INZ, Z2Nat.id, opp_IZR by (apply Z.opp_nonneg_nonpos, Z.lt_le_incl, Z.nle_gt; exact H).
    f_equal. ring.
Qed.

Lemma b2i_periodic roll pitch yaw (a b c : Z) v :
  body_to_inertial (roll + 360 * IZR a) (pitch + 360 * IZR b) (yaw + 360 * IZR c) v =
  body_to_inertial roll pitch yaw v.
Proof. unfold body_to_inertial. rewrite !sin_turns, !cos_turns. reflexivity. Qed.

(** * inertial_to_body *)

(** The exact error of the round trip. *)
Definition i2b_defect (roll pitch yaw : R) (w : vec) : R :=
  sin (yaw * deg_to_rad) * sin (pitch * deg_to_rad)
  * (sin (roll * deg_to_rad) - cos (roll * deg_to_rad)) * vy w.

Definition i2b_transpose (roll pitch yaw : R) (w : vec) : vec :=
  rot_x (- degrees_to_radians roll)
    (rot_y (- degrees_to_radians pitch) (rot_z (- degrees_to_radians yaw) w)).

Lemma i2b_vs_transpose roll pitch yaw w :
  inertial_to_body roll pitch yaw w =
  vadd (i2b_transpose roll pitch yaw w) (0, 0, i2b_defect roll pitch yaw w).
Proof.
  vdestr. unfold inertial_to_body, i2b_transpose, i2b_defect, degrees_to_radians, deg_to_rad.
  replace (roll * (PI / 180)) with (roll * PI / 180) by field.
  replace (pitch * (PI / 180)) with (pitch * PI / 180) by field.
  replace (yaw * (PI / 180)) with (yaw * PI / 180) by field.
  apply vec_eq; vunfold; rewrite ?sin_neg, ?cos_neg; ring.
Qed.

Lemma rot_x_inv t v : rot_x (- t) (rot_x t v) = v.
Proof.
  destruct v as [[r r0] r1]. pose proof (sc1 t) as H. apply vec_eq; vunfold; rewrite ?sin_neg, ?cos_neg.
  - ring.
  - transitivity ((sin t * sin t + cos t * cos t) * r0); [ring|rewrite H; ring].
  - transitivity ((sin t * sin t + cos t * cos t) * r1); [ring|rewrite H; ring].
Qed.
Lemma rot_y_inv t v : rot_y (- t) (rot_y t v) = v.
Proof.
  destruct v as [[r r0] r1]. pose proof (sc1 t) as H. apply vec_eq; vunfold; rewrite ?sin_neg, ?cos_neg.
  - transitivity ((sin t * sin t + cos t * cos t) * r); [ring|rewrite H; ring].
  - ring.
  - transitivity ((sin t * sin t + cos t * cos t) * r1); [ring|rewrite H; ring].
Qed.
Lemma rot_z_inv t v : rot_z (- t) (rot_z t v) = v.
Proof.
  destruct v as [[r r0] r1]. pose proof (sc1 t) as H. apply vec_eq; vunfold; rewrite ?sin_neg, ?cos_neg.
  - transitivity ((sin t * sin t + cos t * cos t) * r); [ring|rewrite H; ring].
  - transitivity ((sin t * sin t + cos t * cos t) * r0); [ring|rewrite H; ring].
  - ring.
Qed.

Lemma round_trip_defect roll pitch yaw v :
  inertial_to_body roll pitch yaw (body_to_inertial roll pitch yaw v) =
  vadd v (0, 0, i2b_defect roll pitch yaw (body_to_inertial roll pitch yaw v)).
Proof.
  rewrite i2b_vs_transpose. f_equal. unfold i2b_transpose. rewrite b2i_composition.
  rewrite rot_z_inv, rot_y_inv, rot_x_inv. reflexivity.
Qed.

Lemma round_trip_iff roll pitch yaw v :
  inertial_to_body roll pitch yaw (body_to_inertial roll pitch yaw v) = v <->
  sin (yaw * deg_to_rad) = 0 \/ sin (pitch * deg_to_rad) = 0 \/
  sin (roll * deg_to_rad) = cos (roll * deg_to_rad) \/
  vy (body_to_inertial roll pitch yaw v) = 0.
Proof.
  rewrite round_trip_defect. split; intro H.
  - assert (K : vz (vadd v (0, 0, i2b_defect roll pitch yaw (body_to_inertial roll pitch yaw v))) = vz v)
      by (rewrite H; reflexivity).
    vunfold. unfold i2b_defect, vy in K. cbn [fst snd] in K.
    match type of K with _ + ?d = _ => assert (D : d = 0) by lra end.
    apply Rmult_integral in D as [D|D]; [|now right; right; right].
    apply Rmult_integral in D as [D|D].
    + apply Rmult_integral in D as [D|D]; [now left|now right; left].
    + right; right; left. lra.
  - assert (D : i2b_defect roll pitch yaw (body_to_inertial roll pitch yaw v) = 0).
    { unfold i2b_defect. destruct H as [H|[H|[H|H]]]; rewrite H; ring. }
    rewrite D. destruct v as [[? ?] ?]. apply vec_eq; vunfold; ring.
Qed.

Lemma rad90 : 90 * deg_to_rad = PI / 2.
Proof. unfold deg_to_rad. field. Qed.

Lemma round_trip_witness :
  inertial_to_body 0 90 90 (body_to_inertial 0 90 90 (0, 0, 1)) = (0, 0, 0).
Proof.
  rewrite round_trip_defect. unfold i2b_defect, body_to_inertial.
  rewrite Rmult_0_l, rad90, sin_0, cos_0, sin_PI2, cos_PI2.
  apply vec_eq; vunfold; ring.
Qed.

(** * lever arm *)

Lemma lever_arm_formula v w r :
  correct_lever_arm v w r = point_velocity v (vrad w) r.
Proof.
  vdestr. unfold correct_lever_arm, deg_to_rad. apply vec_eq; vunfold; ring.
Qed.

Lemma lever_arm_doubles v w r :
  correct_lever_arm (point_velocity v (vrad w) r) w r =
  vadd v (vscale 2 (cross (vrad w) r)).
Proof. rewrite lever_arm_formula. vdestr. apply vec_eq; vunfold; ring. Qed.

Lemma lever_arm_negated v w r :
  correct_lever_arm (point_velocity v (vrad w) r) w (vscale (-1) r) = v.
Proof. rewrite lever_arm_formula. vdestr. apply vec_eq; vunfold; ring. Qed.

Lemma lever_arm_orthogonal v w r :
  dot (vadd (correct_lever_arm v w r) (vscale (-1) v)) (vrad w) = 0 /\
  dot (vadd (correct_lever_arm v w r) (vscale (-1) v)) r = 0.
Proof. rewrite lever_arm_formula. vdestr. split; vunfold; ring. Qed.

Lemma lever_arm_no_rotation v r : correct_lever_arm v vzero r = v.
Proof. rewrite lever_arm_formula. vdestr. apply vec_eq; vunfold; ring. Qed.
Lemma lever_arm_no_lever v w : correct_lever_arm v w vzero = v.
Proof. rewrite lever_arm_formula. vdestr. apply vec_eq; vunfold; ring. Qed.

Lemma lever_arm_witness :
  let measured := point_velocity vzero (vrad (0, 0, 180)) (1, 0, 0) in
  measured = (0, PI, 0) /\
  correct_lever_arm measured (0, 0, 180) (1, 0, 0) = (0, 2 * PI, 0).
Proof.
  cbn zeta. split.
  - apply vec_eq; vunfold; field.
  - rewrite lever_arm_doubles. apply vec_eq; vunfold; field.
Qed.
