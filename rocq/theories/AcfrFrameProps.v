(** C281/C282: the attitude of the poses read from ACFR files (acfr_stereo_pose.py:204-259, acfr_vehicle_pose.py:177-197, AcfrModel.v) as rotations
    (body_to_inertial.py, FramesModel.v).  Trigonometry over the reals, the angles of the file are rational numbers of degrees. *)
From Coq Require String.
From Coq Require Import QArith Qreals Reals.
From Verif Require Import FramesModel AcfrModel.
From Coq Require Import Lra Psatz.
Open Scope R_scope.

(** ** Specification *)
(** The file's angles "specify the sequence of rotations in XYZ order, that align the navigation frame axes (North, East, Down) with the stereo frame"
    (acfr_stereo_pose.py:60-67): turns about the X, the Y and the Z axis, one after the other.  Angles in degrees. *)
Definition turn_x (a : R) (v : vec) : vec := let c := cos (a * PI / 180) in let s := sin (a * PI / 180) in (vx v, c * vy v - s * vz v, s * vy v + c * vz v).
Definition turn_y (a : R) (v : vec) : vec := let c := cos (a * PI / 180) in let s := sin (a * PI / 180) in (c * vx v + s * vz v, vy v, - s * vx v + c * vz v).
Definition turn_z (a : R) (v : vec) : vec := let c := cos (a * PI / 180) in let s := sin (a * PI / 180) in (c * vx v - s * vy v, s * vx v + c * vy v, vz v).
Definition frame_of (e : entry) (v : vec) : vec := turn_z (Q2R (e_z e)) (turn_y (Q2R (e_y e)) (turn_x (Q2R (e_x e)) v)).
(** A vector of the vehicle, seen from a camera that looks down with the top of the image aft: forward is the bottom of the image, starboard its left. *)
Definition in_stereo (v : vec) : vec := (- vy v, vx v, vz v).
(** What auv_nav makes of a pose. *)
Definition attitude_of (p : pose) (v : vec) : vec := body_to_inertial (Q2R (roll p)) (Q2R (pitch p)) (Q2R (yaw p)) v.
Definition apart2 (a b : vec) : R := (vx a - vx b) ^ 2 + (vy a - vy b) ^ 2 + (vz a - vz b) ^ 2.
Definition length2 (a : vec) : R := vx a ^ 2 + vy a ^ 2 + vz a ^ 2.
Definition level (e : entry) : Prop := (e_x e == 0)%Q \/ (e_y e == 0)%Q.

(** ** Facts *)
Ltac same3 := apply f_equal2; [apply f_equal2|]; ring.
Lemma attitude_turns : forall r p y v, body_to_inertial r p y v = turn_z y (turn_y p (turn_x r v)).
Proof.
  intros r p y [[a b] c]. unfold body_to_inertial, turn_x, turn_y, turn_z, vx, vy, vz, deg_to_rad. cbn [fst snd]. cbv zeta.
  replace (r * (PI / 180)) with (r * PI / 180) by field. replace (p * (PI / 180)) with (p * PI / 180) by field. replace (y * (PI / 180)) with (y * PI / 180) by field.
  same3.
Qed.
Lemma turn_z_add : forall a b v, turn_z (a + b) v = turn_z a (turn_z b v).
Proof.
  intros a b [[x y] z]. unfold turn_z, vx, vy, vz. cbn [fst snd]. replace ((a + b) * PI / 180) with (a * PI / 180 + b * PI / 180) by field.
  rewrite cos_plus, sin_plus. same3.
Qed.
Lemma turn_z_quarter : forall v, turn_z 90 v = in_stereo v.
Proof. intros [[x y] z]. unfold turn_z, in_stereo, vx, vy, vz. cbn [fst snd]. replace (90 * PI / 180) with (PI / 2) by field. rewrite cos_PI2, sin_PI2. same3. Qed.
Lemma quarter_y : forall a v, turn_y a (in_stereo v) = in_stereo (turn_x a v).
Proof. intros a [[x y] z]. unfold turn_x, turn_y, in_stereo, vx, vy, vz. cbn [fst snd]. same3. Qed.
Lemma quarter_x : forall a v, turn_x a (in_stereo v) = in_stereo (turn_y (- a) v).
Proof.
  intros a [[x y] z]. unfold turn_x, turn_y, in_stereo, vx, vy, vz. cbn [fst snd]. replace (- a * PI / 180) with (- (a * PI / 180)) by field.
  rewrite cos_neg, sin_neg. same3.
Qed.
(** What auv_nav reads, and what it would have to read. *)
Lemma camera_turns : forall e v, attitude_of (c_pose (fst (cameras e))) v = turn_z (Q2R (e_z e)) (in_stereo (turn_y (- Q2R (e_x e)) (turn_x (Q2R (e_y e)) v))).
Proof.
  intros e v. unfold attitude_of, cameras. cbn [fst c_pose roll pitch yaw]. rewrite attitude_turns. rewrite Q2R_opp, Q2R_plus.
  replace (Q2R 90) with 90 by (unfold Q2R; cbn; lra). rewrite turn_z_add, turn_z_quarter. reflexivity.
Qed.
Lemma frame_turns : forall e v, frame_of e (in_stereo v) = turn_z (Q2R (e_z e)) (in_stereo (turn_x (Q2R (e_y e)) (turn_y (- Q2R (e_x e)) v))).
Proof. intros e v. unfold frame_of. now rewrite quarter_x, quarter_y. Qed.
Lemma turn_z_apart : forall a u v, apart2 (turn_z a u) (turn_z a v) = apart2 u v.
Proof.
  intros a [[x y] z] [[x' y'] z']. unfold apart2, turn_z, vx, vy, vz. cbn [fst snd]. pose proof (sin2_cos2 (a * PI / 180)) as P. unfold Rsqr in P.
  set (c := cos (a * PI / 180)) in *. set (s := sin (a * PI / 180)) in *.
  replace (c * x - s * y - (c * x' - s * y')) with (c * (x - x') - s * (y - y')) by ring. replace (s * x + c * y - (s * x' + c * y')) with (s * (x - x') + c * (y - y')) by ring.
  replace ((x - x') ^ 2 + (y - y') ^ 2 + (z - z') ^ 2) with ((s * s + c * c) * ((x - x') ^ 2 + (y - y') ^ 2) + (z - z') ^ 2) by (rewrite P; ring). ring.
Qed.
Lemma in_stereo_apart : forall u v, apart2 (in_stereo u) (in_stereo v) = apart2 u v.
Proof. intros u v. unfold apart2, in_stereo, vx, vy, vz. cbn [fst snd]. ring. Qed.
Lemma turn_x_0 : forall v, turn_x 0 v = v.
Proof. intros [[x y] z]. unfold turn_x, vx, vy, vz. cbn [fst snd]. replace (0 * PI / 180) with 0 by field. rewrite cos_0, sin_0. same3. Qed.
Lemma turn_y_0 : forall v, turn_y 0 v = v.
Proof. intros [[x y] z]. unfold turn_y, vx, vy, vz. cbn [fst snd]. replace (0 * PI / 180) with 0 by field. rewrite cos_0, sin_0. same3. Qed.
Lemma q_zero : forall q, (q == 0)%Q -> Q2R q = 0.
Proof. intros q H. apply Qeq_eqR in H. rewrite H. unfold Q2R. cbn. lra. Qed.
Lemma dot_bound : forall a b c x y z : R, (a * x + b * y + c * z) ^ 2 <= (a ^ 2 + b ^ 2 + c ^ 2) * (x ^ 2 + y ^ 2 + z ^ 2).
Proof.
  intros. apply Rminus_le. replace ((a * x + b * y + c * z) ^ 2 - (a ^ 2 + b ^ 2 + c ^ 2) * (x ^ 2 + y ^ 2 + z ^ 2))
    with (- ((a * y - b * x) ^ 2 + (a * z - c * x) ^ 2 + (b * z - c * y) ^ 2)) by ring.
  pose proof (pow2_ge_0 (a * y - b * x)). pose proof (pow2_ge_0 (a * z - c * x)). pose proof (pow2_ge_0 (b * z - c * y)). lra.
Qed.

(** ** C281 *)
(** When the stereo frame is turned about only one of its image axes, the attitude read is that of the stereo frame, turned by a right angle. *)
Theorem C281_stereo : forall e v, level e -> attitude_of (c_pose (fst (cameras e))) v = frame_of e (in_stereo v).
Proof.
  intros e v H. rewrite camera_turns, frame_turns. destruct H as [H|H]; rewrite (q_zero _ H).
  - rewrite Ropp_0. now rewrite !turn_y_0.
  - now rewrite !turn_x_0.
Qed.
Print Assumptions C281_stereo.
(** In general the two differ by less than the product of the turns: with turns of at most 5 degrees, by less than 0.011 of the length. *)
Theorem C281_close : forall e v, let sx := sin (Q2R (e_x e) * PI / 180) in let sy := sin (Q2R (e_y e) * PI / 180) in let cx := cos (Q2R (e_x e) * PI / 180) in let cy := cos (Q2R (e_y e) * PI / 180) in
  apart2 (attitude_of (c_pose (fst (cameras e))) v) (frame_of e (in_stereo v)) <= 2 * ((sx * sy) ^ 2 + (sx * (1 - cy)) ^ 2 + (sy * (1 - cx)) ^ 2) * length2 v.
Proof.
  intros e v sx sy cx cy. rewrite camera_turns, frame_turns, turn_z_apart, in_stereo_apart. destruct v as [[x y] z]. unfold apart2, length2, turn_x, turn_y, vx, vy, vz. cbn [fst snd].
  replace (- Q2R (e_x e) * PI / 180) with (- (Q2R (e_x e) * PI / 180)) by field. rewrite cos_neg, sin_neg. fold sx sy cx cy.
  replace (cx * x + - sx * (sy * y + cy * z) - (cx * x + - sx * z)) with (0 * x + (- (sx * sy)) * y + sx * (1 - cy) * z) by ring.
  replace (cy * y - sy * z - (cy * y - sy * (- - sx * x + cx * z))) with (sx * sy * x + 0 * y + (- (sy * (1 - cx))) * z) by ring.
  replace (- - sx * x + cx * (sy * y + cy * z) - (sy * y + cy * (- - sx * x + cx * z))) with (sx * (1 - cy) * x + (- (sy * (1 - cx))) * y + 0 * z) by ring.
  pose proof (dot_bound 0 (- (sx * sy)) (sx * (1 - cy)) x y z). pose proof (dot_bound (sx * sy) 0 (- (sy * (1 - cx))) x y z).
  pose proof (dot_bound (sx * (1 - cy)) (- (sy * (1 - cx))) 0 x y z).
  eapply Rle_trans; [apply Rplus_le_compat; [apply Rplus_le_compat|]; eassumption|]. right. ring.
Qed.
Print Assumptions C281_close.
(** The direction the camera looks in differs by a term of third order only. *)
Theorem C281_looks : forall e, let sx := sin (Q2R (e_x e) * PI / 180) in let sy := sin (Q2R (e_y e) * PI / 180) in let cx := cos (Q2R (e_x e) * PI / 180) in let cy := cos (Q2R (e_y e) * PI / 180) in
  apart2 (attitude_of (c_pose (fst (cameras e))) (0, 0, 1)) (frame_of e (0, 0, 1)) = (sx * (1 - cy)) ^ 2 + (sy * (1 - cx)) ^ 2.
Proof.
  intros e sx sy cx cy. replace (0, 0, 1) with (in_stereo (0, 0, 1)) at 2 by (unfold in_stereo, vx, vy, vz; cbn [fst snd]; now rewrite Ropp_0).
  rewrite camera_turns, frame_turns, turn_z_apart, in_stereo_apart. unfold apart2, turn_x, turn_y, vx, vy, vz. cbn [fst snd].
  replace (- Q2R (e_x e) * PI / 180) with (- (Q2R (e_x e) * PI / 180)) by field. rewrite cos_neg, sin_neg. fold sx sy cx cy. ring.
Qed.
Print Assumptions C281_looks.
(** A vehicle's pose keeps its heading when it is level. *)
Theorem C281_vehicle : forall e v, (e_x e == 0)%Q -> (e_y e == 0)%Q -> attitude_of (dead_reckoning e) v = frame_of e v.
Proof.
  intros e v X Y. unfold attitude_of, dead_reckoning, frame_of. cbn [roll pitch yaw]. rewrite attitude_turns, Q2R_opp, (q_zero _ X), (q_zero _ Y), Ropp_0. reflexivity.
Qed.
Print Assumptions C281_vehicle.
(** In general it is tilted about the wrong axes: its tilt is that of the file a quarter turn round. *)
Theorem C281_vehicle_tilt : forall e v, level e -> attitude_of (dead_reckoning e) v = turn_z (Q2R (e_z e) - 90) (turn_y (Q2R (e_y e)) (turn_x (Q2R (e_x e)) (turn_z 90 v))).
Proof.
  intros e v L. unfold attitude_of, dead_reckoning. cbn [roll pitch yaw]. rewrite attitude_turns, Q2R_opp. rewrite turn_z_quarter, quarter_x, quarter_y, <- turn_z_quarter, <- turn_z_add.
  replace (Q2R (e_z e) - 90 + 90) with (Q2R (e_z e)) by ring. f_equal. destruct L as [H|H]; rewrite (q_zero _ H); [rewrite Ropp_0; now rewrite !turn_y_0|now rewrite !turn_x_0].
Qed.
Print Assumptions C281_vehicle_tilt.

Definition entry_at (x y z : Q) : entry := mkentry 0 0 0 0 0 0 x y z String.EmptyString String.EmptyString 0.
(** Looking down, top of the image aft, heading north: the file's Z angle is -90. *)
Example north : attitude_of (c_pose (fst (cameras (entry_at 0 0 (-90))))) (1, 0, 0) = (1, 0, 0).
Proof.
  rewrite C281_stereo by (left; reflexivity). unfold frame_of, entry_at. cbn [e_x e_y e_z]. rewrite (q_zero 0) by reflexivity. rewrite turn_y_0, turn_x_0.
  rewrite <- turn_z_quarter, <- turn_z_add. replace (Q2R (-90) + 90) with 0 by (unfold Q2R; cbn; lra). unfold turn_z, vx, vy, vz. cbn [fst snd].
  replace (0 * PI / 180) with 0 by field. rewrite cos_0, sin_0. same3.
Qed.
(** Turned over about its X axis *)
Example upside : attitude_of (c_pose (fst (cameras (entry_at 180 0 0)))) (0, 0, 1) = frame_of (entry_at 180 0 0) (in_stereo (0, 0, 1)).
Proof. apply C281_stereo. right. reflexivity. Qed.

(** ** C282 *)
(** Stereo poses keep their attitude for all turns: not for one about both image axes, where forward is off by the whole length and more. *)
Lemma q90 : Q2R 90 = 90. Proof. unfold Q2R. cbn. lra. Qed.
Lemma c90 : cos (90 * PI / 180) = 0. Proof. replace (90 * PI / 180) with (PI / 2) by field. apply cos_PI2. Qed.
Lemma s90 : sin (90 * PI / 180) = 1. Proof. replace (90 * PI / 180) with (PI / 2) by field. apply sin_PI2. Qed.
Theorem C282_stereo_refuted : exists e v, apart2 (attitude_of (c_pose (fst (cameras e))) v) (frame_of e (in_stereo v)) = 2 * length2 v /\ 0 < length2 v.
Proof.
  exists (entry_at 90 90 0), (1, 0, 0). split; [|unfold length2, vx, vy, vz; cbn [fst snd]; lra].
  rewrite camera_turns, frame_turns, turn_z_apart, in_stereo_apart. unfold entry_at, apart2, length2, turn_x, turn_y, vx, vy, vz. cbn [fst snd e_x e_y]. rewrite q90.
  replace (Ropp 90 * PI / 180) with (- (90 * PI / 180)) by field. rewrite cos_neg, sin_neg, c90, s90. ring.
Qed.
Print Assumptions C282_stereo_refuted.
(** Vehicle poses keep the roll and pitch of the file, whose X angle is the roll (acfr_vehicle_pose.py:53-55): a rolled vehicle becomes a pitched one. *)
Theorem C282_vehicle_refuted : exists e v, (pitch (dead_reckoning e) == - e_x e)%Q /\ (roll (dead_reckoning e) == 0)%Q /\ ~ (e_x e == 0)%Q /\
  apart2 (attitude_of (dead_reckoning e) v) (frame_of e v) = 2 * length2 v /\ 0 < length2 v.
Proof.
  exists (entry_at 90 0 0), (1, 0, 0). split; [reflexivity|]. split; [reflexivity|]. split; [discriminate|]. split; [|unfold length2, vx, vy, vz; cbn [fst snd]; lra].
  unfold attitude_of, dead_reckoning, frame_of. cbn [roll pitch yaw e_x e_y e_z entry_at]. rewrite attitude_turns, Q2R_opp, q90, (q_zero 0) by reflexivity. rewrite turn_y_0, turn_x_0, turn_z_apart.
  unfold apart2, length2, turn_x, turn_y, vx, vy, vz. cbn [fst snd]. replace (Ropp 90 * PI / 180) with (- (90 * PI / 180)) by field. rewrite cos_neg, sin_neg, c90, s90. ring.
Qed.
Print Assumptions C282_vehicle_refuted.
