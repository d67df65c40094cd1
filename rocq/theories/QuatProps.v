(** C79: the attitude read from a ROS Imu quaternion. *)
From Coq Require Import Reals Lra Psatz.
From Verif Require Import FramesModel FramesProps EulerModel EulerProps QuatModel.
Open Scope R_scope.

(** ** Specification: the rotation q v q^-1 with Hamilton's product *)
Definition hamilton (a b : quat) : quat := mkquat
  (qw a * qx b + qx a * qw b + qy a * qz b - qz a * qy b)
  (qw a * qy b - qx a * qz b + qy a * qw b + qz a * qx b)
  (qw a * qz b + qx a * qy b - qy a * qx b + qz a * qw b)
  (qw a * qw b - qx a * qx b - qy a * qy b - qz a * qz b).
Definition norm2 (q : quat) : R := qx q * qx q + qy q * qy q + qz q * qz q + qw q * qw q.
Definition inverse (q : quat) : quat := mkquat (- qx q / norm2 q) (- qy q / norm2 q) (- qz q / norm2 q) (qw q / norm2 q).
Definition rotate (q : quat) (v : vec) : vec :=
  let r := hamilton (hamilton q (mkquat (vx v) (vy v) (vz v) 0)) (inverse q) in (qx r, qy r, qz r).
Definition scale (k : R) (q : quat) : quat := mkquat (k * qx q) (k * qy q) (k * qz q) (k * qw q).
(** A vector turned by the attitude as the rest of the program does. *)
Definition turned (a : attitude) (v : vec) : vec := body_to_inertial (a_roll a) (a_pitch a) (a_yaw a) v.
(** The horizontal part of the nose's direction: 0 when the vehicle points straight up or down. *)
Definition nose (q : quat) : R := let v := rotate q (1, 0, 0) in sqrt (vx v * vx v + vy v * vy v).

(** ** Matrix *)
Definition apply (m : mat) (v : vec) : vec := let '(x, y, z) := v in
  (r00 m * x + r01 m * y + r02 m * z, r10 m * x + r11 m * y + r12 m * z, r20 m * x + r21 m * y + r22 m * z).
(** Four times the precision of a double, 2^-52. *)
Definition limit : R := 4 / 4503599627370496.
Lemma eps_pos : 0 < eps. Proof. unfold eps. lra. Qed.
Lemma eps_small : eps < 1 / 1000000. Proof. unfold eps. lra. Qed.
Ltac fields := cbn [r00 r01 r02 r10 r11 r12 r20 r21 r22 qx qy qz qw].
Lemma matrix_homog : forall q, eps <= norm2 q -> let n := norm2 q in quaternion_matrix q = mkmat
  (1 - 2 * (qy q * qy q + qz q * qz q) / n) (2 * (qx q * qy q - qz q * qw q) / n) (2 * (qx q * qz q + qy q * qw q) / n)
  (2 * (qx q * qy q + qz q * qw q) / n) (1 - 2 * (qx q * qx q + qz q * qz q) / n) (2 * (qy q * qz q - qx q * qw q) / n)
  (2 * (qx q * qz q - qy q * qw q) / n) (2 * (qy q * qz q + qx q * qw q) / n) (1 - 2 * (qx q * qx q + qy q * qy q) / n).
Proof.
  intros q H n. pose proof eps_pos. unfold quaternion_matrix. fold (norm2 q). fold n in H |- *. destruct (Rlt_dec n eps) as [L|_]; [lra|].
  assert (sqrt (2 / n) * sqrt (2 / n) = 2 / n) as S by (apply sqrt_sqrt; unfold Rdiv; apply Rmult_le_pos; [lra|]; apply Rlt_le, Rinv_0_lt_compat; lra).
  set (s := sqrt (2 / n)) in *. assert (forall a b, a * s * (b * s) = 2 * (a * b) / n) as E by (intros a b; replace (a * s * (b * s)) with (a * b * (s * s)) by ring; rewrite S; field; lra).
  rewrite !E. f_equal; field; lra.
Qed.
Lemma apply_rotate : forall q v, eps <= norm2 q -> apply (quaternion_matrix q) v = rotate q v.
Proof.
  intros q [[x y] z] H. rewrite matrix_homog by exact H. pose proof eps_pos. assert (norm2 q <> 0) as N by lra. destruct q as [a b c d].
  unfold rotate, apply, hamilton, inverse, vx, vy, vz. fields. cbn [fst snd]. unfold norm2 in *. cbn [qx qy qz qw] in *. f_equal; [f_equal|]; field; exact N.
Qed.
(** The facts about rotation matrices the extraction needs. *)
Definition special (m : mat) : Prop :=
  r01 m = r12 m * r20 m - r10 m * r22 m /\ r02 m = r10 m * r21 m - r11 m * r20 m /\
  r11 m = r00 m * r22 m - r02 m * r20 m /\ r12 m = r01 m * r20 m - r00 m * r21 m /\
  r00 m * r00 m + r10 m * r10 m + r20 m * r20 m = 1 /\ r20 m * r20 m + r21 m * r21 m + r22 m * r22 m = 1 /\
  r10 m * r10 m + r11 m * r11 m + r12 m * r12 m = 1.
Lemma matrix_special : forall q, special (quaternion_matrix q).
Proof.
  intros q. pose proof eps_pos. destruct (Rlt_dec (norm2 q) eps) as [L|L].
  - unfold quaternion_matrix. fold (norm2 q). destruct (Rlt_dec _ _); [|lra]. unfold special, identity. fields. lra.
  - rewrite matrix_homog by lra. assert (norm2 q <> 0) as N by lra. destruct q as [a b c d]. unfold special, norm2 in *. fields. cbn [qx qy qz qw] in N.
    repeat split; field; exact N.
Qed.
Lemma turned_matrix : forall r p y v, body_to_inertial (degrees r) (degrees p) (degrees y) v = apply (rotation r p y) v.
Proof.
  intros r p y [[a b] c]. unfold body_to_inertial, degrees, deg_to_rad. assert (PI <> 0) as N by apply PI_neq0.
  assert (forall t, t * 180 / PI * (PI / 180) = t) as E by (intros t; field; exact N). rewrite !E, rotation_entries. unfold apply. fields. f_equal; [f_equal|..]; ring.
Qed.
Definition remade (m : mat) : mat := let '(r, p, y) := euler_from_matrix m in rotation r p y.
Lemma pitch_exact : forall m, special m -> let cy := sqrt (r00 m * r00 m + r10 m * r10 m) in
  0 <= cy /\ cy * cy = r00 m * r00 m + r10 m * r10 m /\ cos (atan2 (- r20 m) cy) = cy /\ sin (atan2 (- r20 m) cy) = - r20 m.
Proof.
  intros m (_ & _ & _ & _ & A & _) cy. assert (cy * cy = r00 m * r00 m + r10 m * r10 m) as C by (apply sqrt_sqrt; nra). split; [apply sqrt_pos|]. split; [exact C|].
  apply atan2_unit. rewrite C. lra.
Qed.
Lemma special_rotation : forall m, special m -> let cy := sqrt (r00 m * r00 m + r10 m * r10 m) in 0 < cy ->
  m = rotation (atan2 (r21 m) (r22 m)) (atan2 (- r20 m) cy) (atan2 (r10 m) (r00 m)).
Proof.
  intros m P cy C. destruct (pitch_exact m P) as (_ & CC & CP & SP). fold cy in CC, CP, SP. destruct P as (E01 & E02 & E11 & E12 & C0 & R2 & R1).
  destruct (atan2_dir (r22 m) (r21 m) cy C) as [CR SR]; [lra|]. destruct (atan2_dir (r00 m) (r10 m) cy C) as [CY SY]; [lra|].
  rewrite rotation_entries, CP, SP, CR, SR, CY, SY. set (k := cy) in *. clearbody k. destruct m as [a00 a01 a02 a10 a11 a12 a20 a21 a22]. fields. cbn [r00 r01 r02 r10 r11 r12 r20 r21 r22] in *.
  assert (k <> 0) as N by lra. assert (forall x y, x * (k * k) = y -> x = y / (k * k)) as D by (intros x y <-; field; exact N).
  assert (k * k = 1 - a20 * a20) as K by lra.
  assert (a01 = a21 / k * - a20 * (a00 / k) - a22 / k * (a10 / k)) as F01.
  { replace (_ - _) with ((- a21 * a20 * a00 - a22 * a10) / (k * k)) by (field; exact N). apply D. rewrite K. pose proof (f_equal (Rmult a20) E12). lra. }
  assert (a02 = a22 / k * - a20 * (a00 / k) + a21 / k * (a10 / k)) as F02.
  { replace (_ + _) with ((- a22 * a20 * a00 + a21 * a10) / (k * k)) by (field; exact N). apply D. rewrite K. pose proof (f_equal (Rmult a20) E11). lra. }
  assert (a11 = a21 / k * - a20 * (a10 / k) + a22 / k * (a00 / k)) as F11.
  { replace (_ + _) with ((- a21 * a20 * a10 + a22 * a00) / (k * k)) by (field; exact N). apply D. rewrite K. pose proof (f_equal (Rmult a20) E02). lra. }
  assert (a12 = a22 / k * - a20 * (a10 / k) - a21 / k * (a00 / k)) as F12.
  { replace (_ - _) with ((- a22 * a20 * a10 - a21 * a00) / (k * k)) by (field; exact N). apply D. rewrite K. pose proof (f_equal (Rmult a20) E01). lra. }
  f_equal; try assumption; try (field; exact N); ring.
Qed.
(** Pointing straight up or down. *)
Lemma special_gimbal : forall m, special m -> let cy := sqrt (r00 m * r00 m + r10 m * r10 m) in cy = 0 ->
  m = rotation (atan2 (- r12 m) (r11 m)) (atan2 (- r20 m) cy) 0.
Proof.
  intros m P cy C. destruct (pitch_exact m P) as (_ & CC & CP & SP). fold cy in CC, CP, SP. destruct P as (E01 & E02 & E11 & E12 & C0 & R2 & R1). rewrite C in CC.
  assert (r00 m = 0) as Z0 by nra. assert (r10 m = 0) as Z1 by nra. destruct (atan2_unit (r11 m) (- r12 m)) as [A B]; [rewrite Z1 in R1; lra|].
  rewrite rotation_entries, CP, SP, A, B, cos_0, sin_0, C. destruct m as [a00 a01 a02 a10 a11 a12 a20 a21 a22]. fields. cbn [r00 r01 r02 r10 r11 r12 r20 r21 r22] in *. subst a00 a10.
  assert (a21 = 0) as -> by nra. assert (a22 = 0) as -> by nra. f_equal; try ring; lra.
Qed.
(** Close to it: nothing changes by more than twice [eps]. *)
Lemma special_near : forall m i, special m -> Rabs (entry (remade m) i - entry m i) <= 2 * eps.
Proof.
  intros m i P. pose proof eps_pos as EP. pose proof eps_small as ES. unfold remade, euler_from_matrix. destruct (pitch_exact m P) as (C0 & CC & CP & SP). set (cy := sqrt _) in *. destruct (Rlt_dec eps cy) as [L|L].
  { unfold cy. rewrite <- (special_rotation m P) by (fold cy; lra). rewrite Rminus_diag_eq by reflexivity. rewrite Rabs_R0. lra. }
  destruct (Req_dec cy 0) as [Z|Z].
  { unfold cy. rewrite <- (special_gimbal m P) by exact Z. rewrite Rminus_diag_eq by reflexivity. rewrite Rabs_R0. lra. }
  pose proof (special_rotation m P) as E. cbv zeta in E. fold cy in E. specialize (E ltac:(lra)). set (p := atan2 (r21 m) (r22 m)) in E. set (f := atan2 (r10 m) (r00 m)) in E. set (t := atan2 (- r20 m) cy) in *.
  clearbody p f. assert (r12 m = cos p * sin t * sin f - sin p * cos f /\ r11 m = sin p * sin t * sin f + cos p * cos f) as [M12 M11] by (rewrite rotation_entries in E; rewrite E; split; reflexivity).
  rewrite M12, M11. rewrite E. clearbody t cy. clear E M12 M11 P SP CC. rewrite !rotation_entries. rewrite CP, cos_0, sin_0.
  pose proof (sin2_cos2 t) as T. pose proof (sin2_cos2 p) as P. pose proof (sin2_cos2 f) as F. unfold Rsqr in *. rewrite CP in T.
  set (x := sin p * sin t * sin f + cos p * cos f) in *. set (y := cos p * sin t * sin f - sin p * cos f) in *.
  assert (x * x + - y * - y = 1 - cy * cy * (sin f * sin f)) as E.
  { unfold x, y. replace (_ + _) with ((sin p * sin p + cos p * cos p) * ((sin t * sin t) * (sin f * sin f) + cos f * cos f)) by ring. rewrite P.
    replace (sin t * sin t) with (1 - cy * cy) by lra. replace (cos f * cos f) with (1 - sin f * sin f) by lra. ring. }
  assert (0 < cy <= eps) as CE by lra. assert (0 <= cy * cy <= eps * (1 / 1000000)) as C2 by nra. assert (0 <= sin f * sin f <= 1) as SF by nra.
  assert (0 <= cy * cy * (sin f * sin f) <= eps * (1 / 1000000)) as C3 by nra.
  assert (exists n, 0 < n <= 1 /\ x * x + - y * - y = n * n /\ 1 - n <= eps / 2) as (n & N & EN & N1).
  { exists (sqrt (x * x + - y * - y)). assert (sqrt (x * x + - y * - y) * sqrt (x * x + - y * - y) = x * x + - y * - y) as Q by (apply sqrt_sqrt; lra).
    assert (0 < sqrt (x * x + - y * - y)) as Q0 by (apply sqrt_lt_R0; lra). set (n := sqrt _) in *. split; [split; nra|]. split; [lra|]. nra. }
  destruct (atan2_dir x (- y) n (proj1 N) EN) as [A1 A2]. rewrite A1, A2. clear A1 A2.
  pose proof (normalise x n N (comp_bound x (- y) n (proj1 N) EN)) as NX. pose proof (normalise (- y) n N (comp_bound (- y) x n (proj1 N) ltac:(lra))) as NY.
  assert (-1 <= x / n <= 1) as BX by (pose proof (comp_bound x (- y) n (proj1 N) EN); assert (x / n * n = x) by (field; lra); split; nra).
  assert (-1 <= - y / n <= 1) as BY by (pose proof (comp_bound (- y) x n (proj1 N) ltac:(lra)); assert (- y / n * n = - y) by (field; lra); split; nra).
  pose proof (SIN_bound t) as ST. pose proof (SIN_bound p) as Sp. pose proof (COS_bound p) as Cp. pose proof (SIN_bound f) as Sf. pose proof (COS_bound f) as Cf.
  assert (- eps <= cy <= eps) as CE' by lra.
  pose proof (abs_prod _ _ _ Cf CE') as K1. pose proof (abs_prod _ _ _ Sf CE') as K2. pose proof (abs_prod _ _ _ Sp CE') as K3. pose proof (abs_prod _ _ _ Cp CE') as K4. pose proof (abs_prod _ _ _ BX CE') as K5. pose proof (abs_prod _ _ _ BY CE') as K6.
  assert (- (eps / 2) <= (x / n - x) * sin t <= eps / 2) as G1 by (apply abs_prod; lra). assert (- (eps / 2) <= (- y / n - - y) * sin t <= eps / 2) as G2 by (apply abs_prod; lra).
  assert (- eps <= x * sin t - (cos p * sin t * cos f + sin p * sin f) <= eps) as H1.
  { replace (_ - _) with (- (cy * cy) * sin p * sin f) by (replace (cy * cy) with (1 - sin t * sin t) by lra; unfold x; ring). apply abs_prod; [lra|]. apply abs_prod; [lra|]. nra. }
  assert (- eps <= - y * sin t - (sin p * sin t * cos f - cos p * sin f) <= eps) as H2.
  { replace (_ - _) with ((cy * cy) * cos p * sin f) by (replace (cy * cy) with (1 - sin t * sin t) by lra; unfold y; ring). apply abs_prod; [lra|]. apply abs_prod; [lra|]. nra. }
  apply Rabs_le. destruct i as [|[|[|[|[|[|[|[|i]]]]]]]]; cbn [entry r00 r01 r02 r10 r11 r12 r20 r21 r22]; lra.
Qed.

(** Ranges of the angles. *)
Lemma atan2_range : forall y x, - PI <= atan2 y x <= PI.
Proof.
  intros y x. pose proof PI_RGT_0. unfold atan2. pose proof (atan_bound (y / x)) as B. destruct (Rlt_dec 0 x); [lra|]. destruct (Rlt_dec x 0) as [X|X].
  - destruct (Rle_dec 0 y) as [Y|Y].
    + assert (/ x < 0) as IX by (now apply Rinv_lt_0_compat). assert (y / x <= 0) as Q by (unfold Rdiv; nra). destruct Q as [Q|Q]; [apply atan_increasing in Q; rewrite atan_0 in Q; lra|rewrite Q, atan_0; lra].
    + assert (/ x < 0) as IX by (now apply Rinv_lt_0_compat). assert (0 < y / x) as Q by (unfold Rdiv; nra). apply atan_increasing in Q. rewrite atan_0 in Q. lra.
  - destruct (Rlt_dec 0 y); [lra|]. destruct (Rlt_dec y 0); lra.
Qed.
Lemma atan2_right : forall y x, 0 <= x -> - (PI / 2) <= atan2 y x <= PI / 2.
Proof.
  intros y x X. pose proof PI_RGT_0. unfold atan2. pose proof (atan_bound (y / x)) as B. destruct (Rlt_dec 0 x); [lra|]. destruct (Rlt_dec x 0); [lra|]. destruct (Rlt_dec 0 y); [lra|]. destruct (Rlt_dec y 0); lra.
Qed.
Lemma degrees_range : forall a b x, a * PI <= x <= b * PI -> a * 180 <= degrees x <= b * 180.
Proof.
  intros a b x H. pose proof PI_RGT_0 as P. unfold degrees. assert (x * 180 / PI * PI = x * 180) as E by (field; lra). split; nra.
Qed.
(** ** The calls that end from_ros, for a sensor mounted straight *)
Definition wrapped (y : R) : R := if Rlt_dec y 0 then y + 360 else y.
Lemma read_yaw : forall tz st q cov, -180 <= a_yaw (read_imu tz st q cov) <= 180.
Proof.
  intros tz st q cov. unfold read_imu, euler_from_quaternion, euler_from_matrix. set (m := quaternion_matrix q). pose proof PI_RGT_0. set (cy := sqrt _) in *.
  assert (degrees 0 = 0) as Z by (unfold degrees; field; lra).
  destruct (Rlt_dec eps cy); cbn [a_yaw]; [|lra]. pose proof (atan2_range (r10 m) (r00 m)). pose proof (degrees_range (-1) 1 (atan2 (r10 m) (r00 m)) ltac:(lra)). lra.
Qed.
Lemma vz_level : forall off v, vz (body_to_inertial 0 0 off v) = vz v.
Proof. intros off [[x y] z]. unfold body_to_inertial, vz. cbn [fst snd]. rewrite !Rmult_0_l, sin_0, cos_0. ring. Qed.
Lemma from_ros_yaw : forall off tz st q cov, a_yaw (from_ros off tz st q cov) = wrapped (a_yaw (read_imu tz st q cov)).
Proof.
  intros off tz st q cov. pose proof (read_yaw tz st q cov). unfold from_ros, apply_std_offset, apply_offset, wrapped. cbn [a_yaw]. rewrite vz_level. change (vz (_, _, a_yaw ?a)) with (a_yaw a).
  destruct (Rlt_dec 360 _); [lra|reflexivity].
Qed.
Lemma from_ros_straight : forall tz st q cov, from_ros 0 tz st q cov = let a := read_imu tz st q cov in
  mkatt (a_stamp a) (a_roll a) (a_pitch a) (wrapped (a_yaw a)) (a_roll_std a) (a_pitch_std a) (a_yaw_std a).
Proof.
  intros tz st q cov. cbv zeta. rewrite <- (from_ros_yaw 0). unfold from_ros, apply_std_offset, apply_offset. cbn [a_stamp a_roll a_pitch a_yaw a_roll_std a_pitch_std a_yaw_std].
  rewrite !C05_identity_when_level. reflexivity.
Qed.
Lemma turned_straight : forall tz st q cov v, turned (from_ros 0 tz st q cov) v = turned (read_imu tz st q cov) v.
Proof.
  intros tz st q cov v. rewrite from_ros_straight. unfold turned. cbv zeta. cbn [a_roll a_pitch a_yaw]. unfold wrapped. destruct (Rlt_dec _ 0); [|reflexivity].
  rewrite <- (C05_whole_turns_do_not_matter _ _ (a_yaw (read_imu tz st q cov)) 0 0 1). f_equal; ring.
Qed.

(** ** C79 *)
Lemma turned_apply : forall tz st q cov v, turned (read_imu tz st q cov) v = apply (remade (quaternion_matrix q)) v.
Proof. intros tz st q cov v. unfold turned, read_imu, remade, euler_from_quaternion. destruct (euler_from_matrix _) as [[r p] y]. cbn [a_roll a_pitch a_yaw]. apply turned_matrix. Qed.
Lemma nose_cy : forall q, eps <= norm2 q -> let m := quaternion_matrix q in nose q = sqrt (r00 m * r00 m + r10 m * r10 m).
Proof.
  intros q H m. unfold nose. rewrite <- apply_rotate by exact H. fold m. unfold apply, vx, vy. cbn [fst snd]. f_equal. ring.
Qed.
(** The attitude turns vectors as the quaternion does, unless the vehicle points (all but)
    straight up or down. *)
Theorem C79_rotation : forall tz st q cov v, limit <= norm2 q -> (nose q = 0 \/ limit < nose q) ->
  turned (from_ros 0 tz st q cov) v = rotate q v.
Proof.
  change limit with eps.
  intros tz st q cov v H G. pose proof eps_pos. rewrite turned_straight, turned_apply, <- apply_rotate by exact H. f_equal. rewrite nose_cy in G by exact H. set (m := quaternion_matrix q) in *. pose proof (matrix_special q) as P. fold m in P. cbv zeta in G.
  unfold remade, euler_from_matrix. destruct (Rlt_dec eps _) as [L|L].
  - symmetry. apply special_rotation; [exact P|]. lra.
  - destruct G as [G|G]; [|lra]. symmetry. apply special_gimbal; assumption.
Qed.
Print Assumptions C79_rotation.
(** In between, each component is off by at most 2 eps times the length of the vector (1-norm). *)
Lemma row_bound : forall a b c d e f x y z k, 0 <= k -> Rabs (a - d) <= k -> Rabs (b - e) <= k -> Rabs (c - f) <= k ->
  Rabs (a * x + b * y + c * z - (d * x + e * y + f * z)) <= k * (Rabs x + Rabs y + Rabs z).
Proof.
  intros a b c d e f x y z k K A B C. replace (_ - _) with ((a - d) * x + ((b - e) * y + (c - f) * z)) by ring.
  eapply Rle_trans; [apply Rabs_triang|]. pose proof (Rabs_triang ((b - e) * y) ((c - f) * z)) as T. rewrite !Rabs_mult in *. pose proof (Rabs_pos x). pose proof (Rabs_pos y). pose proof (Rabs_pos z). nra.
Qed.
Theorem C79_near : forall tz st q cov v, limit <= norm2 q ->
  let e := 2 * limit * (Rabs (vx v) + Rabs (vy v) + Rabs (vz v)) in let a := turned (from_ros 0 tz st q cov) v in
  Rabs (vx a - vx (rotate q v)) <= e /\ Rabs (vy a - vy (rotate q v)) <= e /\ Rabs (vz a - vz (rotate q v)) <= e.
Proof.
  change limit with eps.
  intros tz st q cov v H e a. pose proof eps_pos. unfold a. rewrite turned_straight, turned_apply, <- apply_rotate by exact H. pose proof (fun i => special_near _ i (matrix_special q)) as N. unfold e. clear a e. set (m := quaternion_matrix q) in *.
  set (w := remade m) in *. clearbody m w. destruct v as [[x y] z]. unfold apply, vx, vy, vz. cbn [fst snd].
  split; [|split]; apply row_bound; try lra.
  - exact (N 0%nat). - exact (N 1%nat). - exact (N 2%nat). - exact (N 3%nat). - exact (N 4%nat). - exact (N 5%nat). - exact (N 6%nat). - exact (N 7%nat). - exact (N 8%nat).
Qed.
Print Assumptions C79_near.
(** A quaternion need not be normalised, and q and -q are the same attitude. *)
Theorem C79_scale : forall off tz st q cov k, limit <= norm2 q -> limit <= norm2 (scale k q) -> from_ros off tz st (scale k q) cov = from_ros off tz st q cov.
Proof.
  change limit with eps.
  intros off tz st q cov k H K. pose proof eps_pos. unfold from_ros, read_imu, euler_from_quaternion. assert (quaternion_matrix (scale k q) = quaternion_matrix q) as ->; [|reflexivity].
  assert (norm2 (scale k q) = k * k * norm2 q) as E by (unfold norm2, scale; fields; ring). assert (k <> 0) as Z by (intros ->; rewrite E in K; lra).
  rewrite !matrix_homog by assumption. cbv zeta. rewrite E. assert (norm2 q <> 0) as N by lra. unfold scale. fields. f_equal; field; split; assumption.
Qed.
Print Assumptions C79_scale.
(** Roll in [-180, 180], pitch in [-90, 90]; the heading in [0, 360) whatever the mounting. *)
Theorem C79_ranges : forall tz st q cov, let a := from_ros 0 tz st q cov in
  -180 <= a_roll a <= 180 /\ -90 <= a_pitch a <= 90.
Proof.
  intros tz st q cov a. unfold a. rewrite from_ros_straight. cbv zeta. cbn [a_roll a_pitch]. unfold read_imu, euler_from_quaternion, euler_from_matrix. set (m := quaternion_matrix q). pose proof PI_RGT_0. pose proof (sqrt_pos (r00 m * r00 m + r10 m * r10 m)) as S. set (cy := sqrt _) in *.
  assert (forall y x, -180 <= degrees (atan2 y x) <= 180) as A by (intros y x; pose proof (atan2_range y x); pose proof (degrees_range (-1) 1 (atan2 y x) ltac:(lra)); lra).
  assert (-90 <= degrees (atan2 (- r20 m) cy) <= 90) as B by (pose proof (atan2_right (- r20 m) cy S); pose proof (degrees_range (-1/2) (1/2) (atan2 (- r20 m) cy) ltac:(lra)); lra).
  destruct (Rlt_dec eps cy); cbn [a_roll a_pitch]; repeat split; try apply A; try apply B; lra.
Qed.
Print Assumptions C79_ranges.
Theorem C79_heading : forall off tz st q cov, 0 <= a_yaw (from_ros off tz st q cov) < 360.
Proof.
  intros off tz st q cov. rewrite from_ros_yaw. pose proof (read_yaw tz st q cov). unfold wrapped. destruct (Rlt_dec _ 0); lra.
Qed.
Print Assumptions C79_heading.
Definition quarter_left : quat := mkquat 0 0 (-1) 1.
Lemma quarter_left_matrix : quaternion_matrix quarter_left = mkmat 0 1 0 (-1) 0 0 0 0 1.
Proof.
  rewrite matrix_homog; unfold norm2, quarter_left; fields; [|unfold eps; lra]. f_equal; field.
Qed.
Lemma quarter_left_attitude : forall tz st cov, let a := read_imu tz st quarter_left cov in a_roll a = 0 /\ a_pitch a = 0 /\ a_yaw a = -90.
Proof.
  intros tz st cov a. unfold a, read_imu, euler_from_quaternion. rewrite quarter_left_matrix. unfold euler_from_matrix. fields. replace (0 * 0 + -1 * -1) with 1 by ring. rewrite sqrt_1. destruct (Rlt_dec eps 1) as [_|N]; [|exfalso; apply N; unfold eps; lra].
  pose proof PI_RGT_0. cbn [a_roll a_pitch a_yaw]. unfold atan2. destruct (Rlt_dec 0 1) as [_|N]; [|lra]. destruct (Rlt_dec 0 0) as [N|_]; [lra|]. destruct (Rlt_dec 0 (-1)) as [N|_]; [lra|]. destruct (Rlt_dec (-1) 0) as [_|N]; [|lra].
  replace (0 / 1) with 0 by field. replace (- 0 / 1) with 0 by field. rewrite atan_0. unfold degrees. repeat split; field; lra.
Qed.
Lemma quarter_left_off : forall off tz st cov, let a := from_ros off tz st quarter_left cov in a_roll a = 0 /\ a_pitch a = 0 /\ a_yaw a = 270.
Proof.
  intros off tz st cov a. destruct (quarter_left_attitude tz st cov) as (R & P & Y). unfold a. rewrite from_ros_yaw, Y. unfold wrapped. destruct (Rlt_dec (-90) 0) as [_|N]; [|lra].
  unfold from_ros, apply_std_offset, apply_offset. cbn [a_roll a_pitch]. rewrite R, P, Y. unfold body_to_inertial, vx, vy. cbn [fst snd]. rewrite !Rmult_0_l, sin_0, cos_0. repeat split; ring.
Qed.
(** A sensor mounted turned by [off]: the attitude is not that of the sensor turned by the offset,
    in either sense. *)
Definition about_z (off : R) (v : vec) : vec :=
  let c := cos (off * (PI / 180)) in let s := sin (off * (PI / 180)) in (c * vx v - s * vy v, s * vx v + c * vy v, vz v).
Lemma quarter_left_norm : eps <= norm2 quarter_left.
Proof. unfold norm2, quarter_left, eps; fields; lra. Qed.
Lemma quarter_left_rotate : forall x y z, rotate quarter_left (x, y, z) = (y, - x, z).
Proof. intros x y z. rewrite <- apply_rotate, quarter_left_matrix by exact quarter_left_norm. unfold apply. fields. f_equal; [f_equal|..]; ring. Qed.
Lemma yaw_270 : forall tz st cov off v, turned (from_ros off tz st quarter_left cov) v = (vy v, - vx v, vz v).
Proof.
  intros tz st cov off [[x y] z]. destruct (quarter_left_off off tz st cov) as (R & P & Y). unfold turned. rewrite R, P, Y. unfold body_to_inertial, deg_to_rad. rewrite !Rmult_0_l, sin_0, cos_0. replace (270 * (PI / 180)) with (3 * (PI / 2)) by field. rewrite sin_3PI2, cos_3PI2. unfold vx, vy, vz. cbn [fst snd]. f_equal; [f_equal|]; ring.
Qed.
Theorem C179_mounting_refuted : exists off q, limit <= norm2 q /\ forall tz st cov, exists v,
  turned (from_ros off tz st q cov) v <> rotate q (about_z off v) /\ turned (from_ros off tz st q cov) v <> rotate q (about_z (- off) v).
Proof.
  exists 90, quarter_left. split; [exact quarter_left_norm|]. intros tz st cov. exists (1, 0, 0). rewrite yaw_270. unfold about_z. replace (Ropp 90 * (PI / 180)) with (- (PI / 2)) by field. replace (90 * (PI / 180)) with (PI / 2) by field.
  rewrite sin_neg, cos_neg, sin_PI2, cos_PI2, !quarter_left_rotate. unfold vx, vy, vz. cbn [fst snd]. split; intros E; inversion E; lra.
Qed.
Print Assumptions C179_mounting_refuted.
(** Nor are the standard deviations non-negative. *)
Theorem C179_std_refuted : exists off cov, (forall i, 0 <= cov i) /\ forall tz st q, a_roll_std (from_ros off tz st q cov) < 0.
Proof.
  exists 90, (fun i => match i with 4%nat => 1 | _ => 0 end). split; [intros i; repeat (destruct i as [|i]; try lra)|]. intros tz st q. unfold from_ros, apply_std_offset, apply_offset, read_imu. destruct (euler_from_quaternion q) as [[r p] y].
  cbn [a_roll_std a_pitch_std a_yaw_std]. unfold body_to_inertial, deg_to_rad, vx. cbn [fst snd]. rewrite !Rmult_0_l, sin_0, cos_0. replace (90 * (PI / 180)) with (PI / 2) by field. rewrite sin_PI2, cos_PI2, sqrt_0, sqrt_1. pose proof PI_RGT_0.
  assert (0 < degrees 1) by (unfold degrees; apply Rdiv_lt_0_compat; lra). lra.
Qed.
Print Assumptions C179_std_refuted.
(** A quaternion shorter than the square root of eps is read as level and heading north. *)
Theorem C79_tiny : forall off tz st q cov, norm2 q < limit -> let a := from_ros off tz st q cov in a_roll a = 0 /\ a_pitch a = 0 /\ a_yaw a = 0.
Proof.
  change limit with eps.
  intros off tz st q cov H a. assert (let a := read_imu tz st q cov in a_roll a = 0 /\ a_pitch a = 0 /\ a_yaw a = 0) as (R & P & Y).
  { unfold read_imu, euler_from_quaternion, quaternion_matrix. fold (norm2 q). destruct (Rlt_dec _ _) as [_|N]; [|contradiction]. unfold euler_from_matrix, identity. fields.
    replace (1 * 1 + 0 * 0) with 1 by ring. rewrite sqrt_1. destruct (Rlt_dec eps 1) as [_|N]; [|exfalso; apply N; unfold eps; lra]. pose proof PI_RGT_0. cbn [a_roll a_pitch a_yaw]. unfold atan2.
    destruct (Rlt_dec 0 1) as [_|N]; [|lra]. replace (0 / 1) with 0 by field. replace (- 0 / 1) with 0 by field. rewrite atan_0. unfold degrees. repeat split; field; lra. }
  unfold a. rewrite from_ros_yaw, Y. unfold wrapped. destruct (Rlt_dec 0 0) as [N|_]; [lra|].
  unfold from_ros, apply_std_offset, apply_offset. cbn [a_roll a_pitch]. rewrite R, P, Y. unfold body_to_inertial, vx, vy. cbn [fst snd]. rewrite !Rmult_0_l, sin_0, cos_0. repeat split; ring.
Qed.
Print Assumptions C79_tiny.
(** The standard deviations are the square roots of the diagonal, in degrees; the stamp is moved
    to UTC. *)
Theorem C79_std : forall tz st q cov, (forall i, 0 <= cov i) -> let a := from_ros 0 tz st q cov in a_stamp a = st - tz /\
  (a_roll_std a * (PI / 180)) ^ 2 = cov 0%nat /\ (a_pitch_std a * (PI / 180)) ^ 2 = cov 4%nat /\ (a_yaw_std a * (PI / 180)) ^ 2 = cov 8%nat /\
  0 <= a_roll_std a /\ 0 <= a_pitch_std a /\ 0 <= a_yaw_std a.
Proof.
  intros tz st q cov H a. unfold a. rewrite from_ros_straight. unfold read_imu. destruct (euler_from_quaternion q) as [[r p] y]. cbv zeta. cbn [a_stamp a_roll_std a_pitch_std a_yaw_std]. pose proof PI_RGT_0.
  assert (forall x, degrees x * (PI / 180) = x) as E by (intros x; unfold degrees; field; lra). rewrite !E. assert (forall i, sqrt (cov i) ^ 2 = cov i) as Q by (intros i; replace (sqrt (cov i) ^ 2) with (sqrt (cov i) * sqrt (cov i)) by ring; apply sqrt_sqrt, H). rewrite !Q.
  assert (forall i, 0 <= degrees (sqrt (cov i))) as P by (intros i; pose proof (sqrt_pos (cov i)) as S; unfold degrees, Rdiv; apply Rmult_le_pos; [lra|apply Rlt_le, Rinv_0_lt_compat; lra]).
  repeat split; apply P.
Qed.
Print Assumptions C79_std.
(** Example: a quarter turn to the left takes the nose to port, by the quaternion and by the attitude. *)
Example C79_ex : rotate quarter_left (1, 0, 0) = (0, -1, 0) /\ forall cov, turned (from_ros 0 0 0 quarter_left cov) (1, 0, 0) = (0, -1, 0) /\ a_yaw (from_ros 0 0 0 quarter_left cov) = 270.
Proof.
  assert (rotate quarter_left (1, 0, 0) = (0, -1, 0)) as R by (rewrite quarter_left_rotate; reflexivity).
  split; [exact R|]. intros cov. split; [|apply quarter_left_off]. rewrite C79_rotation; [exact R|exact quarter_left_norm|]. right. unfold nose. rewrite R. unfold vx, vy. cbn [fst snd].
  replace (0 * 0 + -1 * -1) with 1 by ring. rewrite sqrt_1. unfold limit. lra.
Qed.
