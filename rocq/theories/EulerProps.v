(** C59: Euler angles extracted from a rotation matrix. *)
From Coq Require Import Reals Lra Psatz.
From Verif Require Import EulerModel.
Open Scope R_scope.

(** ** Specification: rotation about x by psi, then about y by theta, then about z by phi. *)
Definition rot_x (a : R) : mat := mkmat 1 0 0 0 (cos a) (- sin a) 0 (sin a) (cos a).
Definition rot_y (a : R) : mat := mkmat (cos a) 0 (sin a) 0 1 0 (- sin a) 0 (cos a).
Definition rot_z (a : R) : mat := mkmat (cos a) (- sin a) 0 (sin a) (cos a) 0 0 0 1.
Definition mul (a b : mat) : mat := mkmat
  (r00 a * r00 b + r01 a * r10 b + r02 a * r20 b) (r00 a * r01 b + r01 a * r11 b + r02 a * r21 b) (r00 a * r02 b + r01 a * r12 b + r02 a * r22 b)
  (r10 a * r00 b + r11 a * r10 b + r12 a * r20 b) (r10 a * r01 b + r11 a * r11 b + r12 a * r21 b) (r10 a * r02 b + r11 a * r12 b + r12 a * r22 b)
  (r20 a * r00 b + r21 a * r10 b + r22 a * r20 b) (r20 a * r01 b + r21 a * r11 b + r22 a * r21 b) (r20 a * r02 b + r21 a * r12 b + r22 a * r22 b).
Definition rotation (psi theta phi : R) : mat := mul (rot_z phi) (mul (rot_y theta) (rot_x psi)).
Definition rebuilt (m : mat) : mat := let '(psi, theta, phi) := euler_angles m in rotation psi theta phi.

(** ** atan2 *)
Lemma cos_atan_pos : forall x, 0 < cos (atan x).
Proof. intros x. pose proof (atan_bound x). apply cos_gt_0; lra. Qed.
Lemma atan_frac : forall x y, 0 < x -> x * x + y * y = 1 -> cos (atan (y / x)) = x /\ sin (atan (y / x)) = y.
Proof.
  intros x y X U. set (a := atan (y / x)). pose proof (cos_atan_pos (y / x)) as C. fold a in C. assert (tan a = y / x) as T by apply tan_atan. unfold tan in T.
  assert (sin a = y * cos a / x) as S by (replace (sin a) with (sin a / cos a * cos a) by (field; lra); rewrite T; field; lra).
  pose proof (sin2_cos2 a) as P. unfold Rsqr in P. rewrite S in P.
  assert (cos a * cos a = x * x) as Q.
  { replace (y * cos a / x * (y * cos a / x) + cos a * cos a) with (cos a * cos a * (x * x + y * y) / (x * x)) in P by (field; lra). rewrite U, Rmult_1_r in P.
    replace (cos a * cos a) with (cos a * cos a / (x * x) * (x * x)) by (field; lra). rewrite P. ring. }
  assert (cos a = x) as E by nra. split; [exact E|]. rewrite S, E. field. lra.
Qed.
Lemma atan2_unit : forall x y, x * x + y * y = 1 -> cos (atan2 y x) = x /\ sin (atan2 y x) = y.
Proof.
  intros x y U. unfold atan2. destruct (Rlt_dec 0 x) as [X|X]; [now apply atan_frac|]. destruct (Rlt_dec x 0) as [X'|X'].
  - destruct (atan_frac (- x) (- y)) as [C S]; [lra|lra|]. replace (- y / - x) with (y / x) in C, S by (field; lra).
    destruct (Rle_dec 0 y); [rewrite neg_cos, neg_sin; lra|]. unfold Rminus. rewrite cos_plus, sin_plus, cos_neg, sin_neg, cos_PI, sin_PI. lra.
  - assert (x = 0) as -> by lra. destruct (Rlt_dec 0 y) as [Y|Y].
    + rewrite cos_PI2, sin_PI2. split; nra.
    + destruct (Rlt_dec y 0) as [Y'|Y'].
      * rewrite cos_neg, sin_neg, cos_PI2, sin_PI2. split; nra.
      * assert (y = 0) as -> by lra. lra.
Qed.
(** For any vector: the direction. *)
Lemma atan2_dir : forall x y n, 0 < n -> x * x + y * y = n * n -> cos (atan2 y x) = x / n /\ sin (atan2 y x) = y / n.
Proof.
  intros x y n N U. assert (atan2 y x = atan2 (y / n) (x / n)) as ->.
  { assert (0 < / n) as I by now apply Rinv_0_lt_compat. assert (forall z, 0 < z / n <-> 0 < z) as PZ by (intros z; unfold Rdiv; split; nra).
    assert (forall z, z / n < 0 <-> z < 0) as NZ by (intros z; unfold Rdiv; split; nra). assert (forall z, 0 <= z / n <-> 0 <= z) as LZ by (intros z; unfold Rdiv; split; nra).
    assert (x <> 0 -> y / n / (x / n) = y / x) as Q by (intros X; field; split; lra).
    unfold atan2. destruct (Rlt_dec 0 x) as [X|X].
    - destruct (Rlt_dec 0 (x / n)) as [W|W]; [|exfalso; apply W; first [now apply (proj1 (PZ _)) | now apply (proj2 (PZ _))]]. rewrite Q by lra. reflexivity.
    - destruct (Rlt_dec 0 (x / n)) as [W|_]; [apply (proj1 (PZ _)) in W; contradiction|]. destruct (Rlt_dec x 0) as [X'|X'].
      + destruct (Rlt_dec (x / n) 0) as [_|W]; [|exfalso; apply W; first [now apply (proj1 (NZ _)) | now apply (proj2 (NZ _))]]. rewrite Q by lra.
        destruct (Rle_dec 0 y) as [Y|Y], (Rle_dec 0 (y / n)) as [Y'|Y']; try reflexivity; exfalso; [apply Y'; first [now apply (proj1 (LZ _)) | now apply (proj2 (LZ _))]|apply Y; first [now apply (proj1 (LZ _)) | now apply (proj2 (LZ _))]].
      + destruct (Rlt_dec (x / n) 0) as [W|_]; [apply (proj1 (NZ _)) in W; contradiction|].
        destruct (Rlt_dec 0 y) as [Y|Y], (Rlt_dec 0 (y / n)) as [Y'|Y']; try reflexivity; [exfalso; apply Y'; first [now apply (proj1 (PZ _)) | now apply (proj2 (PZ _))]|exfalso; apply Y; first [now apply (proj1 (PZ _)) | now apply (proj2 (PZ _))]|].
        destruct (Rlt_dec y 0) as [Z|Z], (Rlt_dec (y / n) 0) as [Z'|Z']; try reflexivity; exfalso; [apply Z'; first [now apply (proj1 (NZ _)) | now apply (proj2 (NZ _))]|apply Z; first [now apply (proj1 (NZ _)) | now apply (proj2 (NZ _))]]. }
  apply atan2_unit. replace (_ + _) with ((x * x + y * y) / (n * n)) by (field; lra). rewrite U. field. lra.
Qed.

(** ** Entries *)
Ltac entries := unfold rotation, mul, rot_x, rot_y, rot_z; cbn [r00 r01 r02 r10 r11 r12 r20 r21 r22].
Lemma rotation_entries : forall p t f, rotation p t f = mkmat
  (cos t * cos f) (sin p * sin t * cos f - cos p * sin f) (cos p * sin t * cos f + sin p * sin f)
  (cos t * sin f) (sin p * sin t * sin f + cos p * cos f) (cos p * sin t * sin f - sin p * cos f)
  (- sin t) (cos t * sin p) (cos t * cos p).
Proof. intros p t f. entries. f_equal; ring. Qed.
Lemma isclose_iff : forall x y, isclose x y = true <-> Rabs (x - y) <= 1 / 100000000 + 1 / 100000 * Rabs y.
Proof. intros x y. unfold isclose. destruct (Rle_dec _ _); split; try discriminate; tauto. Qed.
Definition tol : R := 1001 / 100000000.
Lemma close_neg : forall x, isclose x (-1) = true <-> Rabs (x + 1) <= tol.
Proof. intros x. rewrite isclose_iff. replace (Rabs (-1)) with 1 by (rewrite Rabs_left; lra). replace (x - -1) with (x + 1) by ring. unfold tol. split; intros; lra. Qed.
Lemma close_pos : forall x, isclose x 1 = true <-> Rabs (x - 1) <= tol.
Proof. intros x. rewrite isclose_iff. rewrite Rabs_R1. unfold tol. split; intros; lra. Qed.
Lemma not_true : forall b, b = false <-> b <> true. Proof. now intros []. Qed.

(** ** C59 *)
(** Away from gimbal lock, that is with |sin theta| below 1 - 1.001e-5, the angles rebuild the
    matrix. *)
Theorem C59_regular : forall p t f, Rabs (sin t) < 1 - tol -> rebuilt (rotation p t f) = rotation p t f.
Proof.
  intros p t f H. assert (- (1 - tol) < sin t < 1 - tol) as [H1 H2] by (revert H; unfold Rabs; destruct (Rcase_abs _); lra). assert (0 < tol) as TP by (unfold tol; lra).
  unfold rebuilt, euler_angles. rewrite rotation_entries. cbn [r00 r01 r02 r10 r11 r12 r20 r21 r22].
  assert (isclose (- sin t) (-1) = false) as -> by (apply not_true; rewrite close_neg; unfold Rabs; destruct (Rcase_abs _); lra).
  assert (isclose (- sin t) 1 = false) as -> by (apply not_true; rewrite close_pos; unfold Rabs; destruct (Rcase_abs _); lra).
  set (th := - asin (- sin t)). assert (sin th = sin t) as S by (unfold th; rewrite sin_neg, sin_asin by lra; ring).
  assert (0 < cos th) as C.
  { unfold th. rewrite cos_neg, cos_asin by lra. apply sqrt_lt_R0. unfold Rsqr. nra. }
  assert (cos th * cos th = cos t * cos t) as CC.
  { pose proof (sin2_cos2 th) as A. pose proof (sin2_cos2 t) as B. unfold Rsqr in *. rewrite S in A. lra. }
  set (s := cos t / cos th). assert (s * s = 1) as SS by (unfold s; replace (_ * _) with ((cos t * cos t) / (cos th * cos th)) by (field; lra); rewrite CC; field; nra).
  assert (cos t = s * cos th) as CT by (unfold s; field; lra).
  assert (forall a, cos t * a / cos th = s * a) as D by (intros a; unfold s; field; lra). rewrite !D.
  assert (forall a, cos (atan2 (s * sin a) (s * cos a)) = s * cos a /\ sin (atan2 (s * sin a) (s * cos a)) = s * sin a) as AT.
  { intros a. apply atan2_unit. pose proof (sin2_cos2 a) as A. unfold Rsqr in A. replace (_ + _) with (s * s * (sin a * sin a + cos a * cos a)) by ring. rewrite SS, A. ring. }
  destruct (AT p) as [CP SP], (AT f) as [CF SF]. rewrite rotation_entries, CP, SP, CF, SF, S, CT.
  f_equal; try ring.
  - replace (s * sin p * sin t * (s * cos f) - s * cos p * (s * sin f)) with (s * s * (sin p * sin t * cos f - cos p * sin f)) by ring. rewrite SS. ring.
  - replace (s * cos p * sin t * (s * cos f) + s * sin p * (s * sin f)) with (s * s * (cos p * sin t * cos f + sin p * sin f)) by ring. rewrite SS. ring.
  - replace (s * sin p * sin t * (s * sin f) + s * cos p * (s * cos f)) with (s * s * (sin p * sin t * sin f + cos p * cos f)) by ring. rewrite SS. ring.
  - replace (s * cos p * sin t * (s * sin f) - s * sin p * (s * cos f)) with (s * s * (cos p * sin t * sin f - sin p * cos f)) by ring. rewrite SS. ring.
Qed.
Print Assumptions C59_regular.
(** At gimbal lock the angles differ but the matrix is rebuilt. *)
Theorem C59_gimbal : forall p t f, Rabs (sin t) = 1 -> rebuilt (rotation p t f) = rotation p t f.
Proof.
  intros p t f H. assert (0 < tol) as TP by (unfold tol; lra). assert (cos t = 0) as C0.
  { pose proof (sin2_cos2 t) as A. rewrite (Rsqr_abs (sin t)), H in A. unfold Rsqr in A. nra. }
  unfold rebuilt, euler_angles. rewrite (rotation_entries p t f). cbn [r00 r01 r02 r10 r11 r12 r20 r21 r22]. rewrite C0.
  assert (sin t = 1 \/ sin t = -1) as [S|S] by (revert H; unfold Rabs; destruct (Rcase_abs _); lra); rewrite S.
  - replace (Ropp 1) with (-1) by ring. assert (isclose (-1) (-1) = true) as -> by (apply close_neg; replace (-1 + 1) with 0 by ring; rewrite Rabs_R0; lra).
    replace (sin p * 1 * cos f - cos p * sin f) with (sin (p - f)) by (rewrite sin_minus; ring). replace (cos p * 1 * cos f + sin p * sin f) with (cos (p - f)) by (rewrite cos_minus; ring).
    destruct (atan2_unit (cos (p - f)) (sin (p - f))) as [A B]; [pose proof (sin2_cos2 (p - f)) as E; unfold Rsqr in E; lra|].
    rewrite rotation_entries, A, B, sin_PI2, cos_PI2, sin_0, cos_0, sin_minus, cos_minus. f_equal; ring.
  - replace (- -1) with 1 by ring.
    assert (isclose 1 (-1) = false) as -> by (apply not_true; rewrite close_neg; replace (1 + 1) with 2 by ring; rewrite Rabs_right by lra; unfold tol; lra).
    assert (isclose 1 1 = true) as -> by (apply close_pos; replace (1 - 1) with 0 by ring; rewrite Rabs_R0; lra).
    replace (- (sin p * -1 * cos f - cos p * sin f)) with (sin (p + f)) by (rewrite sin_plus; ring). replace (- (cos p * -1 * cos f + sin p * sin f)) with (cos (p + f)) by (rewrite cos_plus; ring).
    destruct (atan2_unit (cos (p + f)) (sin (p + f))) as [A B]; [pose proof (sin2_cos2 (p + f)) as E; unfold Rsqr in E; lra|].
    rewrite rotation_entries, A, B, sin_neg, cos_neg, sin_PI2, cos_PI2, sin_0, cos_0, sin_plus, cos_plus. f_equal; ring.
Qed.
Print Assumptions C59_gimbal.
(** Close to it, the branch for gimbal lock is taken too and changes the matrix. *)
Theorem C159_near_refuted : exists p t f, Rabs (sin t) < 1 /\ rebuilt (rotation p t f) <> rotation p t f.
Proof.
  set (t := asin (1 - tol)). assert (0 < tol < 1) as TP by (unfold tol; lra). assert (sin t = 1 - tol) as S by (apply sin_asin; lra).
  exists 0, t, 0. split; [rewrite S, Rabs_right; lra|]. intros E. apply (f_equal r20) in E. revert E. unfold rebuilt, euler_angles. rewrite !rotation_entries. cbn [r20].
  assert (isclose (- sin t) (-1) = true) as -> by (apply close_neg; rewrite S; replace (- (1 - tol) + 1) with tol by ring; rewrite Rabs_right; lra).
  rewrite !rotation_entries. cbn [r20]. rewrite sin_PI2, S. lra.
Qed.
Print Assumptions C159_near_refuted.
(** No entry changes by more than 1/200. *)
Definition entry (m : mat) (i : nat) : R := match i with
  | 0 => r00 m | 1 => r01 m | 2 => r02 m | 3 => r10 m | 4 => r11 m | 5 => r12 m | 6 => r20 m | 7 => r21 m | _ => r22 m end%nat.
Lemma abs_prod : forall a b e, -1 <= b <= 1 -> - e <= a <= e -> - e <= a * b <= e.
Proof. intros a b e B A. split; nra. Qed.
(** Normalising a vector of nearly unit length. *)
Lemma normalise : forall x n, 0 < n <= 1 -> - n <= x <= n -> - (1 - n) <= x / n - x <= 1 - n.
Proof.
  intros x n N X. replace (x / n - x) with (x / n * (1 - n)) by (field; lra). assert (-1 <= x / n <= 1) as B.
  { assert (0 < / n) as I by (apply Rinv_0_lt_compat; lra). assert (n * / n = 1) by (field; lra). unfold Rdiv. split; nra. }
  split; nra.
Qed.
Lemma comp_bound : forall x y n, 0 < n -> x * x + y * y = n * n -> - n <= x <= n.
Proof. intros x y n N E. split; nra. Qed.
(** The gimbal branch with sine near 1: the bounds on the pieces. *)
Lemma near_bounds : forall p t f, 0 <= 1 - sin t <= tol -> let x := cos p * sin t * cos f + sin p * sin f in let y := sin p * sin t * cos f - cos p * sin f in
  - (45 / 10000) <= cos t <= 45 / 10000 /\ exists n, 0 < n <= 1 /\ x * x + y * y = n * n /\ 1 - n <= 21 / 1000000.
Proof.
  intros p t f H x y. unfold tol in H. pose proof (sin2_cos2 t) as T. pose proof (sin2_cos2 f) as F. pose proof (sin2_cos2 p) as P. unfold Rsqr in *.
  assert (0 <= cos t * cos t <= 2002 / 100000000) as C by nra. split; [split; nra|].
  assert (x * x + y * y = 1 - cos t * cos t * (cos f * cos f)) as E.
  { unfold x, y. replace (_ + _) with ((sin p * sin p + cos p * cos p) * ((sin t * sin t) * (cos f * cos f) + sin f * sin f)) by ring. rewrite P.
    replace (sin t * sin t) with (1 - cos t * cos t) by lra. replace (sin f * sin f) with (1 - cos f * cos f) by lra. ring. }
  assert (0 <= cos f * cos f <= 1) as CF by nra. assert (0 <= cos t * cos t * (cos f * cos f) <= 2002 / 100000000) as CC by nra.
  exists (sqrt (x * x + y * y)). assert (0 < x * x + y * y <= 1) as R by lra. assert (sqrt (x * x + y * y) * sqrt (x * x + y * y) = x * x + y * y) as Q by (apply sqrt_sqrt; lra).
  assert (0 < sqrt (x * x + y * y)) as Q0 by (apply sqrt_lt_R0; lra). set (n := sqrt (x * x + y * y)) in *.
  split; [split; nra|]. split; [symmetry; exact Q|]. nra.
Qed.
Theorem C59_near : forall p t f i, Rabs (entry (rebuilt (rotation p t f)) i - entry (rotation p t f) i) <= 1 / 200.
Proof.
  intros p t f i. destruct (Rlt_dec (Rabs (sin t)) (1 - tol)) as [H|H].
  { rewrite (C59_regular p t f H). rewrite Rminus_diag_eq by reflexivity. rewrite Rabs_R0. lra. }
  assert (0 < tol) as TP by (unfold tol; lra). pose proof (SIN_bound t) as ST. pose proof (SIN_bound p) as SP. pose proof (COS_bound p) as CP. pose proof (SIN_bound f) as SF. pose proof (COS_bound f) as CF.
  assert (1 - tol <= sin t \/ sin t <= - (1 - tol)) as [B|B] by (revert H; unfold Rabs; destruct (Rcase_abs _); lra).
  - destruct (near_bounds p t f) as (C & n & N & E & M); [lra|]. cbv zeta in E.
    unfold rebuilt, euler_angles. rewrite (rotation_entries p t f). cbn [r00 r01 r02 r10 r11 r12 r20 r21 r22].
    assert (isclose (- sin t) (-1) = true) as -> by (apply close_neg; unfold Rabs; destruct (Rcase_abs _); lra).
    set (x := cos p * sin t * cos f + sin p * sin f) in *. set (y := sin p * sin t * cos f - cos p * sin f) in *.
    destruct (atan2_dir x y n (proj1 N) E) as [A1 A2]. rewrite rotation_entries, A1, A2, sin_PI2, cos_PI2, sin_0, cos_0.
    pose proof (normalise x n N (comp_bound x y n (proj1 N) E)) as NX. pose proof (normalise y n N (comp_bound y x n (proj1 N) ltac:(lra))) as NY.
    assert (- tol <= x - (sin p * sin t * sin f + cos p * cos f) <= tol /\ - tol <= - y - (cos p * sin t * sin f - sin p * cos f) <= tol) as [DX DY].
    { replace (x - _) with ((sin t - 1) * cos (p + f)) by (unfold x; rewrite cos_plus; ring). replace (- y - _) with ((1 - sin t) * sin (p + f)) by (unfold y; rewrite sin_plus; ring).
      pose proof (COS_bound (p + f)). pose proof (SIN_bound (p + f)). split; apply abs_prod; lra. }
    pose proof (abs_prod _ _ _ CF C) as K1. pose proof (abs_prod _ _ _ SF C) as K2. pose proof (abs_prod _ _ _ SP C) as K3. pose proof (abs_prod _ _ _ CP C) as K4.
    unfold tol in *. apply Rabs_le. destruct i as [|[|[|[|[|[|[|[|i]]]]]]]]; cbn [entry r00 r01 r02 r10 r11 r12 r20 r21 r22]; lra.
  - destruct (near_bounds (- p) (t + PI) (- f)) as (C & n & N & E & M); [rewrite neg_sin; pose proof (SIN_bound t); lra|]. cbv zeta in E. rewrite neg_sin, !cos_neg, !sin_neg in E. rewrite neg_cos in C.
    unfold rebuilt, euler_angles. rewrite (rotation_entries p t f). cbn [r00 r01 r02 r10 r11 r12 r20 r21 r22].
    assert (isclose (- sin t) (-1) = false) as -> by (apply not_true; rewrite close_neg; unfold tol in *; unfold Rabs; destruct (Rcase_abs _); lra).
    assert (isclose (- sin t) 1 = true) as -> by (apply close_pos; unfold Rabs; destruct (Rcase_abs _); lra).
    set (x := - (cos p * sin t * cos f + sin p * sin f)) in *. set (y := - (sin p * sin t * cos f - cos p * sin f)) in *.
    assert (x * x + y * y = n * n) as E' by (rewrite <- E; unfold x, y; ring). clear E.
    destruct (atan2_dir x y n (proj1 N) E') as [A1 A2]. rewrite rotation_entries, A1, A2, sin_neg, cos_neg, sin_PI2, cos_PI2, sin_0, cos_0.
    pose proof (normalise x n N (comp_bound x y n (proj1 N) E')) as NX. pose proof (normalise y n N (comp_bound y x n (proj1 N) ltac:(lra))) as NY.
    assert (- tol <= x - (sin p * sin t * sin f + cos p * cos f) <= tol /\ - tol <= - y - (cos p * sin t * sin f - sin p * cos f) <= tol) as [DX DY].
    { replace (x - _) with ((- sin t - 1) * cos (p - f)) by (unfold x; rewrite cos_minus; ring). replace (- y - _) with ((1 + sin t) * sin (p - f)) by (unfold y; rewrite sin_minus; ring).
      pose proof (COS_bound (p - f)). pose proof (SIN_bound (p - f)). split; apply abs_prod; lra. }
    assert (- (45 / 10000) <= cos t <= 45 / 10000) as C' by lra.
    pose proof (abs_prod _ _ _ CF C') as K1. pose proof (abs_prod _ _ _ SF C') as K2. pose proof (abs_prod _ _ _ SP C') as K3. pose proof (abs_prod _ _ _ CP C') as K4.
    unfold tol in *. apply Rabs_le. unfold x, y in *. destruct i as [|[|[|[|[|[|[|[|i]]]]]]]]; cbn [entry r00 r01 r02 r10 r11 r12 r20 r21 r22]; lra.
Qed.
Print Assumptions C59_near.
(** Example: pitch pi/2 with yaw and roll, rebuilt though the angles are others. *)
Example C59_ex : rebuilt (rotation (PI / 3) (PI / 2) (PI / 6)) = rotation (PI / 3) (PI / 2) (PI / 6) /\ snd (euler_angles (rotation (PI / 3) (PI / 2) (PI / 6))) <> PI / 6.
Proof.
  split; [apply C59_gimbal; rewrite sin_PI2; apply Rabs_R1|]. unfold euler_angles. rewrite rotation_entries. cbn [r20]. rewrite sin_PI2.
  assert (isclose (Ropp 1) (-1) = true) as -> by (apply close_neg; replace (- (1) + 1) with 0 by ring; rewrite Rabs_R0; unfold tol; lra). cbn [snd]. pose proof PI_RGT_0. lra.
Qed.
