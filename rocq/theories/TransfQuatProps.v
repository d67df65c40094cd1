(** C267, C268: quaternions. *)
From Coq Require Import Ascii String Reals Lra Psatz List Bool Arith.
From Verif Require Import FramesModel FramesProps EulerModel EulerProps QuatModel QuatProps TransfModel TransfProps.
Import ListNotations.
Open Scope R_scope.

Ltac qfields := cbn [qx qy qz qw] in *.
(** A quaternion from a matrix: one over four entries that are twice the square root of t times
    those of the quaternion. *)
Lemma from_parts : forall m t x y z w, 0 < t -> x * x + y * y + z * z + w * w = 4 * t ->
  2 * t * r00 m = 2 * t - (y * y + z * z) -> 2 * t * r11 m = 2 * t - (x * x + z * z) -> 2 * t * r22 m = 2 * t - (x * x + y * y) ->
  2 * t * r01 m = x * y - z * w -> 2 * t * r10 m = x * y + z * w -> 2 * t * r02 m = x * z + y * w -> 2 * t * r20 m = x * z - y * w ->
  2 * t * r12 m = y * z - x * w -> 2 * t * r21 m = y * z + x * w ->
  let f := / 2 / sqrt (t * 1) in let q := mkquat (x * f) (y * f) (z * f) (w * f) in norm2 q = 1 /\ quaternion_matrix q = m.
Proof.
  intros m t x y z w T N A B C D E F G H I f q. assert (sqrt t * sqrt t = t) as S by (apply sqrt_sqrt; lra). assert (0 < sqrt t) as S0 by (apply sqrt_lt_R0; lra).
  assert (f * f = / (4 * t)) as FF by (unfold f; rewrite Rmult_1_r; rewrite <- S at 3; field; lra). clearbody f.
  assert (norm2 q = 1) as N1. { unfold norm2, q. qfields. replace (_ + _) with ((x * x + y * y + z * z + w * w) * (f * f)) by ring. rewrite N, FF. field. lra. }
  split; [exact N1|]. rewrite (matrix_unit _ N1). unfold q. qfields. destruct m as [a b c d e g h i j]. cbn [r00 r01 r02 r10 r11 r12 r20 r21 r22] in *.
  assert (forall u v w', 2 * t * u = 2 * t - (v * v + w' * w') -> 1 - 2 * (v * f * (v * f) + w' * f * (w' * f)) = u) as K1.
  { intros u v w' Q. replace (_ * f * _ + _) with ((v * v + w' * w') * (f * f)) by ring. rewrite FF. replace (v * v + w' * w') with (2 * t - 2 * t * u) by lra. field. lra. }
  assert (forall u a' b' c' d', 2 * t * u = a' * b' - c' * d' -> 2 * (a' * f * (b' * f) - c' * f * (d' * f)) = u) as K2.
  { intros u a' b' c' d' Q. replace (_ * f * _ - _) with ((a' * b' - c' * d') * (f * f)) by ring. rewrite FF, <- Q. field. lra. }
  assert (forall u a' b' c' d', 2 * t * u = a' * b' + c' * d' -> 2 * (a' * f * (b' * f) + c' * f * (d' * f)) = u) as K3.
  { intros u a' b' c' d' Q. replace (_ * f * _ + _) with ((a' * b' + c' * d') * (f * f)) by ring. rewrite FF, <- Q. field. lra. }
  f_equal; auto.
Qed.
Lemma back_full : forall m, full m -> norm2 (quaternion_from_matrix m) = 1 /\ quaternion_matrix (quaternion_from_matrix m) = m.
Proof.
  intros [a b c d e f g h i] ((? & ? & ? & ? & ? & ? & ? & ? & ?) & (? & ? & ? & ? & ? & ?) & (? & ? & ? & ? & ? & ?)). unfold quaternion_from_matrix. cbn [get r00 r01 r02 r10 r11 r12 r20 r21 r22] in *. destruct (Rlt_dec 1 (a + e + i + 1)) as [L|L].
  - cbn [qx qy qz qw]. apply from_parts; mfields; lra.
  - destruct (Rlt_dec a e) as [L1|L1]; cbv beta iota; (destruct (Rlt_dec _ i) as [L2|L2]); cbv beta iota; flats; apply from_parts; mfields; lra.
Qed.
Theorem C267_back : forall m, is_rotation m -> norm2 (quaternion_from_matrix m) = 1 /\ quaternion_matrix (quaternion_from_matrix m) = m.
Proof. intros m H. apply back_full, rotation_full, H. Qed.
Lemma same_matrix : forall a b, norm2 a = 1 -> norm2 b = 1 -> quaternion_matrix a = quaternion_matrix b -> b = a \/ b = scale (-1) a.
Proof.
  intros a b A B E. rewrite (matrix_unit a A), (matrix_unit b B) in E. destruct a as [x y z w], b as [x' y' z' w']. unfold norm2, scale in *. qfields.
  injection E as E00 E01 E02 E10 E11 E12 E20 E21 E22.
  assert (x * y = x' * y') as P1 by lra. assert (x * z = x' * z') as P2 by lra. assert (y * z = y' * z') as P3 by lra.
  assert (x * w = x' * w') as P4 by lra. assert (y * w = y' * w') as P5 by lra. assert (z * w = z' * w') as P6 by lra.
  assert (x * x = x' * x') as S1 by lra. assert (y * y = y' * y') as S2 by lra. assert (z * z = z' * z') as S3 by lra. assert (w * w = w' * w') as S4 by lra.
  set (d := x * x' + y * y' + z * z' + w * w').
  assert (d * d = 1) as D.
  { transitivity ((x * x) * (x' * x') + (y * y) * (y' * y') + (z * z) * (z' * z') + (w * w) * (w' * w') + 2 * ((x * y) * (x' * y') + (x * z) * (x' * z') + (y * z) * (y' * z') + (x * w) * (x' * w') + (y * w) * (y' * w') + (z * w) * (z' * w'))); [unfold d; ring|].
    rewrite <- S1, <- S2, <- S3, <- S4, <- P1, <- P2, <- P3, <- P4, <- P5, <- P6. transitivity ((x * x + y * y + z * z + w * w) * (x * x + y * y + z * z + w * w)); [ring|rewrite A; ring]. }
  assert (forall u v, 0 <= u * u + v * v) as NN by (intros; nra).
  assert (d = 1 \/ d = - 1) as [Q|Q] by (assert ((d - 1) * (d + 1) = 0) as Z by lra; apply Rmult_integral in Z as [Z|Z]; lra).
  - left. assert ((x - x') * (x - x') + (y - y') * (y - y') + (z - z') * (z - z') + (w - w') * (w - w') = 0) as Z by (unfold d in Q; lra).
    pose proof (Rle_0_sqr (x - x')). pose proof (Rle_0_sqr (y - y')). pose proof (Rle_0_sqr (z - z')). pose proof (Rle_0_sqr (w - w')). unfold Rsqr in *.
    assert (forall t, t * t = 0 -> t = 0) as R by (intros t T; apply Rmult_integral in T; tauto). f_equal; [apply (fun k => Rminus_diag_uniq_sym _ _ (R _ k))..]; lra.
  - right. assert ((x + x') * (x + x') + (y + y') * (y + y') + (z + z') * (z + z') + (w + w') * (w + w') = 0) as Z by (unfold d in Q; lra).
    pose proof (Rle_0_sqr (x + x')). pose proof (Rle_0_sqr (y + y')). pose proof (Rle_0_sqr (z + z')). pose proof (Rle_0_sqr (w + w')). unfold Rsqr in *.
    assert (forall t, t * t = 0 -> t = 0) as R by (intros t T; apply Rmult_integral in T; tauto).
    assert (x + x' = 0) by (apply R; lra). assert (y + y' = 0) by (apply R; lra). assert (z + z' = 0) by (apply R; lra). assert (w + w' = 0) by (apply R; lra). f_equal; lra.
Qed.
Lemma special_full_quat : forall q, full (quaternion_matrix q).
Proof.
  intros q. pose proof eps_pos. destruct (Rlt_dec (norm2 q) eps) as [L|L].
  - unfold quaternion_matrix. fold (norm2 q). destruct (Rlt_dec _ _); [|lra]. unfold full, identity. mfields. lra.
  - rewrite matrix_homog by lra. assert (norm2 q <> 0) as N by lra. destruct q as [a b c d]. unfold full, norm2 in *. qfields. mfields.
    repeat split; field; exact N.
Qed.
Theorem C267_every : forall q, is_rotation (quaternion_matrix q).
Proof. intros q. apply full_rotation, special_full_quat. Qed.
Lemma norm_scale : forall k q, norm2 (scale k q) = k * k * norm2 q. Proof. intros k [x y z w]. unfold norm2, scale. qfields. ring. Qed.
Lemma unit_norm : forall n, 0 < n -> 1 / sqrt n * (1 / sqrt n) * n = 1.
Proof. intros n N. assert (0 < sqrt n) by (apply sqrt_lt_R0; lra). assert (sqrt n * sqrt n = n) as S by (apply sqrt_sqrt; lra). rewrite <- S at 3. field. lra. Qed.
Lemma matrix_scale : forall k q, eps <= norm2 q -> eps <= norm2 (scale k q) -> quaternion_matrix (scale k q) = quaternion_matrix q.
Proof.
  intros k q A B. rewrite !matrix_homog by assumption. pose proof eps_pos. rewrite norm_scale in *. assert (norm2 q <> 0) as N by lra. assert (k <> 0) as K by (intros ->; lra). unfold scale. qfields. f_equal; field; split; assumption.
Qed.
(** The quaternion comes back, scaled to length 1 and up to its sign. *)
Theorem C267_sign : forall q, limit <= norm2 q -> exists s, (s = 1 \/ s = - 1) /\ quaternion_from_matrix (quaternion_matrix q) = scale (s / sqrt (norm2 q)) q.
Proof.
  intros q L. destruct (back_full _ (special_full_quat q)) as [N E]. change limit with eps in L. pose proof eps_pos. pose proof eps_small. set (n := norm2 q) in *.
  assert (norm2 (scale (1 / sqrt n) q) = 1) as U by (rewrite norm_scale; apply unit_norm; unfold n in *; lra).
  assert (quaternion_matrix (scale (1 / sqrt n) q) = quaternion_matrix q) as M by (apply matrix_scale; [exact L|rewrite U; lra]).
  destruct (same_matrix (scale (1 / sqrt n) q) (quaternion_from_matrix (quaternion_matrix q)) U N) as [-> | ->]; [now rewrite E, M| |].
  - exists 1. split; [now left|reflexivity].
  - exists (- 1). split; [now right|]. assert (sqrt n <> 0) by (pose proof (sqrt_lt_R0 n ltac:(lra)); lra). destruct q. unfold scale. qfields. f_equal; field; assumption.
Qed.
(** Products of quaternions are products of rotations. *)
Lemma hamilton_assoc : forall a b c, hamilton a (hamilton b c) = hamilton (hamilton a b) c.
Proof. intros [x y z w] [x' y' z' w'] [p q r s]. unfold hamilton. qfields. f_equal; ring. Qed.
Lemma multiply_hamilton : forall a b, quaternion_multiply a b = hamilton a b.
Proof. intros [x y z w] [x' y' z' w']. unfold hamilton, quaternion_multiply. qfields. f_equal; ring. Qed.
Lemma hamilton_norm : forall a b, norm2 (hamilton a b) = norm2 a * norm2 b.
Proof. intros [x y z w] [x' y' z' w']. unfold hamilton, norm2. qfields. ring. Qed.
Lemma hamilton_inverse : forall a b, norm2 a <> 0 -> norm2 b <> 0 -> inverse (hamilton a b) = hamilton (inverse b) (inverse a).
Proof.
  intros a b A B. unfold inverse. rewrite hamilton_norm. set (n := norm2 a) in *. set (k := norm2 b) in *. clearbody n k. destruct a as [x y z w], b as [x' y' z' w']. unfold hamilton. qfields. f_equal; field; split; assumption.
Qed.
Definition pure (v : vec) : quat := mkquat (vx v) (vy v) (vz v) 0.
Lemma rotate_pure : forall q v, hamilton (hamilton q (pure v)) (inverse q) = pure (rotate q v).
Proof.
  intros q v. unfold rotate. fold (pure v). set (r := hamilton (hamilton q (pure v)) (inverse q)). assert (qw r = 0) as W.
  { unfold r, inverse. set (n := norm2 q). clearbody n. destruct q as [x y z w], v as [[a b] c]. unfold hamilton, pure, vx, vy, vz. qfields. cbn [fst snd]. unfold Rdiv. ring. }
  clearbody r. destruct r. unfold pure, vx, vy, vz. cbn [fst snd]. qfields. now rewrite W.
Qed.
Theorem C267_product : forall a b v, limit <= norm2 a -> limit <= norm2 b -> limit <= norm2 (quaternion_multiply a b) ->
  apply (quaternion_matrix (quaternion_multiply a b)) v = apply (quaternion_matrix a) (apply (quaternion_matrix b) v).
Proof.
  intros a b v A B C. change limit with eps in *. rewrite !apply_rotate by assumption. pose proof eps_pos. rewrite multiply_hamilton.
  assert (pure (rotate (hamilton a b) v) = pure (rotate a (rotate b v))) as E.
  { rewrite <- !rotate_pure, hamilton_inverse by lra. now rewrite !hamilton_assoc. }
  destruct (rotate (hamilton a b) v) as [[p q] r]. destruct (rotate a (rotate b v)) as [[p' q'] r']. unfold pure, vx, vy, vz in E. cbn [fst snd] in E. now injection E as -> -> ->.
Qed.
Theorem C267_algebra : forall a b c,
  quaternion_multiply a (quaternion_multiply b c) = quaternion_multiply (quaternion_multiply a b) c /\
  norm2 (quaternion_multiply a b) = norm2 a * norm2 b /\
  (norm2 a <> 0 -> quaternion_multiply a (quaternion_inverse a) = mkquat 0 0 0 1 /\ quaternion_multiply (quaternion_inverse a) a = mkquat 0 0 0 1).
Proof.
  intros [x y z w] [x' y' z' w'] [p q r s]. unfold quaternion_multiply, norm2, quaternion_inverse, quaternion_conjugate, qdot. qfields. split; [f_equal; ring|]. split; [ring|].
  intros N. split; f_equal; field; exact N.
Qed.
(** The conjugate turns back. *)
Definition transposed (m : mat) : mat := mkmat (r00 m) (r10 m) (r20 m) (r01 m) (r11 m) (r21 m) (r02 m) (r12 m) (r22 m).
Lemma transposed_back : forall m v, full m -> apply (transposed m) (apply m v) = v.
Proof.
  intros [a b c d e f g h i] [[x y] z] (_ & (N1 & N2 & N3 & P1 & P2 & P3) & _). unfold transposed, apply. mfields. f_equal; [f_equal|].
  - transitivity ((a * a + d * d + g * g) * x + (a * b + d * e + g * h) * y + (a * c + d * f + g * i) * z); [ring|rewrite N1, P1, P2; ring].
  - transitivity ((a * b + d * e + g * h) * x + (b * b + e * e + h * h) * y + (b * c + e * f + h * i) * z); [ring|rewrite P1, N2, P3; ring].
  - transitivity ((a * c + d * f + g * i) * x + (b * c + e * f + h * i) * y + (c * c + f * f + i * i) * z); [ring|rewrite P2, P3, N3; ring].
Qed.
Theorem C267_conjugate : forall q v, apply (quaternion_matrix (quaternion_conjugate q)) (apply (quaternion_matrix q) v) = v.
Proof.
  intros q v. pose proof eps_pos. assert (norm2 (quaternion_conjugate q) = norm2 q) as NC by (destruct q; unfold norm2, quaternion_conjugate; qfields; ring).
  replace (quaternion_matrix (quaternion_conjugate q)) with (transposed (quaternion_matrix q)); [apply transposed_back, special_full_quat|].
  destruct (Rlt_dec (norm2 q) eps) as [L|L].
  - unfold quaternion_matrix. fold (norm2 q). fold (norm2 (quaternion_conjugate q)). rewrite NC. destruct (Rlt_dec _ _); [|lra]. reflexivity.
  - rewrite !matrix_homog by lra. rewrite NC. unfold transposed, quaternion_conjugate. qfields. mfields. f_equal; unfold Rdiv; ring.
Qed.
Theorem C267_random : forall u0 u1 u2, 0 <= u0 <= 1 -> norm2 (random_quaternion u0 u1 u2) = 1.
Proof.
  intros u0 u1 u2 U. unfold random_quaternion, norm2. qfields. set (a := PI * 2 * u1). set (b := PI * 2 * u2). pose proof (sin2_cos2 a) as A. pose proof (sin2_cos2 b) as B. unfold Rsqr in *.
  assert (sqrt (1 - u0) * sqrt (1 - u0) = 1 - u0) as S1 by (apply sqrt_sqrt; lra). assert (sqrt u0 * sqrt u0 = u0) as S2 by (apply sqrt_sqrt; lra).
  replace (_ + _) with ((sin a * sin a + cos a * cos a) * (sqrt (1 - u0) * sqrt (1 - u0)) + (sin b * sin b + cos b * cos b) * (sqrt u0 * sqrt u0)) by ring. rewrite A, B, S1, S2. ring.
Qed.
(** ** Turning about an axis *)
Definition rodrigues (u : vec) (a : R) (v : vec) : vec :=
  let '(x, y, z) := v in let '(p, q, r) := u in let '(s, t, w) := cross u v in let d := (1 - cos a) * dot u v in
  (cos a * x + sin a * s + d * p, cos a * y + sin a * t + d * q, cos a * z + sin a * w + d * r).
Definition len (v : vec) : R := sqrt (dot v v).
Definition along (v : vec) : vec := let '(x, y, z) := v in (x / len v, y / len v, z / len v).
Theorem C267_about : forall a axis v, limit < len axis -> norm2 (quaternion_about_axis a axis) = 1 /\
  apply (quaternion_matrix (quaternion_about_axis a axis)) v = rodrigues (along axis) a v.
Proof.
  intros a [[x y] z] [[s t] w] L. change limit with eps in L. pose proof eps_pos. unfold quaternion_about_axis, qdot, vx, vy, vz. cbn [fst snd]. qfields. unfold along. unfold len, dot in *.
  replace (x * x + y * y + z * z + 0 * 0) with (x * x + y * y + z * z) by ring. assert (sqrt (x * x + y * y + z * z) * sqrt (x * x + y * y + z * z) = x * x + y * y + z * z) as S by (apply sqrt_sqrt; nra).
  set (n := sqrt _) in *. clearbody n. destruct (Rlt_dec eps n); [|lra]. unfold qscale. qfields. unfold qset, qget. cbn [Nat.eqb]. qfields.
  assert (exists p, p * n = x) as (p & <-) by (exists (x / n); field; lra). assert (exists q, q * n = y) as (q & <-) by (exists (y / n); field; lra). assert (exists r, r * n = z) as (r' & <-) by (exists (z / n); field; lra).
  assert (r' * r' = 1 - p * p - q * q) as U by (apply (Rmult_eq_reg_r (n * n)); [lra|nra]).
  assert (forall u k, u * n * (k / n) = u * k) as E by (intros; field; lra). rewrite !E. assert (forall u, u * n / n = u) as E' by (intros; field; lra). rewrite !E'.
  pose proof (sin2_cos2 (a / 2)) as T. unfold Rsqr in T. assert (cos (a / 2) * cos (a / 2) = 1 - sin (a / 2) * sin (a / 2)) as T' by lra.
  match goal with |- norm2 ?q = 1 /\ _ => assert (norm2 q = 1) as N by (unfold norm2; qfields; ring [T' U]) end. split; [exact N|]. rewrite (matrix_unit _ N). qfields.
  unfold apply, rodrigues, cross, dot. mfields. replace (cos a) with (1 - 2 * sin (a / 2) * sin (a / 2)) by (rewrite <- cos_2a_sin; f_equal; lra). replace (sin a) with (2 * sin (a / 2) * cos (a / 2)) by (rewrite <- sin_2a; f_equal; lra).
  f_equal; [f_equal|]; ring [T' U].
Qed.

(** ** Interpolation *)
Definition qcos (a b : quat) : R := (qx a * qx b + qy a * qy b + qz a * qz b + qw a * qw b) / (sqrt (norm2 a) * sqrt (norm2 b)).
Lemma qdot_norm : forall a, qdot a a = norm2 a. Proof. reflexivity. Qed.
Lemma qunit_scale : forall q, qunit q = scale (1 / sqrt (norm2 q)) q.
Proof. intros [x y z w]. unfold qunit, scale. rewrite qdot_norm. qfields. f_equal; unfold Rdiv; ring. Qed.
Lemma qunit_norm : forall q, 0 < norm2 q -> norm2 (qunit q) = 1.
Proof. intros q P. rewrite qunit_scale, norm_scale. now apply unit_norm. Qed.
Lemma qdot_unit : forall a b, 0 < norm2 a -> 0 < norm2 b -> qdot (qunit a) (qunit b) = qcos a b.
Proof.
  intros a b A B. pose proof (sqrt_lt_R0 _ A). pose proof (sqrt_lt_R0 _ B). rewrite !qunit_scale. unfold qcos, qdot. set (n := sqrt (norm2 a)) in *. set (m := sqrt (norm2 b)) in *. clearbody n m. destruct a, b. unfold scale. qfields. field. lra.
Qed.
Lemma qdot_sym : forall a b, qdot a b = qdot b a. Proof. intros. unfold qdot. ring. Qed.
Lemma cauchy : forall a b, norm2 a = 1 -> norm2 b = 1 -> -1 <= qdot a b <= 1.
Proof.
  intros [x y z w] [p q r s] A B. unfold norm2, qdot in *. qfields.
  pose proof (Rle_0_sqr (x - p)). pose proof (Rle_0_sqr (y - q)). pose proof (Rle_0_sqr (z - r)). pose proof (Rle_0_sqr (w - s)).
  pose proof (Rle_0_sqr (x + p)). pose proof (Rle_0_sqr (y + q)). pose proof (Rle_0_sqr (z + r)). pose proof (Rle_0_sqr (w + s)). unfold Rsqr in *. split; lra.
Qed.
(** The weighted sum for two quaternions of length 1 at the angle [t]. *)
Lemma slerp_core : forall a b t f, norm2 a = 1 -> norm2 b = 1 -> qdot a b = cos t -> sin t <> 0 ->
  let q := qadd (qscale (sin ((1 - f) * t) * (1 / sin t)) a) (qscale (sin (f * t) * (1 / sin t)) b) in
  norm2 q = 1 /\ qdot q a = cos (f * t) /\ qdot q b = cos ((1 - f) * t).
Proof.
  intros a b t f A B D S. cbv zeta. replace ((1 - f) * t) with (t - f * t) by ring. set (p := f * t). pose proof (sin_minus t p) as SM. pose proof (cos_minus t p) as CM.
  pose proof (sin2_cos2 p) as P. pose proof (sin2_cos2 t) as T. unfold Rsqr in *. set (k := sin (t - p) * (1 / sin t)). set (l := sin p * (1 / sin t)). set (q := qadd (qscale k a) (qscale l b)).
  assert (qdot q a = k + l * cos t) as QA by (rewrite <- D; transitivity (k * norm2 a + l * qdot a b); [|rewrite A; ring]; unfold q, qdot, qadd, qscale, norm2; qfields; ring).
  assert (qdot q b = k * cos t + l) as QB by (rewrite <- D; transitivity (k * qdot a b + l * norm2 b); [|rewrite B; ring]; unfold q, qdot, qadd, qscale, norm2; qfields; ring).
  assert (norm2 q = k * k + l * l + 2 * k * l * cos t) as QN by (rewrite <- D; transitivity (k * k * norm2 a + l * l * norm2 b + 2 * k * l * qdot a b); [|rewrite A, B; ring]; unfold q, qdot, qadd, qscale, norm2; qfields; ring).
  assert (k + l * cos t = cos p) as KA. { unfold k, l. rewrite SM. field. exact S. }
  assert (k * cos t + l = cos (t - p)) as KB.
  { apply (Rmult_eq_reg_r (sin t)); [|exact S]. transitivity (sin (t - p) * cos t + sin p); [unfold k, l; field; exact S|]. rewrite SM, CM. replace (sin p) with (sin p * (sin t * sin t + cos t * cos t)) at 2 by (rewrite T; ring). ring. }
  rewrite QA, QB, QN, KA, KB. split; [|split; reflexivity].
  transitivity (k * (k + l * cos t) + l * (k * cos t + l)); [ring|]. rewrite KA, KB. unfold k, l. rewrite SM, CM. transitivity (sin p * sin p + cos p * cos p); [field; exact S|exact P].
Qed.
Theorem C267_slerp : forall a b f, 0 < norm2 a -> 0 < norm2 b -> 0 <= f <= 1 -> Rabs (qcos a b) <= 1 - limit ->
  let t := acos (Rabs (qcos a b)) in let q := quaternion_slerp a b f 0 true in
  norm2 q = 1 /\ Rabs (qcos q a) = cos (f * t) /\ Rabs (qcos q b) = cos ((1 - f) * t).
Proof.
  intros a b f A B F C t q. change limit with eps in C. pose proof eps_pos as EP. pose proof eps_small as ES. pose proof (qunit_norm a A) as NA. pose proof (qunit_norm b B) as NB.
  assert (0 <= Rabs (qcos a b)) as C0 by apply Rabs_pos. assert (-1 <= Rabs (qcos a b) <= 1) as C1 by lra. assert (cos t = Rabs (qcos a b)) as CT by (apply cos_acos; exact C1).
  assert (0 <= t <= PI) as TB by apply acos_bound. pose proof PI_RGT_0 as PI0.
  assert (t <= PI / 2) as T2. { destruct (Rle_lt_dec t (PI / 2)) as [H|H]; [exact H|]. pose proof (cos_lt_0 t H ltac:(lra)). lra. }
  assert (t <> 0) as T0 by (intros Z; rewrite Z, cos_0 in CT; lra). assert (0 < sin t) as ST by (apply sin_gt_0; lra).
  assert (eps < t) as TE. { destruct (Rlt_le_dec eps t) as [H|H]; [exact H|]. exfalso. assert (sin t < t) as SL by (apply sin_lt_x; lra). pose proof (sin2_cos2 t) as Q. unfold Rsqr in Q. rewrite CT in Q. assert (sin t * sin t <= eps * eps) by nra. nra. }
  assert (norm2 q = 1 /\ Rabs (qdot q (qunit a)) = cos (f * t) /\ Rabs (qdot q (qunit b)) = cos ((1 - f) * t)) as (N & QA & QB).
  { assert (0 <= cos (f * t)) as CF by (apply cos_ge_0; nra). assert (0 <= cos ((1 - f) * t)) as CG by (apply cos_ge_0; nra).
    unfold q, quaternion_slerp. destruct (Req_EM_T f 0) as [->|F0].
    { split; [exact NA|]. rewrite qdot_norm, NA, (qdot_unit a b A B). replace (0 * t) with 0 by ring. replace ((1 - 0) * t) with t by ring. rewrite cos_0, Rabs_pos_eq by lra. split; [reflexivity|now rewrite CT]. }
    destruct (Req_EM_T f 1) as [->|F1].
    { split; [exact NB|]. rewrite (qdot_norm (qunit b)), NB, (qdot_sym (qunit b)), (qdot_unit a b A B). replace (1 * t) with t by ring. replace ((1 - 1) * t) with 0 by ring. rewrite cos_0, (Rabs_pos_eq 1) by lra. split; [now rewrite CT|reflexivity]. }
    rewrite (qdot_unit a b A B). destruct (Rlt_dec (Rabs (Rabs (qcos a b) - 1)) eps) as [L|_]; [rewrite Rabs_left1 in L by lra; lra|].
    destruct (Rlt_dec (qcos a b) 0) as [L|L].
    - assert (- qcos a b = cos t) as D by (rewrite CT, Rabs_left by lra; reflexivity). replace (acos (- qcos a b)) with t by (unfold t; rewrite Rabs_left by lra; reflexivity).
      replace (t + 0 * PI) with t by ring. destruct (Rlt_dec (Rabs t) eps) as [K|_]; [rewrite Rabs_pos_eq in K by lra; lra|].
      assert (norm2 (qscale (- 1) (qunit b)) = 1) as NB' by (unfold norm2, qscale in *; qfields; lra).
      assert (qdot (qunit a) (qscale (- 1) (qunit b)) = cos t) as D' by (rewrite <- D, <- (qdot_unit a b A B); unfold qdot, qscale; qfields; ring).
      destruct (slerp_core (qunit a) (qscale (- 1) (qunit b)) t f NA NB' D' ltac:(lra)) as (N & X & Y). split; [exact N|]. rewrite X. split; [now apply Rabs_pos_eq|].
      rewrite <- Rabs_Ropp. rewrite <- (Rabs_pos_eq (cos ((1 - f) * t))) by exact CG. rewrite <- Y. f_equal. unfold qdot, qscale. qfields. ring.
    - assert (qcos a b = cos t) as D by (rewrite CT, Rabs_pos_eq by lra; reflexivity). replace (acos (qcos a b)) with t by (unfold t; rewrite Rabs_pos_eq by lra; reflexivity).
      replace (t + 0 * PI) with t by ring. destruct (Rlt_dec (Rabs t) eps) as [K|_]; [rewrite Rabs_pos_eq in K by lra; lra|].
      rewrite <- (qdot_unit a b A B) in D. destruct (slerp_core (qunit a) (qunit b) t f NA NB D ltac:(lra)) as (N & X & Y). split; [exact N|]. rewrite X, Y. split; now apply Rabs_pos_eq. }
  assert (qunit q = q) as UQ by (rewrite qunit_scale, N, sqrt_1; destruct q; unfold scale; qfields; f_equal; field).
  split; [exact N|]. rewrite <- (qdot_unit q a), <- (qdot_unit q b), UQ by lra. split; assumption.
Qed.
(** It starts and ends with the rotations given. *)
Theorem C267_ends : forall a b spin short, limit <= norm2 a -> limit <= norm2 b ->
  quaternion_matrix (quaternion_slerp a b 0 spin short) = quaternion_matrix a /\ quaternion_matrix (quaternion_slerp a b 1 spin short) = quaternion_matrix b.
Proof.
  intros a b spin short A B. change limit with eps in *. pose proof eps_pos. pose proof eps_small. unfold quaternion_slerp. destruct (Req_EM_T 0 0) as [_|N]; [|lra]. destruct (Req_EM_T 1 0) as [N|_]; [lra|]. destruct (Req_EM_T 1 1) as [_|N]; [|lra].
  split; rewrite qunit_scale; apply matrix_scale; try assumption; rewrite norm_scale, unit_norm by lra; lra.
Qed.

(** ** What does not hold *)
Definition upright : quat := mkquat 0 0 0 1.
Definition third : quat := mkquat (sqrt 3 / 2) 0 0 (1 / 2).
Lemma sqrt3 : sqrt 3 * sqrt 3 = 3. Proof. apply sqrt_sqrt. lra. Qed.
Lemma qunit_id : forall q, norm2 q = 1 -> qunit q = q.
Proof. intros q N. rewrite qunit_scale, N, sqrt_1. destruct q. unfold scale. qfields. f_equal; field. Qed.
Lemma third_norm : norm2 third = 1. Proof. unfold norm2, third. qfields. pose proof sqrt3. lra. Qed.
Lemma acos_half : acos (1 / 2) = PI / 3.
Proof. rewrite <- cos_PI3. pose proof PI_RGT_0. apply acos_cos. lra. Qed.
(** An extra half turn makes the quaternion three times too long (its norm squared). *)
Theorem C268_spin_refuted : exists a b f, norm2 a = 1 /\ norm2 b = 1 /\ 0 <= f <= 1 /\ norm2 (quaternion_slerp a b f 1 true) = 3.
Proof.
  exists upright, third, (1 / 2). pose proof eps_small as ES. pose proof eps_pos. pose proof PI_RGT_0 as P. assert (norm2 upright = 1) as NU by (unfold norm2, upright; qfields; ring). split; [exact NU|]. split; [apply third_norm|]. split; [lra|].
  unfold quaternion_slerp. destruct (Req_EM_T (1 / 2) 0); [lra|]. destruct (Req_EM_T (1 / 2) 1); [lra|]. rewrite (qunit_id upright NU), (qunit_id third third_norm).
  assert (qdot upright third = 1 / 2) as -> by (unfold qdot, upright, third; qfields; ring). rewrite (Rabs_pos_eq (1 / 2)) by lra. destruct (Rlt_dec (Rabs (1 / 2 - 1)) eps) as [L|_]; [rewrite Rabs_left1 in L by lra; lra|].
  destruct (Rlt_dec (1 / 2) 0); [lra|]. rewrite acos_half, Rmult_1_l. destruct (Rlt_dec (Rabs (PI / 3 + PI)) eps) as [L|_]; [rewrite Rabs_pos_eq in L by lra; pose proof PI_4; pose proof PI2_1; lra|].
  replace ((1 - 1 / 2) * (PI / 3 + PI)) with (PI - PI / 3) by lra. replace (1 / 2 * (PI / 3 + PI)) with (PI - PI / 3) by lra. rewrite sin_PI_x, neg_sin, sin_PI3. pose proof sqrt3 as S. assert (0 < sqrt 3) by (apply sqrt_lt_R0; lra).
  replace (sqrt 3 / 2 * (1 / - (sqrt 3 / 2))) with (- 1) by (field; lra). unfold norm2, qadd, qscale, upright, third. qfields. lra.
Qed.
(** Just before the end it can be the opposite quaternion of that at the end. *)
Theorem C268_jump_refuted : exists a b, norm2 a = 1 /\ norm2 b = 1 /\ quaternion_slerp a b 1 0 true = b /\
  forall f, 0 < f < 1 -> let q := quaternion_slerp a b f 0 true in 2 <= norm2 (mkquat (qx q - qx b) (qy q - qy b) (qz q - qz b) (qw q - qw b)).
Proof.
  exists upright, (scale (-1) third). pose proof eps_small as ES. pose proof eps_pos. pose proof PI_RGT_0 as P. assert (norm2 upright = 1) as NU by (unfold norm2, upright; qfields; ring). split; [exact NU|].
  assert (norm2 (scale (-1) third) = 1) as NT by (rewrite norm_scale, third_norm; ring). split; [exact NT|]. split.
  - unfold quaternion_slerp. destruct (Req_EM_T 1 0); [lra|]. destruct (Req_EM_T 1 1); [|lra]. now apply qunit_id.
  - intros f F. cbv zeta. unfold quaternion_slerp. destruct (Req_EM_T f 0); [lra|]. destruct (Req_EM_T f 1); [lra|]. rewrite (qunit_id upright NU), (qunit_id _ NT).
    assert (qdot upright (scale (-1) third) = - (1 / 2)) as -> by (unfold qdot, upright, third, scale; qfields; ring). rewrite (Rabs_left (- (1 / 2))) by lra. destruct (Rlt_dec (Rabs (- - (1 / 2) - 1)) eps) as [L|_]; [rewrite Rabs_left1 in L by lra; lra|].
    destruct (Rlt_dec (- (1 / 2)) 0); [|lra]. rewrite Ropp_involutive, acos_half, Rmult_0_l, Rplus_0_r. destruct (Rlt_dec (Rabs (PI / 3)) eps) as [L|_]; [rewrite Rabs_pos_eq in L by lra; pose proof PI2_1; lra|].
    assert (qscale (-1) (scale (-1) third) = third) as -> by (unfold qscale, scale, third; qfields; f_equal; ring).
    destruct (slerp_core upright third (PI / 3) f NU third_norm) as (N & _ & Y); [rewrite cos_PI3; unfold qdot, upright, third; qfields; ring|rewrite sin_PI3; pose proof (sqrt_lt_R0 3 ltac:(lra)); lra|].
    set (q := qadd _ _) in *. clearbody q. assert (0 <= cos ((1 - f) * (PI / 3))) as C by (apply cos_ge_0; nra). rewrite <- Y in C. clear Y.
    pose proof third_norm as T. unfold norm2, qdot, scale in *. qfields. lra.
Qed.
(** Upper case names are read but not made. *)
Theorem C268_case_refuted : exists s, forall m x y z, euler_matrix (Named s) x y z = None /\ TransfModel.euler_from_matrix m (Named s) <> None /\ quaternion_from_euler (Named s) x y z <> None.
Proof.
  exists "SXYZ"%string. intros m x y z. split; [reflexivity|]. split.
  - change (TransfModel.euler_from_matrix m (Named "SXYZ")) with (TransfModel.euler_from_matrix m (Named "sxyz")). rewrite (read_code m (Named "sxyz") 0 0 0 0 eq_refl). discriminate.
  - discriminate.
Qed.
(** The middle angle of the z, y, z sequence comes back negative. *)
Theorem C268_middle_refuted : exists x y z m x' y' z', 0 < y < PI /\ euler_matrix (Named "szyz") x y z = Some m /\ TransfModel.euler_from_matrix m (Named "szyz") = Some (x', y', z') /\ y' < 0.
Proof.
  pose proof PI_RGT_0 as P. pose proof eps_small as ES. pose proof eps_pos. exists 0, (PI / 2), 0. destruct (make_code (Named "szyz") 2 1 1 0 0 (PI / 2) 0 eq_refl) as (m & M & RN).
  pose proof (read_code m (Named "szyz") 2 1 1 0 eq_refl) as Q. rewrite RN in Q. unfold core_make, negated, swapped, core_read, flag in Q. cbn [Nat.eqb negb] in Q. unfold read_repeated in Q. rewrite sy_repeated in Q.
  assert (Rabs (sin (- (PI / 2))) = 1) as S by (rewrite sin_neg, sin_PI2, Rabs_Ropp, Rabs_pos_eq; lra). rewrite S in Q. destruct (Rlt_dec eps 1); [|lra].
  exists m. do 3 eexists. split; [lra|]. split; [exact M|]. split; [exact Q|]. unfold repeated. cbn [r00]. rewrite cos_neg, cos_PI2. unfold atan2. destruct (Rlt_dec 0 0); [lra|]. destruct (Rlt_dec 0 1); lra.
Qed.

(** ** Examples *)
(** A quarter turn about z, then one about the x axis that was turned along: y goes up. *)
Example C267_example_euler : exists m, euler_matrix (Named "rzxz") (PI / 2) (PI / 2) 0 = Some m /\ apply m (0, 1, 0) = (0, 0, 1) /\ apply m (1, 0, 0) = (0, 1, 0).
Proof.
  destruct (C267_euler Rotating AZ AX AZ (PI / 2) (PI / 2) 0 ltac:(discriminate) ltac:(discriminate)) as (m & M & A). exists m. split; [exact M|].
  rewrite !A. unfold turns, turn. rewrite sin_PI2, cos_PI2, sin_0, cos_0. split; f_equal; try f_equal; ring.
Qed.
Example C267_example_slerp : quaternion_slerp upright third (1 / 2) 0 true = mkquat (1 / 2) 0 0 (sqrt 3 / 2).
Proof.
  pose proof eps_small as ES. pose proof eps_pos. pose proof PI_RGT_0 as P. assert (norm2 upright = 1) as NU by (unfold norm2, upright; qfields; ring).
  unfold quaternion_slerp. destruct (Req_EM_T (1 / 2) 0); [lra|]. destruct (Req_EM_T (1 / 2) 1); [lra|]. rewrite (qunit_id upright NU), (qunit_id third third_norm).
  assert (qdot upright third = 1 / 2) as -> by (unfold qdot, upright, third; qfields; ring). rewrite (Rabs_pos_eq (1 / 2)) by lra. destruct (Rlt_dec (Rabs (1 / 2 - 1)) eps) as [L|_]; [rewrite Rabs_left1 in L by lra; lra|].
  destruct (Rlt_dec (1 / 2) 0); [lra|]. rewrite acos_half, Rmult_0_l, Rplus_0_r. destruct (Rlt_dec (Rabs (PI / 3)) eps) as [L|_]; [rewrite Rabs_pos_eq in L by lra; pose proof PI2_1; lra|].
  replace ((1 - 1 / 2) * (PI / 3)) with (PI / 6) by lra. replace (1 / 2 * (PI / 3)) with (PI / 6) by lra. rewrite sin_PI3, sin_PI6. pose proof sqrt3 as S. assert (0 < sqrt 3) by (apply sqrt_lt_R0; lra).
  unfold qadd, qscale, upright, third. qfields. f_equal; try (field; lra). apply (Rmult_eq_reg_r (sqrt 3)); [|lra]. replace (sqrt 3 / 2 * sqrt 3) with (3 / 2) by lra. field. lra.
Qed.
Print Assumptions C267_euler.
Print Assumptions C267_names.
Print Assumptions C267_tuples.
Print Assumptions C267_angles.
Print Assumptions C267_exact.
Print Assumptions C267_same.
Print Assumptions C267_rotation.
Print Assumptions C267_quaternion.
Print Assumptions C267_back.
Print Assumptions C267_every.
Print Assumptions C267_sign.
Print Assumptions C267_product.
Print Assumptions C267_algebra.
Print Assumptions C267_conjugate.
Print Assumptions C267_random.
Print Assumptions C267_about.
Print Assumptions C267_slerp.
Print Assumptions C267_ends.
Print Assumptions C268_spin_refuted.
Print Assumptions C268_jump_refuted.
Print Assumptions C268_case_refuted.
Print Assumptions C268_middle_refuted.
