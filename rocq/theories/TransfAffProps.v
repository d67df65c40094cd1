(** C269, C270: transformations about a line, a plane or a point. *)
From Coq Require Import Ascii String Reals Lra Psatz List Bool Arith.
From Verif Require Import FramesModel FramesProps EulerModel EulerProps QuatModel QuatProps TransfModel TransfProps TransfQuatProps.
Import ListNotations.
Open Scope R_scope.

(** ** Specification *)
Definition plus (a b : vec) : vec := let '(x, y, z) := a in let '(u, v, w) := b in (x + u, y + v, z + w).
Definition minus (a b : vec) : vec := let '(x, y, z) := a in let '(u, v, w) := b in (x - u, y - v, z - w).
Definition times (k : R) (a : vec) : vec := let '(x, y, z) := a in (k * x, k * y, k * z).
(** A point under a matrix. *)
Definition act (t : affine) (p : vec) : vec := plus (apply (lin t) p) (col t).
Definition origin : vec := (0, 0, 0).
(** The distance of two points. *)
Definition dist (a b : vec) : R := len (minus a b).

Ltac vec3 v := destruct v as [[?x ?y] ?z].
Ltac flatv := cbv [act apply plus minus times dot cross vscale vsub vdot vadd mdot outer madd msub mscale lift2 mmul identity origin vx vy vz lin col r00 r01 r02 r10 r11 r12 r20 r21 r22 fst snd get].
Lemma unit_along : forall v, unit_vector v = along v.
Proof. intros [[x y] z]. unfold unit_vector, along, len, dot, vdot, vx, vy, vz. cbn [fst snd]. reflexivity. Qed.
Lemma len_pos : forall v, v <> origin -> 0 < len v.
Proof.
  intros [[x y] z] N. unfold len, dot. apply sqrt_lt_R0. destruct (Req_dec x 0) as [->|X]; [|nra]. destruct (Req_dec y 0) as [->|Y]; [|nra]. destruct (Req_dec z 0) as [->|Z]; [|nra]. now elim N.
Qed.
Lemma along_unit : forall v, v <> origin -> dot (along v) (along v) = 1.
Proof.
  intros v N. pose proof (len_pos v N) as L. destruct v as [[x y] z]. unfold along. assert (len (x, y, z) * len (x, y, z) = x * x + y * y + z * z) as S by (unfold len, dot in *; apply sqrt_sqrt; nra).
  set (n := len (x, y, z)) in *. clearbody n. unfold dot. transitivity ((x * x + y * y + z * z) / (n * n)); [field; lra|]. rewrite S. field. nra.
Qed.
Lemma dist_dot : forall a b c d, dot (minus a b) (minus a b) = dot (minus c d) (minus c d) -> dist a b = dist c d.
Proof. intros a b c d H. unfold dist, len. now rewrite H. Qed.
Lemma vec_eq : forall a b c d e f : R, a = d -> b = e -> c = f -> (a, b, c) = (d, e, f). Proof. intros; now subst. Qed.

(** ** About a line *)
Theorem C269_rotation : forall a d p x, act (rotation_matrix a d (Some p)) x = plus p (rodrigues (along d) a (minus x p)) /\
  act (rotation_matrix a d None) x = rodrigues (along d) a x.
Proof.
  intros a d p x. unfold rotation_matrix. rewrite unit_along. destruct (along d) as [[u v] w]. vec3 p. vec3 x. unfold rodrigues. flatv. split; apply vec_eq; ring.
Qed.
Lemma dot_rodrigues : forall u a x, dot u u = 1 -> dot u (rodrigues u a x) = dot u x.
Proof.
  intros [[p q] r] a [[x y] z] U. unfold rodrigues, dot, cross in *. transitivity (cos a * (p * x + q * y + r * z) + (1 - cos a) * (p * x + q * y + r * z) * (p * p + q * q + r * r)); [ring|rewrite U; ring].
Qed.
Lemma cross_rodrigues : forall u a x, dot u u = 1 -> cross u (rodrigues u a x) = plus (times (cos a) (cross u x)) (times (sin a) (minus (times (dot u x) u) x)).
Proof.
  intros [[p q] r] a [[x y] z] U. unfold rodrigues, dot, cross, plus, times, minus in *. apply vec_eq.
  - transitivity (cos a * (q * z - r * y) + sin a * ((p * x + q * y + r * z) * p - (p * p + q * q + r * r) * x)); [ring|rewrite U; ring].
  - transitivity (cos a * (r * x - p * z) + sin a * ((p * x + q * y + r * z) * q - (p * p + q * q + r * r) * y)); [ring|rewrite U; ring].
  - transitivity (cos a * (p * y - q * x) + sin a * ((p * x + q * y + r * z) * r - (p * p + q * q + r * r) * z)); [ring|rewrite U; ring].
Qed.
Lemma rodrigues_parts : forall u a x, rodrigues u a x = plus (plus (times (cos a) x) (times (sin a) (cross u x))) (times ((1 - cos a) * dot u x) u).
Proof. intros [[p q] r] a [[x y] z]. unfold rodrigues. destruct (cross (p, q, r) (x, y, z)) as [[s t] w]. reflexivity. Qed.
Lemma rodrigues_add : forall u a b x, dot u u = 1 -> rodrigues u a (rodrigues u b x) = rodrigues u (a + b) x.
Proof.
  intros u a b x U. rewrite (rodrigues_parts u a (rodrigues u b x)), (dot_rodrigues u b x U), (cross_rodrigues u b x U), !rodrigues_parts, cos_plus, sin_plus.
  set (d := dot u x). set (g := cross u x). clearbody d g. destruct u as [[p q] r], x as [[x y] z], g as [[g h] k]. unfold plus, times, minus. apply vec_eq; ring.
Qed.
Lemma along_along : forall d, d <> origin -> along (along d) = along d /\ len (along d) = 1.
Proof.
  intros d N. assert (len (along d) = 1) as L by (unfold len; rewrite (along_unit d N); apply sqrt_1). split; [|exact L]. destruct (along d) as [[u v] w]. unfold along. rewrite L. apply vec_eq; field.
Qed.
Lemma rodrigues_rotation : forall d a, d <> origin -> exists m, is_rotation m /\ forall x, apply m x = rodrigues (along d) a x.
Proof.
  intros d a N. destruct (along_along d N) as [E L]. exists (quaternion_matrix (quaternion_about_axis a (along d))). split; [apply C267_every|]. intros x.
  destruct (C267_about a (along d) x) as [_ H]; [rewrite L; unfold limit; lra|]. now rewrite H, E.
Qed.
Lemma apply_minus : forall m x y, apply m (minus x y) = minus (apply m x) (apply m y).
Proof. intros [a b c d e f g h i] [[x y] z] [[x' y'] z']. unfold apply, minus. mfields. apply vec_eq; ring. Qed.
(** It turns around, keeping distances, the line through the point; turns add up; a whole turn
    leaves everything in place. *)
Theorem C269_line : forall a b d p k x y, d <> origin ->
  act (rotation_matrix a d (Some p)) (plus p (times k d)) = plus p (times k d) /\
  dist (act (rotation_matrix a d (Some p)) x) (act (rotation_matrix a d (Some p)) y) = dist x y /\
  act (rotation_matrix a d (Some p)) (act (rotation_matrix b d (Some p)) x) = act (rotation_matrix (a + b) d (Some p)) x /\
  act (rotation_matrix (2 * PI) d (Some p)) x = x /\
  is_rotation (lin (rotation_matrix a d (Some p))).
Proof.
  intros a b d p k x y N. pose proof (along_unit d N) as U. pose proof (len_pos d N) as L. assert (forall t q, act (rotation_matrix t d (Some p)) q = plus p (rodrigues (along d) t (minus q p))) as A by (intros; apply C269_rotation).
  assert (forall s t, minus (plus s t) s = t) as PM by (intros [[s1 s2] s3] [[t1 t2] t3]; unfold plus, minus; apply vec_eq; ring). assert (forall s t, plus s (minus t s) = t) as MP by (intros [[s1 s2] s3] [[t1 t2] t3]; unfold plus, minus; apply vec_eq; ring).
  destruct (rodrigues_rotation d a N) as (m & RM & M). split; [|split; [|split; [|split]]].
  - rewrite A, PM. f_equal. assert (d = times (len d) (along d)) as E by (destruct d as [[u v] w]; unfold along, times; apply vec_eq; field; lra). set (n := len d) in *. clearbody n. rewrite E at 2 3. clear E A M. destruct (along d) as [[u v] w]. rewrite rodrigues_parts. unfold dot, cross, plus, times in *.
    apply vec_eq.
    + transitivity (cos a * (k * (n * u)) + (1 - cos a) * (k * n) * (u * u + v * v + w * w) * u); [ring|rewrite U; ring].
    + transitivity (cos a * (k * (n * v)) + (1 - cos a) * (k * n) * (u * u + v * v + w * w) * v); [ring|rewrite U; ring].
    + transitivity (cos a * (k * (n * w)) + (1 - cos a) * (k * n) * (u * u + v * v + w * w) * w); [ring|rewrite U; ring].
  - rewrite !A. apply dist_dot. replace (minus (plus p (rodrigues (along d) a (minus x p))) (plus p (rodrigues (along d) a (minus y p)))) with (apply m (minus x y)); [apply RM|].
    rewrite <- !M, !apply_minus. destruct (apply m x) as [[x1 x2] x3], (apply m y) as [[y1 y2] y3], (apply m p) as [[p1 p2] p3]. vec3 p. unfold minus, plus. apply vec_eq; ring.
  - rewrite !A, PM, rodrigues_add by exact U. reflexivity.
  - rewrite A, rodrigues_parts, sin_2PI, cos_2PI. clear A M. transitivity (plus p (minus x p)); [|apply MP]. f_equal. destruct (minus x p) as [[x1 x2] x3]. destruct (along d) as [[u v] w]. unfold cross, dot, plus, times. apply vec_eq; ring.
  - replace (lin (rotation_matrix a d (Some p))) with m; [exact RM|]. apply mat_ext. intros q. rewrite M. destruct (C269_rotation a d p q) as [_ H]. rewrite <- H. unfold act, rotation_matrix. cbn [lin col]. destruct (apply _ q) as [[q1 q2] q3]. unfold plus. apply vec_eq; ring.
Qed.

(** ** The axis of a matrix *)
Lemma sin_parts : forall x y z k w, x * x + y * y + z * z = 1 -> (if Rlt_dec (1 / 100000000) (Rabs z) then 2 * k * w * z / z else if Rlt_dec (1 / 100000000) (Rabs y) then 2 * k * w * y / y else 2 * k * w * x / x) = 2 * k * w.
Proof.
  intros x y z k w U. destruct (Rlt_dec _ (Rabs z)) as [Z|Z]; [field; intros ->; rewrite Rabs_R0 in Z; lra|]. destruct (Rlt_dec _ (Rabs y)) as [Y|Y]; [field; intros ->; rewrite Rabs_R0 in Y; lra|].
  field. intros ->. apply Rnot_lt_le in Z, Y. pose proof (Rabs_pos z). pose proof (Rabs_pos y). assert (z * z = Rabs z * Rabs z) as Z2 by (rewrite <- Rabs_mult, Rabs_pos_eq; nra). assert (y * y = Rabs y * Rabs y) as Y2 by (rewrite <- Rabs_mult, Rabs_pos_eq; nra). nra.
Qed.
(** A quaternion of length 1 that keeps a vector of length 1 points along it. *)
Lemma axis_of : forall q d, norm2 q = 1 -> dot d d = 1 -> apply (quaternion_matrix q) d = d -> let k := dot (qx q, qy q, qz q) d in (qx q, qy q, qz q) = times k d.
Proof.
  intros q d N U E k. rewrite (matrix_unit q N) in E. destruct q as [a b c w], d as [[x y] z]. unfold k, times, dot, apply, norm2 in *. clear k. qfields. mfields.
  assert (E1 := f_equal (fun v => fst (fst v)) E). assert (E2 := f_equal (fun v => snd (fst v)) E). assert (E3 := f_equal snd E). cbn [fst snd] in *. clear E.
  set (p := b * z - c * y). set (q := c * x - a * z). set (r := a * y - b * x).
  assert (w * p + (b * r - c * q) = 0) as F1 by (unfold p, q, r; lra). assert (w * q + (c * p - a * r) = 0) as F2 by (unfold p, q, r; lra). assert (w * r + (a * q - b * p) = 0) as F3 by (unfold p, q, r; lra).
  assert (a * p + b * q + c * r = 0) as O by (unfold p, q, r; ring).
  assert ((w * w + (a * a + b * b + c * c)) * (p * p + q * q + r * r) = 0) as Z.
  { transitivity ((w * p + (b * r - c * q)) * (w * p + (b * r - c * q)) + (w * q + (c * p - a * r)) * (w * q + (c * p - a * r)) + (w * r + (a * q - b * p)) * (w * r + (a * q - b * p)) + (a * p + b * q + c * r) * (a * p + b * q + c * r)); [ring|rewrite F1, F2, F3, O; ring]. }
  assert (p * p + q * q + r * r = 0) as Z' by nra. assert (p = 0) as P by nra. assert (q = 0) as Q by nra. assert (r = 0) as R by nra. unfold p, q, r in P, Q, R.
  assert (forall s t u v, u = 0 -> s - v = t * u -> s = v) as K by (intros; nra).
  apply vec_eq.
  - transitivity (a * (x * x + y * y + z * z)); [rewrite U; ring|]. transitivity ((a * x + b * y + c * z) * x + y * (a * y - b * x) - z * (c * x - a * z)); [ring|rewrite Q, R; ring].
  - transitivity (b * (x * x + y * y + z * z)); [rewrite U; ring|]. transitivity ((a * x + b * y + c * z) * y - x * (a * y - b * x) + z * (b * z - c * y)); [ring|rewrite P, R; ring].
  - transitivity (c * (x * x + y * y + z * z)); [rewrite U; ring|]. transitivity ((a * x + b * y + c * z) * z - y * (b * z - c * y) + x * (c * x - a * z)); [ring|rewrite P, Q; ring].
Qed.
(** From any direction of length 1 and any point that the transformation keeps, the angle found
    gives the transformation again. *)
Theorem C269_axis : forall t d p, is_rotation (lin t) -> dot d d = 1 -> apply (lin t) d = d -> act t p = p ->
  forall x, act (rotation_matrix (rotation_angle (lin t) d) d (Some p)) x = act t x.
Proof.
  intros t d p RM U E FP x. pose proof (C267_back _ RM) as [N M]. set (q := quaternion_from_matrix (lin t)) in *. clearbody q.
  assert (N' := N). rewrite <- M in E. pose proof (axis_of q d N U E) as K. cbv zeta in K. set (k := dot _ d) in K. clearbody k. clear E.
  assert (d <> origin) as DN by (intros ->; unfold dot, origin in U; lra). assert (along d = d) as AD by (assert (len d = 1) as L by (unfold len; rewrite U; apply sqrt_1); destruct d as [[u v] w]; unfold along; rewrite L; apply vec_eq; field).
  destruct (C269_rotation (rotation_angle (lin t) d) d p x) as [-> _]. rewrite AD.
  assert (forall v, rodrigues d (rotation_angle (lin t) d) v = apply (lin t) v) as H.
  { intros v. rewrite rodrigues_parts. unfold rotation_angle. rewrite <- M, (matrix_unit q N). mfields. destruct q as [a b c w], d as [[dx dy] dz]. unfold times in K. qfields.
    assert (a = k * dx) as -> by exact (f_equal (fun v => fst (fst v)) K). assert (b = k * dy) as -> by exact (f_equal (fun v => snd (fst v)) K). assert (c = k * dz) as -> by exact (f_equal snd K). clear K.
    unfold norm2 in N. qfields. unfold dot in U. unfold vx, vy, vz. cbn [fst snd].
    assert (w * w = 1 - k * k) as W. { assert (k * dx * (k * dx) + k * dy * (k * dy) + k * dz * (k * dz) = k * k) as G by (transitivity (k * k * (dx * dx + dy * dy + dz * dz)); [ring|rewrite U; ring]). lra. }
    assert (dz * dz = 1 - dx * dx - dy * dy) as U' by lra.
    match goal with |- context [atan2 _ ?c] => replace c with (1 - 2 * (k * k)) by (field_simplify; lra || nra) end.
    replace (2 * (k * dx * (k * dy) + k * dz * w) + (1 - 2 * (k * k) - 1) * dx * dy) with (2 * k * w * dz) by ring. replace (2 * (k * dx * (k * dz) + k * dy * w) + (1 - 2 * (k * k) - 1) * dx * dz) with (2 * k * w * dy) by ring.
    replace (2 * (k * dy * (k * dz) + k * dx * w) + (1 - 2 * (k * k) - 1) * dy * dz) with (2 * k * w * dx) by ring. rewrite (sin_parts dx dy dz k w U).
    destruct (atan2_unit (1 - 2 * (k * k)) (2 * k * w)) as [-> ->]; [transitivity ((1 - 2 * (k * k)) * (1 - 2 * (k * k)) + 4 * (k * k) * (w * w)); [ring|rewrite W; ring]|].
    clear - W U. destruct v as [[x y] z]. unfold plus, times, cross, dot, apply. mfields.
    apply vec_eq.
    + transitivity (x - 2 * k * k * (dx * dx + dy * dy + dz * dz) * x + 2 * k * w * (dy * z - dz * y) + 2 * (k * k) * (dx * x + dy * y + dz * z) * dx); [rewrite U; ring|ring].
    + transitivity (y - 2 * k * k * (dx * dx + dy * dy + dz * dz) * y + 2 * k * w * (dz * x - dx * z) + 2 * (k * k) * (dx * x + dy * y + dz * z) * dy); [rewrite U; ring|ring].
    + transitivity (z - 2 * k * k * (dx * dx + dy * dy + dz * dz) * z + 2 * k * w * (dx * y - dy * x) + 2 * (k * k) * (dx * x + dy * y + dz * z) * dz); [rewrite U; ring|ring]. }
  rewrite H, apply_minus. unfold act in *. destruct (apply (lin t) x) as [[x1 x2] x3], (apply (lin t) p) as [[p1 p2] p3], (col t) as [[c1 c2] c3], p as [[q1 q2] q3]. unfold plus, minus in *. injection FP as <- <- <-. apply vec_eq; ring.
Qed.
Lemma full_transposed : forall m, full m -> full (transposed m).
Proof.
  intros m ((? & ? & ? & ? & ? & ? & ? & ? & ?) & (? & ? & ? & ? & ? & ?) & (? & ? & ? & ? & ? & ?)). unfold full, transposed. cbn [r00 r01 r02 r10 r11 r12 r20 r21 r22]. repeat split; lra.
Qed.
(** [rotation_from_matrix] takes its direction from the transposed matrix. *)
Theorem C269_recovered : forall t d p, is_rotation (lin t) -> dot d d = 1 -> apply (transposed (lin t)) d = d -> act t p = p ->
  forall x, act (rotation_matrix (rotation_angle (lin t) d) d (Some p)) x = act t x.
Proof.
  intros t d p RM U E FP x. apply C269_axis; try assumption. rewrite <- E at 1. pose proof (transposed_back (transposed (lin t)) d (full_transposed _ (rotation_full _ RM))) as B.
  replace (transposed (transposed (lin t))) with (lin t) in B by (destruct (lin t); reflexivity). exact B.
Qed.

(** ** About a plane or a point *)
(** The height of a point above the plane through [p] with the normal [n]. *)
Definition height (p n x : vec) : R := dot (minus x p) (along n).
Theorem C269_reflection : forall p n x, act (reflection_matrix p n) x = minus x (times (2 * height p n x) (along n)).
Proof. intros p n x. unfold reflection_matrix, height. rewrite unit_along. destruct (along n) as [[u v] w]. vec3 p. vec3 x. flatv. apply vec_eq; ring. Qed.
Lemma height_moved : forall p n x k, n <> origin -> height p n (plus x (times k (along n))) = height p n x + k.
Proof. intros p n x k N. pose proof (along_unit n N) as U. unfold height. destruct (along n) as [[u v] w]. vec3 p. vec3 x. unfold dot, minus, plus, times in *. match goal with |- ?l = ?r => replace l with (r + k * (u * u + v * v + w * w - 1)) by ring end. rewrite U. ring. Qed.
(** Twice is nothing; the plane stays; heights change their sign; distances stay. *)
Theorem C269_mirror : forall (p n x y : vec), n <> origin ->
  act (reflection_matrix p n) (act (reflection_matrix p n) x) = x /\ height p n (act (reflection_matrix p n) x) = - height p n x /\
  (height p n x = 0 -> act (reflection_matrix p n) x = x) /\
  dist (act (reflection_matrix p n) x) (act (reflection_matrix p n) y) = dist x y.
Proof.
  intros p n x y N. pose proof (along_unit n N) as U.
  assert (forall x, minus x (times (2 * height p n x) (along n)) = plus x (times (- (2 * height p n x)) (along n))) as MP by (intros [[a b] c]; destruct (along n) as [[u v] w]; unfold minus, plus, times; apply vec_eq; ring).
  assert (height p n (act (reflection_matrix p n) x) = - height p n x) as H by (rewrite C269_reflection, MP, height_moved by exact N; ring).
  split; [|split; [exact H|split]].
  - rewrite (C269_reflection p n (act _ x)), H, C269_reflection. generalize (height p n x) as h. intros h. destruct (along n) as [[u v] w]. vec3 x. unfold minus, times. apply vec_eq; ring.
  - intros Z. rewrite C269_reflection, Z. destruct (along n) as [[u v] w]. vec3 x. unfold minus, times. apply vec_eq; ring.
  - apply dist_dot. rewrite !C269_reflection. unfold height. destruct (along n) as [[u v] w]. destruct p as [[p1 p2] p3], x as [[x1 x2] x3], y as [[y1 y2] y3]. unfold dot, minus, times in *.
    set (g := (x1 - y1) * u + (x2 - y2) * v + (x3 - y3) * w).
    transitivity ((x1 - y1) * (x1 - y1) + (x2 - y2) * (x2 - y2) + (x3 - y3) * (x3 - y3) - 4 * g * g + 4 * g * g * (u * u + v * v + w * w)); [unfold g; ring|rewrite U; ring].
Qed.

(** Without a direction everything is [k] times as far from the origin point; with one, only along
    it. *)
Theorem C269_scale : forall k o d x,
  act (scale_matrix k (Some o) None) x = plus o (times k (minus x o)) /\ act (scale_matrix k None None) x = times k x /\
  act (scale_matrix k (Some o) (Some d)) x = plus x (times ((k - 1) * height o d x) (along d)) /\
  act (scale_matrix k None (Some d)) x = plus x (times ((k - 1) * height origin d x) (along d)).
Proof.
  intros k o d x. unfold scale_matrix, height. rewrite unit_along. destruct (along d) as [[u v] w]. vec3 o. vec3 x. flatv. repeat split; apply vec_eq; ring.
Qed.
Lemma height_plain : forall p n x k d, height p n (plus x (times k d)) = height p n x + k * dot d (along n).
Proof. intros p n x k d. unfold height. destruct (along n) as [[u v] w]. vec3 p. vec3 x. vec3 d. unfold dot, minus, plus, times. ring. Qed.
(** Scaling back undoes it; the heights along the direction are [k] times as large. *)
Theorem C269_rescaled : forall k o d x, d <> origin -> height o d (act (scale_matrix k (Some o) (Some d)) x) = k * height o d x /\
  (k <> 0 -> act (scale_matrix (/ k) (Some o) (Some d)) (act (scale_matrix k (Some o) (Some d)) x) = x /\
             act (scale_matrix (/ k) (Some o) None) (act (scale_matrix k (Some o) None) x) = x) /\
  dist (act (scale_matrix k (Some o) None) x) o = Rabs k * dist x o.
Proof.
  intros k o d x N. assert (height o d (act (scale_matrix k (Some o) (Some d)) x) = k * height o d x) as H by (destruct (C269_scale k o d x) as (_ & _ & -> & _); rewrite height_moved by exact N; ring).
  split; [exact H|split].
  - intros K. split.
    + destruct (C269_scale (/ k) o d (act (scale_matrix k (Some o) (Some d)) x)) as (_ & _ & -> & _). rewrite H. destruct (C269_scale k o d x) as (_ & _ & -> & _).
      generalize (height o d x) as h. intros h. destruct (along d) as [[u v] w]. vec3 x. unfold plus, times. apply vec_eq; field; exact K.
    + destruct (C269_scale (/ k) o d (act (scale_matrix k (Some o) None) x)) as (-> & _). destruct (C269_scale k o d x) as (-> & _). vec3 x. vec3 o. unfold plus, times, minus. apply vec_eq; field; exact K.
  - destruct (C269_scale k o d x) as (-> & _). unfold dist, len. destruct x as [[x1 x2] x3], o as [[y1 y2] y3]. unfold plus, times, minus, dot. rewrite <- (sqrt_Rsqr_abs k), <- sqrt_mult; [f_equal; unfold Rsqr; ring|apply Rle_0_sqr|apply Rplus_le_le_0_compat; [apply Rplus_le_le_0_compat|]; apply Rle_0_sqr].
Qed.

(** The projection moves a point along the direction (the normal when there is none), onto the
    plane. *)
Definition towards (n : vec) (d : option vec) : vec := match d with Some d => d | None => along n end.
Theorem C269_projection : forall p n d x, n <> origin -> dot (towards n d) (along n) <> 0 ->
  (exists k, act (projection_matrix p n d) x = plus x (times k (towards n d))) /\ height p n (act (projection_matrix p n d) x) = 0 /\
  (height p n x = 0 -> act (projection_matrix p n d) x = x) /\
  act (projection_matrix p n d) (act (projection_matrix p n d) x) = act (projection_matrix p n d) x /\
  (forall y k, height p n y = 0 -> y = plus x (times k (towards n d)) -> y = act (projection_matrix p n d) x).
Proof.
  intros p n d x N S.
  assert (forall x, act (projection_matrix p n d) x = plus x (times (- height p n x / dot (towards n d) (along n)) (towards n d))) as E.
  { clear x. intros x. unfold projection_matrix, height. rewrite unit_along. pose proof (along_unit n N) as U. destruct d as [d|]; cbn [towards] in *.
    - destruct (along n) as [[u v] w]. vec3 p. vec3 x. vec3 d. revert S. flatv. intros S. apply vec_eq; field; exact S.
    - rewrite U. destruct (along n) as [[u v] w]. vec3 p. vec3 x. flatv. apply vec_eq; field. }
  assert (forall x, height p n (act (projection_matrix p n d) x) = 0) as Z by (clear x; intros x; rewrite E, height_plain; field; exact S).
  assert (forall x, height p n x = 0 -> act (projection_matrix p n d) x = x) as F.
  { clear x. intros x H. rewrite E, H. destruct (towards n d) as [[a b] c]. vec3 x. unfold plus, times. apply vec_eq; unfold Rdiv; ring. }
  split; [eexists; apply E|]. split; [apply Z|]. split; [apply F|]. split; [apply F, Z|].
  intros y k H ->. rewrite height_plain in H. rewrite E. f_equal. f_equal. apply (Rmult_eq_reg_r (dot (towards n d) (along n))); [|exact S]. transitivity (- height p n x); [lra|field; exact S].
Qed.
(** Without a direction no point of the plane is nearer. *)
Theorem C269_nearest : forall p n x y, n <> origin -> height p n y = 0 -> dist x (act (projection_matrix p n None) x) <= dist x y.
Proof.
  intros p n x y N H. pose proof (along_unit n N) as U.
  assert (act (projection_matrix p n None) x = plus x (times (- height p n x) (along n))) as E.
  { unfold projection_matrix, height. rewrite unit_along. destruct (along n) as [[u v] w]. vec3 p. vec3 x. flatv. apply vec_eq; ring. }
  rewrite E. unfold dist, len. apply sqrt_le_1_alt. unfold height in *. destruct (along n) as [[u v] w]. destruct p as [[p1 p2] p3], x as [[x1 x2] x3], y as [[y1 y2] y3]. unfold dot, minus, plus, times in *.
  set (h := (x1 - p1) * u + (x2 - p2) * v + (x3 - p3) * w). replace (_ + _ + _) with (h * h * (u * u + v * v + w * w)) at 1 by ring. rewrite U, Rmult_1_r.
  assert (h = (x1 - y1) * u + (x2 - y2) * v + (x3 - y3) * w) as G by (unfold h; lra). rewrite G. set (a := x1 - y1). set (b := x2 - y2). set (c := x3 - y3).
  assert (0 <= (a * v - b * u) * (a * v - b * u) + (b * w - c * v) * (b * w - c * v) + (c * u - a * w) * (c * u - a * w)) as P by (apply Rplus_le_le_0_compat; [apply Rplus_le_le_0_compat|]; apply Rle_0_sqr).
  replace (_ + _ + _) with ((a * a + b * b + c * c) * (u * u + v * v + w * w) - (a * u + b * v + c * w) * (a * u + b * v + c * w)) in P by ring. rewrite U in P. lra.
Qed.

(** A point under a matrix with its last row: the fourth coordinate, then the others divided by
    it. *)
Definition weight (h : homog) (x : vec) : R := dot (h_row h) x + h_last h.
Definition seen (h : homog) (x : vec) : vec := times (/ weight h x) (plus (apply (h_lin h) x) (h_col h)).
(** What the eye [e] sees at [x] is drawn where the line from [e] to [x] meets the plane. *)
Theorem C269_perspective : forall p n e x, n <> origin -> height e n x <> 0 ->
  weight (perspective_matrix p n e false) x = - height e n x /\
  (exists k, seen (perspective_matrix p n e false) x = plus e (times k (minus x e))) /\
  height p n (seen (perspective_matrix p n e false) x) = 0 /\
  (forall y k, height p n y = 0 -> y = plus e (times k (minus x e)) -> y = seen (perspective_matrix p n e false) x).
Proof.
  intros p n e x N S.
  assert (weight (perspective_matrix p n e false) x = - height e n x) as W.
  { unfold weight, perspective_matrix, height. rewrite unit_along. destruct (along n) as [[u v] w]. vec3 p. vec3 e. vec3 x. cbv [h_row h_last]. flatv. ring. }
  assert (seen (perspective_matrix p n e false) x = plus e (times (height e n p / height e n x) (minus x e))) as E.
  { unfold seen. rewrite W. unfold perspective_matrix, height in *. rewrite unit_along. destruct (along n) as [[u v] w]. vec3 p. vec3 e. vec3 x. revert S. cbv [h_lin h_col h_row h_last]. flatv. intros S. apply vec_eq; field; lra. }
  assert (forall k, height p n (plus e (times k (minus x e))) = k * height e n x - height e n p) as HP.
  { intros k. rewrite height_plain. unfold height. destruct (along n) as [[u v] w]. vec3 p. vec3 e. vec3 x. unfold dot, minus. ring. }
  split; [exact W|split; [eexists; exact E|split]].
  - rewrite E, HP. field. exact S.
  - intros y k H ->. rewrite HP in H. rewrite E. f_equal. f_equal. apply (Rmult_eq_reg_r (height e n x)); [|exact S]. transitivity (height e n p); [lra|field; exact S].
Qed.
(** With [pseudo], the same place on the plane, moved along the normal by an amount that orders the
    points by their height. *)
Theorem C269_pseudo : forall p n e x, n <> origin -> height e n x <> 0 ->
  act (projection_matrix p n None) (seen (perspective_matrix p n e true) x) = seen (perspective_matrix p n e false) x /\
  height p n (seen (perspective_matrix p n e true) x) = height p n x / height e n x.
Proof.
  intros p n e x N S. pose proof (along_unit n N) as U. destruct (C269_perspective p n e x N S) as (W & _ & Z & _).
  assert (weight (perspective_matrix p n e true) x = - height e n x) as W'.
  { rewrite <- W. reflexivity. }
  assert (seen (perspective_matrix p n e true) x = plus (seen (perspective_matrix p n e false) x) (times (height p n x / height e n x) (along n))) as E.
  { unfold seen. rewrite W, W'. clear Z W W' U. unfold perspective_matrix, height in *. rewrite unit_along. destruct (along n) as [[u v] w]. vec3 p. vec3 e. vec3 x. revert S. cbv [h_lin h_col h_row h_last]. flatv. intros S. apply vec_eq; field; lra. }
  split.
  - assert (forall x, act (projection_matrix p n None) x = plus x (times (- height p n x) (along n))) as P.
    { clear. intros x. unfold projection_matrix, height. rewrite unit_along. destruct (along n) as [[u v] w]. vec3 p. vec3 x. flatv. apply vec_eq; ring. }
    rewrite P, E, height_plain, U, Z. destruct (seen _ x) as [[a b] c], (along n) as [[u v] w]. unfold plus, times. apply vec_eq; ring.
  - rewrite E, height_plain, U, Z. ring.
Qed.

(** ** One after the other *)
Lemma act_compose : forall a b x, act (acompose a b) x = act a (act b x).
Proof. intros [[? ? ? ? ? ? ? ? ?] [[? ?] ?]] [[? ? ? ? ? ? ? ? ?] [[? ?] ?]] [[? ?] ?]. unfold acompose, act. flatv. apply vec_eq; ring. Qed.
Lemma act_identity : forall x, act (mkaffine identity (0, 0, 0)) x = x.
Proof. intros [[x y] z]. flatv. apply vec_eq; ring. Qed.
(** The matrix of a list is that of its members, the last of them first. *)
Theorem C269_concatenate : forall l x, act (concatenate_matrices l) x = fold_right act x l.
Proof.
  intros l x. unfold concatenate_matrices. assert (forall l a, act (fold_left acompose l a) x = act a (fold_right act x l)) as G.
  { clear l. induction l as [|b l IH]; intros a; [reflexivity|]. cbn [fold_left fold_right]. now rewrite IH, act_compose. }
  rewrite G. apply act_identity.
Qed.
Theorem C269_translation : forall d x, act (translation_matrix d) x = plus x d /\ translation_from_matrix (translation_matrix d) = d.
Proof. intros d x. split; [|reflexivity]. vec3 d. vec3 x. unfold translation_matrix. flatv. apply vec_eq; ring. Qed.

(** ** The same transformation *)
Definition scaled (k : R) (h : homog) : homog := mkhomog (mscale k (h_lin h)) (times k (h_col h)) (times k (h_row h)) (k * h_last h).
Lemma close_refl : forall a, close a a = true.
Proof. intros a. unfold close. replace (a - a) with 0 by ring. rewrite Rabs_R0. destruct Rle_dec as [_|B]; [reflexivity|]. elim B. pose proof (Rabs_pos a). lra. Qed.
(** A matrix and its multiples are the same; what [is_same_transform] calls the same have entries,
    after the division by the corner, within the two tolerances. *)
Theorem C269_same : forall h k, h_last h <> 0 -> k <> 0 -> is_same_transform h h = true /\ is_same_transform (scaled k h) h = true /\ is_same_transform h (scaled k h) = true.
Proof.
  intros [[a b c d e f g i j] [[x y] z] [[u v] w] n] k N K. cbn [h_last] in N.
  assert (forall q, k * q / (k * n) = q / n) as M by (intros q; field; split; assumption).
  assert (forall q, q * k / (k * n) = q / n) as M' by (intros q; field; split; assumption).
  unfold is_same_transform, numbers, scaled, times, mscale, lift2. cbn [h_lin h_col h_row h_last r00 r01 r02 r10 r11 r12 r20 r21 r22 vx vy vz fst snd combine forallb]. rewrite !M, !M', !close_refl. repeat split.
Qed.
Theorem C269_tolerance : forall a b, is_same_transform a b = true -> forall i x y, nth_error (numbers a) i = Some x -> nth_error (numbers b) i = Some y ->
  Rabs (x / h_last a - y / h_last b) <= 1 / 100000000 + 1 / 100000 * Rabs (y / h_last b).
Proof.
  intros a b H i x y X Y. unfold is_same_transform in H. rewrite forallb_forall in H. assert (In (x, y) (combine (numbers a) (numbers b))) as I.
  { revert X Y. generalize (numbers a), (numbers b). clear H. induction i as [|i IH]; intros [|p l] [|q m] X Y; try discriminate; cbn in *.
    - injection X as ->. injection Y as ->. now left.
    - right. now apply IH. }
  specialize (H _ I). cbn [fst snd] in H. unfold close in H. destruct Rle_dec as [L|]; [exact L|discriminate].
Qed.

(** ** C270: what the comparison does not say *)
Definition moved (k : R) : homog := mkhomog identity (k, 0, 0) (0, 0, 0) 1.
Lemma same_moved : forall a b, is_same_transform (moved a) (moved b) = close (a / 1) (b / 1).
Proof.
  intros a b. unfold is_same_transform, numbers, moved, identity. cbn [h_lin h_col h_row h_last r00 r01 r02 r10 r11 r12 r20 r21 r22 vx vy vz fst snd combine forallb]. rewrite !close_refl. cbn [andb]. now rewrite andb_true_r.
Qed.
Lemma close_far : forall a b, 0 <= b <= a -> close a b = true <-> a - b <= 1 / 100000000 + 1 / 100000 * b.
Proof. intros a b H. unfold close. rewrite (Rabs_right (a - b)), (Rabs_right b) by lra. destruct Rle_dec; split; intros; try assumption; try reflexivity; try discriminate; contradiction. Qed.
Lemma close_near : forall a b, 0 <= a <= b -> close a b = true <-> b - a <= 1 / 100000000 + 1 / 100000 * b.
Proof. intros a b H. unfold close. rewrite (Rabs_left1 (a - b)), (Rabs_right b) by lra. destruct Rle_dec; split; intros; try reflexivity; try discriminate; lra. Qed.
(** Two translations that differ by ten metres are the same. *)
Theorem C270_far_refuted : exists a b, is_same_transform (moved a) (moved b) = true /\ b - a = 10.
Proof. exists 1000000, 1000010. split; [|lra]. rewrite same_moved. apply close_near; lra. Qed.
(** Not symmetric: the second argument sets the tolerance. *)
Theorem C270_symmetric_refuted : exists a b, is_same_transform a b = true /\ is_same_transform b a = false.
Proof.
  exists (moved 1000000), (moved 1000010.00005). rewrite !same_moved. split; [apply close_near; lra|]. apply not_true_iff_false. intros H. apply close_far in H; lra.
Qed.
(** Not transitive. *)
Theorem C270_chain_refuted : exists a b c, is_same_transform a b = true /\ is_same_transform b c = true /\ is_same_transform a c = false.
Proof.
  exists (moved 1000000), (moved 1000010), (moved 1000020). rewrite !same_moved. split; [apply close_near; lra|]. split; [apply close_near; lra|]. apply not_true_iff_false. intros H. apply close_near in H; lra.
Qed.
(** Scaled by -1 along a direction is a reflection; along none, it turns every hand around. *)
Theorem C269_minus : forall p n x, act (scale_matrix (-1) (Some p) (Some n)) x = act (reflection_matrix p n) x.
Proof.
  intros p n x. rewrite C269_reflection. destruct (C269_scale (-1) p n x) as (_ & _ & -> & _). destruct (along n) as [[u v] w]. vec3 x. unfold plus, minus, times. apply vec_eq; ring.
Qed.

Example C269_example_reflect : act (reflection_matrix (1, 0, 0) (2, 0, 0)) (4, 5, 6) = (-2, 5, 6).
Proof.
  rewrite C269_reflection. unfold height, along, len, dot, minus, times. replace (2 * 2 + 0 * 0 + 0 * 0) with (2 * 2) by ring. rewrite sqrt_square by lra. apply vec_eq; field.
Qed.
Example C269_example_project : seen (perspective_matrix (0, 0, 1) (0, 0, 1) (0, 0, 3) false) (4, 2, 2) = (8, 4, 1).
Proof.
  unfold seen, weight, perspective_matrix. rewrite unit_along. unfold along, len, dot at 1 3. replace (dot (0, 0, 1) (0, 0, 1)) with (1 * 1) by (unfold dot; ring). rewrite sqrt_square by lra. cbv [h_lin h_col h_row h_last]. flatv. apply vec_eq; field.
Qed.
Example C269_example_turn : act (rotation_matrix (PI / 2) (0, 0, 3) (Some (1, 1, 0))) (2, 1, 7) = (1, 2, 7).
Proof.
  destruct (C269_rotation (PI / 2) (0, 0, 3) (1, 1, 0) (2, 1, 7)) as [H _]. etransitivity; [exact H|]. clear H. rewrite rodrigues_parts, cos_PI2, sin_PI2.
  replace (along (0, 0, 3)) with ((0, 0, 1) : vec); [unfold cross, dot, minus, plus, times; apply vec_eq; field|]. unfold along, len. replace (dot (0, 0, 3) (0, 0, 3)) with (3 * 3) by (unfold dot; ring). rewrite sqrt_square by lra. apply vec_eq; field.
Qed.
Print Assumptions C269_rotation.
Print Assumptions C269_line.
Print Assumptions C269_recovered.
Print Assumptions C269_reflection.
Print Assumptions C269_mirror.
Print Assumptions C269_scale.
Print Assumptions C269_rescaled.
Print Assumptions C269_projection.
Print Assumptions C269_nearest.
Print Assumptions C269_perspective.
Print Assumptions C269_pseudo.
Print Assumptions C269_concatenate.
Print Assumptions C269_translation.
Print Assumptions C269_same.
Print Assumptions C269_tolerance.
Print Assumptions C269_minus.
Print Assumptions C270_far_refuted.
Print Assumptions C270_symmetric_refuted.
Print Assumptions C270_chain_refuted.
