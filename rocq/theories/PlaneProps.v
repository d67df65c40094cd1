(** C54: plane parametrisations and the plane they were built from. *)
From Coq Require Import Psatz.
From Verif Require Import FramesModel PlaneModel.
Open Scope R_scope.

(** ** Specification *)
(** The points of ax + by + cz + d = 0, and the distance to them. *)
Definition on_plane (k : buffer) (p : vec) : Prop := let '(a, b, c, d) := k in a * vx p + b * vy p + c * vz p + d = 0.
Definition far (p q : vec) : R := sqrt ((vx p - vx q) ^ 2 + (vy p - vy q) ^ 2 + (vz p - vz q) ^ 2).
Definition distance_to (k : buffer) (p : vec) (r : R) : Prop :=
  (exists q, on_plane k q /\ far p q = r) /\ forall q, on_plane k q -> r <= far p q.
Definition length3 (k : buffer) : R := let '(a, b, c, _) := k in sqrt (a * a + b * b + c * c).
Definition some_normal (k : buffer) : Prop := let '(a, b, c, _) := k in a <> 0 \/ b <> 0 \/ c <> 0.
Definition on_line_of (p v q : vec) : Prop := exists t, vx q = vx p + t * vx v /\ vy q = vy p + t * vy v /\ vz q = vz p + t * vz v.

Ltac vecs := cbn [vx vy vz fst snd] in *.

(** ** Planes from coefficients *)
Lemma norm_length : forall a b c d, norm (view3 (a, b, c, d)) = length3 (a, b, c, d).
Proof. reflexivity. Qed.
Lemma length_pos : forall a b c d, some_normal (a, b, c, d) -> 0 < length3 (a, b, c, d) /\ length3 (a, b, c, d) * length3 (a, b, c, d) = a * a + b * b + c * c.
Proof.
  intros a b c d H. unfold some_normal in H. unfold length3. assert (0 < a * a + b * b + c * c) by (destruct H as [H|[H|H]]; nra).
  split; [now apply sqrt_lt_R0|]. apply sqrt_sqrt. lra.
Qed.
(** The cells after both divisions. *)
Lemma stored : forall a b c d, some_normal (a, b, c, d) -> let n := length3 (a, b, c, d) in
  coeffs (from_coeffs (a, b, c, d)) = (a / n / n, b / n / n, c / n / n, d / n).
Proof. reflexivity. Qed.
(** In general the object describes the plane with offset [d] times the length of the normal,
    its normal has length 1/n and its point, when the first coefficient is not zero, is on
    that plane. *)
Theorem C154_from_coeffs : forall a b c d, some_normal (a, b, c, d) -> let n := length3 (a, b, c, d) in
  let pl := from_coeffs (a, b, c, d) in
  (forall p, on_plane (coeffs pl) p <-> on_plane (a, b, c, n * d) p) /\ norm (normal pl) = 1 / n /\ (a <> 0 -> on_plane (coeffs pl) (point pl)).
Proof.
  intros a b c d H n pl. destruct (length_pos a b c d H) as [N NN]. fold n in N, NN.
  change (coeffs pl) with (a / n / n, b / n / n, c / n / n, d / n). change (normal pl) with (a / n / n, b / n / n, c / n / n). split; [|split].
  - intros p. unfold on_plane. replace (a / n / n * vx p + b / n / n * vy p + c / n / n * vz p + d / n) with ((a * vx p + b * vy p + c * vz p + n * d) * / (n * n)) by (field; lra). split; intros E.
    + apply Rmult_integral in E. destruct E as [E|E]; [exact E|]. exfalso. assert (0 < / (n * n)) by (apply Rinv_0_lt_compat; nra). lra.
    + rewrite E. ring.
  - unfold norm, dot. vecs. replace (a / n / n * (a / n / n) + b / n / n * (b / n / n) + c / n / n * (c / n / n)) with ((1 / n) * (1 / n)).
    + apply sqrt_square. unfold Rdiv. rewrite Rmult_1_l. left. now apply Rinv_0_lt_compat.
    + replace (a / n / n * (a / n / n) + b / n / n * (b / n / n) + c / n / n * (c / n / n)) with ((a * a + b * b + c * c) / (n * n * (n * n))) by (field; lra). rewrite <- NN. field. lra.
  - intros A0. unfold on_plane. change (point pl) with (- ((1 * (b / n / n) + 10 * (c / n / n) + d / n) / (a / n / n)), 1, 10). vecs. field. repeat split; first [exact A0 | lra].
Qed.
Print Assumptions C154_from_coeffs.
(** It is the given plane exactly when the normal was of length one, or the plane passes
    through the origin. *)
Theorem C54_same_plane : forall a b c d, some_normal (a, b, c, d) ->
  (forall p, on_plane (coeffs (from_coeffs (a, b, c, d))) p <-> on_plane (a, b, c, d) p) <-> length3 (a, b, c, d) = 1 \/ d = 0.
Proof.
  intros a b c d H. destruct (C154_from_coeffs a b c d H) as (P & _). destruct (length_pos a b c d H) as [N NN]. set (n := length3 (a, b, c, d)) in *. split.
  - intros S. set (p := (- a * d / (n * n), - b * d / (n * n), - c * d / (n * n)) : vec).
    assert (on_plane (a, b, c, d) p) as Q.
    { unfold on_plane, p. vecs. replace (_ + _) with (d - d * (a * a + b * b + c * c) / (n * n)) by (field; lra). rewrite <- NN. field. lra. }
    pose proof (proj1 (P p) (proj2 (S p) Q)) as Q'. unfold on_plane in Q, Q'. assert ((n - 1) * d = 0) as Z by lra. apply Rmult_integral in Z. destruct Z as [Z|Z]; [left|right]; lra.
  - intros E p. rewrite (P p). destruct E as [E|E]; [rewrite E, Rmult_1_l; reflexivity|]. rewrite E, Rmult_0_r. reflexivity.
Qed.
Print Assumptions C54_same_plane.
Theorem C154_plane_refuted : exists a b c d p, some_normal (a, b, c, d) /\ on_plane (a, b, c, d) p /\ ~ on_plane (coeffs (from_coeffs (a, b, c, d))) p /\
  0 < distance (from_coeffs (a, b, c, d)) p /\ norm (normal (from_coeffs (a, b, c, d))) <> 1.
Proof.
  exists 2, 0, 0, (- 2), (1, 0, 0). assert (some_normal (2, 0, 0, -2)) as H by (left; lra).
  assert (length3 (2, 0, 0, -2) = 2) as L by (unfold length3; replace (2 * 2 + 0 * 0 + 0 * 0) with (2 * 2) by ring; apply sqrt_square; lra).
  split; [exact H|]. split; [unfold on_plane; vecs; lra|]. destruct (C154_from_coeffs 2 0 0 (-2) H) as (P & M & _). rewrite L in *.
  split; [|split].
  - intros C. apply P in C. unfold on_plane in C. vecs. lra.
  - unfold distance, normal, offset4. rewrite (stored 2 0 0 (-2) H). rewrite L. unfold dot, view3. vecs. unfold Rabs. destruct (Rcase_abs _); lra.
  - rewrite M. lra.
Qed.
Print Assumptions C154_plane_refuted.
(** For a unit normal the reported distance is the distance. *)
Lemma far_sq : forall p q, far p q * far p q = (vx p - vx q) ^ 2 + (vy p - vy q) ^ 2 + (vz p - vz q) ^ 2.
Proof.
  intros p q. unfold far. apply sqrt_sqrt. pose proof (pow2_ge_0 (vx p - vx q)). pose proof (pow2_ge_0 (vy p - vy q)). pose proof (pow2_ge_0 (vz p - vz q)). lra.
Qed.
Lemma abs_le_sq : forall x y, 0 <= y -> x * x <= y * y -> Rabs x <= y.
Proof. intros x y H E. apply Rsqr_incr_0; [|apply Rabs_pos|exact H]. rewrite <- Rsqr_abs. exact E. Qed.
Lemma plane_distance : forall a b c d p, a * a + b * b + c * c = 1 -> distance_to (a, b, c, d) p (Rabs (a * vx p + b * vy p + c * vz p + d)).
Proof.
  intros a b c d p U. set (e := a * vx p + b * vy p + c * vz p + d). split.
  - exists (vx p - e * a, vy p - e * b, vz p - e * c). split.
    + unfold on_plane. vecs. replace (_ + _) with (e - e * (a * a + b * b + c * c)) by (unfold e; ring). rewrite U. ring.
    + unfold far. vecs. replace (_ + _) with (e * e * (a * a + b * b + c * c)) by ring. rewrite U, Rmult_1_r. apply sqrt_Rsqr_abs.
  - intros q Q. unfold on_plane in Q. apply abs_le_sq; [apply sqrt_pos|]. rewrite far_sq.
    set (x := vx p - vx q). set (y := vy p - vy q). set (z := vz p - vz q). assert (e = a * x + b * y + c * z) as -> by (unfold e, x, y, z; lra).
    assert (0 <= (a * y - b * x) ^ 2 + (b * z - c * y) ^ 2 + (c * x - a * z) ^ 2) as L.
    { pose proof (pow2_ge_0 (a * y - b * x)). pose proof (pow2_ge_0 (b * z - c * y)). pose proof (pow2_ge_0 (c * x - a * z)). lra. }
    assert ((a * x + b * y + c * z) * (a * x + b * y + c * z) = (a * a + b * b + c * c) * (x ^ 2 + y ^ 2 + z ^ 2) - ((a * y - b * x) ^ 2 + (b * z - c * y) ^ 2 + (c * x - a * z) ^ 2)) as -> by ring.
    rewrite U. lra.
Qed.
Theorem C54_unit : forall a b c d, length3 (a, b, c, d) = 1 -> let pl := from_coeffs (a, b, c, d) in
  coeffs pl = (a, b, c, d) /\ norm (normal pl) = 1 /\ forall p, distance_to (a, b, c, d) p (distance pl p).
Proof.
  intros a b c d L pl. assert (a * a + b * b + c * c = 1) as U.
  { unfold length3 in L. rewrite <- (sqrt_sqrt (a * a + b * b + c * c)) by nra. rewrite L. ring. }
  assert (coeffs pl = (a, b, c, d)) as E.
  { change (coeffs pl) with (let n := length3 (a, b, c, d) in (a / n / n, b / n / n, c / n / n, d / n)). rewrite L. cbv zeta. unfold Rdiv. rewrite Rinv_1, !Rmult_1_r. reflexivity. }
  split; [exact E|]. split.
  - unfold normal. rewrite E. exact L.
  - intros p. unfold distance, normal, offset4. rewrite E. unfold dot, view3. vecs. now apply plane_distance.
Qed.
Print Assumptions C54_unit.

(** ** Rays *)
Theorem C54_ray : forall a b c d rp rv q, some_normal (a, b, c, d) -> a <> 0 -> norm rv <> 0 -> ray_intersection (from_coeffs (a, b, c, d)) rp rv = Some q ->
  on_line_of rp rv q /\ on_plane (coeffs (from_coeffs (a, b, c, d))) q /\ (length3 (a, b, c, d) = 1 -> on_plane (a, b, c, d) q).
Proof.
  intros a b c d rp rv q H A R E. destruct (C154_from_coeffs a b c d H) as (P & _ & PP). specialize (PP A). set (pl := from_coeffs (a, b, c, d)) in *.
  unfold ray_intersection in E. destruct (Req_EM_T _ 0) as [|D]; [discriminate|]. cbv zeta in E. set (v := scale (/ norm rv) rv) in *. set (num := dot (normal pl) (point pl) - dot (normal pl) rp) in *. set (t := num / dot (normal pl) v) in *.
  assert (q = add rp (scale t v)) as -> by (symmetry; now injection E).
  assert (on_plane (coeffs pl) (add rp (scale t v))) as O.
  { assert (forall x, on_plane (coeffs pl) x <-> dot (normal pl) x + offset4 pl = 0) as W.
    { intros x. unfold on_plane, normal, offset4, dot, view3. destruct (coeffs pl) as [[[k1 k2] k3] k4]. vecs. reflexivity. }
    apply (proj1 (W _)) in PP. apply W. assert (forall u w s, dot u (add w (scale s v)) = dot u w + s * dot u v) as L by (intros u w s; unfold dot, add, scale; vecs; ring).
    rewrite L. assert (t * dot (normal pl) v = num) as -> by (unfold t; field; exact D). unfold num. lra. }
  split; [|split].
  - clear O P PP. clearbody t. exists (t * / norm rv). unfold v, add, scale. generalize (/ norm rv). intros k. destruct rp as [[r1 r2] r3], rv as [[w1 w2] w3]. vecs. repeat split; ring.
  - exact O.
  - intros U. destruct (C54_unit a b c d U) as (<- & _). exact O.
Qed.
Print Assumptions C54_ray.
(** Nothing is returned exactly for rays parallel to the plane. *)
Theorem C54_parallel : forall a b c d rp rv, some_normal (a, b, c, d) -> norm rv <> 0 ->
  (ray_intersection (from_coeffs (a, b, c, d)) rp rv = None <-> a * vx rv + b * vy rv + c * vz rv = 0).
Proof.
  intros a b c d rp rv H R. destruct (length_pos a b c d H) as [N NN]. set (n := length3 (a, b, c, d)) in *. unfold ray_intersection.
  assert (dot (normal (from_coeffs (a, b, c, d))) (scale (/ norm rv) rv) = (a * vx rv + b * vy rv + c * vz rv) * / (n * n * norm rv)) as ->.
  { change (normal (from_coeffs (a, b, c, d))) with (a / n / n, b / n / n, c / n / n). unfold dot, scale. vecs. field. split; lra. }
  assert (/ (n * n * norm rv) <> 0) as Z by (apply Rinv_neq_0_compat; repeat apply Rmult_integral_contrapositive_currified; first [exact R | apply Rgt_not_eq; exact N]).
  destruct (Req_EM_T _ 0) as [D|D].
  - split; [intros _|reflexivity]. apply Rmult_integral in D. destruct D as [D|D]; [exact D|contradiction].
  - split; [discriminate|]. intros D'. exfalso. apply D. rewrite D'. ring.
Qed.
Print Assumptions C54_parallel.
(** The intersection may be behind the start of the ray. *)
Theorem C154_behind_refuted : exists a b c d rp rv q, length3 (a, b, c, d) = 1 /\ ray_intersection (from_coeffs (a, b, c, d)) rp rv = Some q /\ forall t, 0 <= t -> vx q <> vx rp + t * vx rv.
Proof.
  exists 1, 0, 0, 0, (1, 0, 0), (1, 0, 0), (0, 0, 0). assert (length3 (1, 0, 0, 0) = 1) as L by (unfold length3; replace (1 * 1 + 0 * 0 + 0 * 0) with (1 * 1) by ring; apply sqrt_square; lra).
  split; [exact L|]. split.
  - unfold ray_intersection. assert (norm (1, 0, 0) = 1) as NR by exact L. rewrite NR. destruct (C54_unit 1 0 0 0 L) as (E & _). unfold normal. rewrite E.
    assert (point (from_coeffs (1, 0, 0, 0)) = (0, 1, 10)) as ->.
    { change (from_coeffs (1, 0, 0, 0)) with (let b := coeffs (from_coeffs (1, 0, 0, 0)) in mkplane b (- ((1 * vy (view3 b) + 10 * vz (view3 b) + snd b) / vx (view3 b)), 1, 10)). rewrite E. unfold view3. vecs. cbn [point]. f_equal. f_equal. field. }
    unfold dot, view3, scale, add. vecs. destruct (Req_EM_T _ 0) as [C|C]; [rewrite Rinv_1 in C; lra|]. f_equal. rewrite Rinv_1. repeat f_equal; field.
  - intros t T. vecs. lra.
Qed.
Print Assumptions C154_behind_refuted.

(** ** Three points *)
Theorem C54_three_points : forall p0 p1 p2, let k := plane_through_3_points p0 p1 p2 in on_plane k p0 /\ on_plane k p1 /\ on_plane k p2 /\
  (cross (sub p1 p0) (sub p2 p0) <> (0, 0, 0) -> some_normal k).
Proof.
  intros p0 p1 p2. cbv zeta. unfold plane_through_3_points. set (n := cross (sub p1 p0) (sub p2 p0)). destruct (Req_EM_T (vx n) 0) as [Z|Z].
  - repeat split; try (unfold on_plane, dot, n, cross, sub; vecs; ring). intros NZ. unfold some_normal.
    destruct n as [[n1 n2] n3] eqn:En. vecs. destruct (Req_dec n2 0) as [->|]; [|auto]. destruct (Req_dec n3 0) as [->|]; [|auto]. subst n1. now destruct NZ.
  - unfold div_all, on_plane. repeat split.
    + replace (_ + _) with ((vx n * vx p0 + vy n * vy p0 + vz n * vz p0 + - dot n p0) / vx n) by (field; exact Z). unfold dot. replace (_ + _) with 0 by ring. unfold Rdiv. ring.
    + replace (_ + _) with ((vx n * vx p1 + vy n * vy p1 + vz n * vz p1 + - dot n p0) / vx n) by (field; exact Z).
      replace (_ + - _) with 0 by (unfold dot, n, cross, sub; vecs; ring). unfold Rdiv. ring.
    + replace (_ + _) with ((vx n * vx p2 + vy n * vy p2 + vz n * vz p2 + - dot n p0) / vx n) by (field; exact Z).
      replace (_ + - _) with 0 by (unfold dot, n, cross, sub; vecs; ring). unfold Rdiv. ring.
    + intros _. left. unfold Rdiv. rewrite Rinv_r by exact Z. lra.
Qed.
Print Assumptions C54_three_points.

(** ** Pitch, yaw and a point *)
Lemma norm_1 : forall b c, 1 <= norm (1, b, c) /\ norm (1, b, c) * norm (1, b, c) = 1 + b * b + c * c.
Proof.
  intros b c. unfold norm, dot. vecs. rewrite Rmult_1_l. split; [|apply sqrt_sqrt; nra]. rewrite <- sqrt_1 at 1. apply sqrt_le_1_alt. nra.
Qed.
(** The plane contains the point exactly for pitch and yaw without tangent, or when the plane
    through the origin does. *)
Theorem C154_build_plane : forall pitch yaw p, let b := tan (yaw * deg_to_rad) in let c := tan (pitch * deg_to_rad) in
  norm (snd (build_plane pitch yaw p)) = 1 /\
  (on_plane (fst (build_plane pitch yaw p)) p <-> (b = 0 /\ c = 0) \/ vx p + b * vy p + c * vz p = 0).
Proof.
  intros pitch yaw p b c. destruct (norm_1 b c) as [N1 N2]. set (n := norm (1, b, c)) in *.
  change (build_plane pitch yaw p) with ((1, b, c, - dot (scale (/ n) (1, b, c)) p), scale (/ n) (1, b, c)). cbn [fst snd]. split.
  - unfold norm, dot, scale. vecs. replace (_ + _) with ((1 + b * b + c * c) / (n * n)) by (field; lra). rewrite <- N2. replace (n * n / (n * n)) with 1 by (field; lra). apply sqrt_1.
  - unfold on_plane. unfold dot, scale. vecs. set (s := vx p + b * vy p + c * vz p).
    replace (_ + - _) with (s * (n - 1) / n) by (unfold s; field; lra). split.
    + intros E. assert (s * (n - 1) = 0) as Z by (apply (f_equal (fun x => x * n)) in E; rewrite Rmult_0_l in E; rewrite <- E; field; lra).
      apply Rmult_integral in Z. destruct Z as [Z|Z]; [now right|]. left. assert (n = 1) as W by lra. rewrite W in N2. split; nra.
    + intros [[B C]|E]; [|rewrite E; unfold Rdiv; ring]. assert (n = 1) as -> by (unfold n, norm, dot; vecs; rewrite B, C; replace (_ + _) with 1 by ring; apply sqrt_1). field.
Qed.
Print Assumptions C154_build_plane.
Theorem C154_build_plane_refuted : exists pitch yaw p, ~ on_plane (fst (build_plane pitch yaw p)) p.
Proof.
  exists 45, 0, (1, 0, 0). rewrite (proj2 (C154_build_plane 45 0 (1, 0, 0))). vecs. intros [[_ C]|C]; [|lra].
  replace (45 * deg_to_rad) with (PI / 4) in C by (unfold deg_to_rad; field). rewrite tan_PI4 in C. lra.
Qed.
Print Assumptions C154_build_plane_refuted.

(** ** Examples *)
Example C54_ex : on_plane (plane_through_3_points (1, 0, 0) (0, 1, 0) (0, 0, 1)) (1, 1, -1).
Proof.
  unfold plane_through_3_points. destruct (Req_EM_T _ 0) as [Z|Z]; unfold on_plane, div_all, dot, cross, sub in *; vecs; [lra|field].
Qed.
Example C54_ex_unit : length3 (3 / 5, 0, 4 / 5, 7) = 1.
Proof. unfold length3. replace (_ + _) with (1 * 1) by field. apply sqrt_square. lra. Qed.
