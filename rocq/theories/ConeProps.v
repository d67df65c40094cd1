(** Property C229 and its refuted sibling C230: cones of light and their rotations. *)
From Coq Require Import Reals Lra Psatz Nsatz.
From Verif Require Import FramesModel EulerModel PlaneModel ConeModel.
Open Scope R_scope.

Ltac vecs := unfold sub, add, scale, cross, dot, vx, vy, vz in *; cbn [fst snd] in *.
Lemma vec_eq : forall u v, vx u = vx v -> vy u = vy v -> vz u = vz v -> u = v.
Proof. intros [[? ?] ?] [[? ?] ?]. vecs. congruence. Qed.
Lemma dot_pos : forall u, 0 <= dot u u.
Proof. intros [[x y] z]. vecs. nra. Qed.
Lemma norm_sq : forall u, norm u * norm u = dot u u.
Proof. intros u. apply sqrt_sqrt, dot_pos. Qed.
Lemma norm_nonneg : forall u, 0 <= norm u.
Proof. intros. apply sqrt_pos. Qed.
Lemma norm_zero : forall u, norm u = 0 <-> u = (0, 0, 0).
Proof.
  intros u. split.
  - intros E. pose proof (norm_sq u) as H. rewrite E in H. destruct u as [[x y] z]. vecs. assert (x * x = 0 /\ y * y = 0 /\ z * z = 0) as (A & B & C) by nra.
    apply Rsqr_0_uniq in A. apply Rsqr_0_uniq in B. apply Rsqr_0_uniq in C. congruence.
  - intros ->. unfold norm. vecs. replace (0 * 0 + 0 * 0 + 0 * 0) with 0 by ring. apply sqrt_0.
Qed.
Lemma norm_pos : forall u, u <> (0, 0, 0) -> 0 < norm u.
Proof. intros u N. pose proof (norm_nonneg u). destruct (Req_dec (norm u) 0) as [E|E]; [apply norm_zero in E; contradiction|lra]. Qed.
Lemma unit_sq : forall u, u <> (0, 0, 0) -> dot (unit_of u) (unit_of u) = 1.
Proof.
  intros u N. apply norm_pos in N. pose proof (norm_sq u) as H. unfold unit_of. replace (dot (scale (/ norm u) u) (scale (/ norm u) u)) with (/ norm u * / norm u * dot u u) by (vecs; ring).
  rewrite <- H. field. lra.
Qed.
Lemma unit_unit : forall u, dot u u = 1 -> unit_of u = u.
Proof. intros u E. unfold unit_of, norm. rewrite E, sqrt_1, Rinv_1. apply vec_eq; vecs; ring. Qed.
Lemma unit_scaled : forall u, u <> (0, 0, 0) -> u = scale (norm u) (unit_of u).
Proof. intros u N. apply norm_pos in N. unfold unit_of. apply vec_eq; vecs; field; lra. Qed.

(** * Rotations *)
Lemma half : forall t, cos t = cos (t / 2) * cos (t / 2) - sin (t / 2) * sin (t / 2) /\ sin t = 2 * (sin (t / 2) * cos (t / 2)) /\ sin (t / 2) * sin (t / 2) + cos (t / 2) * cos (t / 2) = 1.
Proof.
  intros t. assert (E : t = t / 2 + t / 2) by field. split; [rewrite E at 1; apply cos_plus|]. split; [rewrite E at 1; rewrite sin_plus; ring|]. exact (sin2_cos2 (t / 2)).
Qed.
Lemma rodrigues : forall k t x, dot k k = 1 -> mulv (rotation_matrix k t) x = add (add (scale (cos t) x) (scale (sin t) (cross k x))) (scale ((1 - cos t) * dot k x) k).
Proof.
  intros k t x E. unfold rotation_matrix. rewrite (unit_unit k E). destruct (half t) as (C & S & P). rewrite C, S. set (a := cos (t / 2)) in *. set (s := sin (t / 2)) in *. clearbody a s. clear C S.
  destruct k as [[k1 k2] k3], x as [[x y] z]. unfold mulv. vecs. cbn [r00 r01 r02 r10 r11 r12 r20 r21 r22].
  repeat match goal with |- (_, _) = (_, _) => f_equal end; nsatz.
Qed.

Lemma rotation_unit : forall k t, k <> (0, 0, 0) -> rotation_matrix k t = rotation_matrix (unit_of k) t.
Proof. intros k t N. unfold rotation_matrix. rewrite (unit_unit (unit_of k)) by now apply unit_sq. reflexivity. Qed.
Definition turned (c s : R) (k x : vec) : vec := add (add (scale c x) (scale s (cross k x))) (scale ((1 - c) * dot k x) k).
Ltac comps := apply vec_eq; vecs; ring.
Lemma turned_dot : forall c s k x y, dot (turned c s k x) (turned c s k y) =
  c * c * dot x y + s * s * (dot k k * dot x y - dot k x * dot k y) + (1 - c) * (1 - c) * dot k k * (dot k x * dot k y) + 2 * c * (1 - c) * (dot k x * dot k y).
Proof. intros c s [[? ?] ?] [[? ?] ?] [[? ?] ?]. unfold turned. vecs. ring. Qed.
Lemma turned_cross : forall c s k x y, let m := cross x y in cross (turned c s k x) (turned c s k y) =
  add (add (scale (c * c) m) (scale (c * s + s * (1 - c) * dot k k) (cross k m))) (add (scale (c * (1 - c) * dot k k) m) (scale ((s * s - c * (1 - c)) * dot k m) k)).
Proof. intros c s [[? ?] ?] [[? ?] ?] [[? ?] ?] m. unfold m, turned. comps. Qed.
(** The matrix turns about the axis by the angle, counterclockwise seen from the tip of the axis. *)
Theorem C229_rotation : forall axis t x y, axis <> (0, 0, 0) -> let turn := mulv (rotation_matrix axis t) in
  turn axis = axis /\ dot (turn x) (turn y) = dot x y /\ cross (turn x) (turn y) = turn (cross x y) /\
  (dot axis x = 0 -> dot x (turn x) = cos t * dot x x /\ cross x (turn x) = scale (sin t * dot x x / norm axis) axis).
Proof.
  intros axis t x y N turn. unfold turn. rewrite (rotation_unit axis t N). pose proof (unit_sq axis N) as U. pose proof (norm_pos axis N) as P. pose proof (unit_scaled axis N) as E.
  set (k := unit_of axis) in *. set (n := norm axis) in *. clearbody k n. subst axis. clear N turn. rewrite !rodrigues by exact U. assert (T : sin t * sin t + cos t * cos t = 1) by exact (sin2_cos2 t).
  set (c := cos t) in *. set (s := sin t) in *. clearbody c s. assert (S2 : s * s = 1 - c * c) by lra. fold (turned c s k (scale n k)) (turned c s k x) (turned c s k y) (turned c s k (cross x y)).
  split; [|split; [|split]].
  - unfold turned. replace (dot k (scale n k)) with (n * dot k k) by (vecs; ring). rewrite U. comps.
  - rewrite turned_dot, U, S2. ring.
  - rewrite turned_cross, U, S2. unfold turned. comps.
  - intros O. assert (O' : dot k x = 0). { apply Rmult_eq_reg_l with n; [|lra]. rewrite Rmult_0_r, <- O. vecs. ring. }
    unfold turned. rewrite O'. split; [vecs; ring|].
    replace (scale (s * dot x x / n) (scale n k)) with (add (scale (s * dot x x) k) (scale (- s * dot k x) x)) by (rewrite O'; apply vec_eq; vecs; field; lra). comps.
Qed.
Print Assumptions C229_rotation.
Example rotation_example : mulv (rotation_matrix (0, 0, 2) (PI / 2)) (1, 0, 0) = (0, 1, 0).
Proof.
  rewrite rotation_unit by (intros E; injection E as E; lra). assert (norm (0, 0, 2) = 2) as N by (unfold norm; vecs; replace (0 * 0 + 0 * 0 + 2 * 2) with (2 * 2) by ring; apply sqrt_square; lra).
  rewrite rodrigues by (apply unit_sq; intros E; injection E as E; lra). unfold unit_of. rewrite N, cos_PI2, sin_PI2. apply vec_eq; vecs; field.
Qed.

(** * Distance *)
(** The cone: the points seen from the apex at the angle theta from the axis *)
Definition on_cone (apex axis : vec) (theta : R) (q : vec) : Prop := dot (sub q apex) axis = norm (sub q apex) * cos theta.
Lemma cone_angle : forall p apex v theta phi, dot v v = 1 -> 0 < phi < PI -> p <> apex -> dot (sub p apex) v = norm (sub p apex) * cos phi -> cone_distance p apex v theta = Rabs (sin (phi - theta)).
Proof.
  intros p apex v theta phi V F N D. unfold cone_distance. set (x := sub p apex) in *.
  assert (X : x <> (0, 0, 0)). { intros E. apply N. unfold x in E. destruct p as [[? ?] ?], apex as [[? ?] ?]. vecs. injection E as E1 E2 E3. f_equal; [f_equal|]; lra. }
  pose proof (norm_pos x X) as P. destruct (Req_EM_T (norm x) 0) as [E|_]; [lra|]. pose proof (unit_sq x X) as W.
  assert (C : dot (unit_of x) v = cos phi). { unfold unit_of. replace (dot (scale (/ norm x) x) v) with (/ norm x * dot x v) by (vecs; ring). rewrite D. field. lra. }
  set (w := unit_of x) in *. clearbody w. set (m := cross w v). assert (S0 : 0 < sin phi) by (apply sin_gt_0; apply F). assert (SC : sin phi * sin phi + cos phi * cos phi = 1) by exact (sin2_cos2 phi).
  assert (M2 : dot m m = sin phi * sin phi). { unfold m. replace (dot (cross w v) (cross w v)) with (dot w w * dot v v - dot w v * dot w v) by (vecs; ring). rewrite W, V, C. lra. }
  assert (MN : norm m = sin phi) by (unfold norm; rewrite M2; apply sqrt_square; lra). destruct (Req_EM_T (norm m) 0) as [E|_]; [lra|].
  assert (M0 : m <> (0, 0, 0)) by (intros E; rewrite E in MN; rewrite (proj2 (norm_zero _) eq_refl) in MN; lra).
  pose proof (unit_sq m M0) as K2. set (n1 := unit_of m) in *. assert (NV : dot n1 v = 0) by (unfold n1, unit_of, m; vecs; ring). assert (NN : n1 <> (0, 0, 0)) by (intros E; rewrite E in K2; vecs; lra).
  set (u := mulv (rotation_matrix n1 (- theta)) v).
  assert (U2 : dot u u = 1) by (unfold u; destruct (C229_rotation n1 (- theta) v v NN) as (_ & H & _); now rewrite H).
  assert (UN : dot u n1 = 0). { unfold u. destruct (C229_rotation n1 (- theta) v n1 NN) as (H1 & H2 & _). rewrite H1 in H2. rewrite H2. rewrite <- NV. vecs. ring. }
  assert (Q2 : dot (cross u n1) (cross u n1) = 1) by (replace (dot (cross u n1) (cross u n1)) with (dot u u * dot n1 n1 - dot u n1 * dot u n1) by (vecs; ring); rewrite U2, K2, UN; ring).
  unfold coordinates. change (vz (dot (unit_of u) w, dot (unit_of n1) w, dot (unit_of (unit_of (cross u n1))) w)) with (dot (unit_of (unit_of (cross u n1))) w).
  rewrite !(unit_unit (cross u n1)) by exact Q2. f_equal. rewrite sin_minus. unfold u. rewrite rodrigues by exact K2. rewrite NV, cos_neg, sin_neg.
  assert (N1 : n1 = scale (/ sin phi) m) by (unfold n1, unit_of; now rewrite MN).
  replace (dot _ w) with (cos theta * dot (cross v n1) w - sin theta * dot (cross (cross n1 v) n1) w) by (vecs; ring). rewrite N1.
  replace (dot (cross v (scale (/ sin phi) m)) w) with (/ sin phi * (dot v v * dot w w - dot w v * dot w v)) by (unfold m; vecs; ring).
  replace (dot (cross (cross (scale (/ sin phi) m) v) (scale (/ sin phi) m)) w) with (/ sin phi * / sin phi * (dot w v * dot m m - dot m v * dot m w)) by (vecs; ring).
  replace (dot m v) with 0 by (unfold m; vecs; ring). rewrite V, W, C, M2. replace (1 * 1 - cos phi * cos phi) with (sin phi * sin phi) by lra. field. lra.
Qed.
Lemma cauchy : forall a b, dot a b <= norm a * norm b.
Proof.
  intros a b. assert (dot a b * dot a b + dot (cross a b) (cross a b) = dot a a * dot b b) as E by (vecs; ring). pose proof (dot_pos (cross a b)). rewrite <- (norm_sq a), <- (norm_sq b) in E.
  pose proof (norm_nonneg a). pose proof (norm_nonneg b). pose proof (Rmult_le_pos _ _ H0 H1). destruct (Rle_lt_dec (dot a b) (norm a * norm b)) as [L|L]; [exact L|exfalso]. nra.
Qed.
Lemma angle_of : forall x v, dot v v = 1 -> cross x v <> (0, 0, 0) -> exists phi, 0 < phi < PI /\ dot x v = norm x * cos phi.
Proof.
  intros x v V K. assert (X : x <> (0, 0, 0)) by (intros ->; apply K; apply vec_eq; vecs; ring). pose proof (norm_pos x X) as P.
  assert (E : dot x v * dot x v + dot (cross x v) (cross x v) = dot x x * dot v v) by (vecs; ring). rewrite V, <- (norm_sq x), <- (norm_sq (cross x v)) in E. pose proof (norm_pos _ K) as Q. set (c := dot x v / norm x).
  assert (D : dot x v = norm x * c) by (unfold c; field; lra). assert (C2 : c * c < 1) by (rewrite D in E; apply Rmult_lt_reg_l with (norm x * norm x); nra).
  exists (acos c). assert (-1 < c < 1) as B by nra. rewrite cos_acos by lra. split; [now apply acos_bound_lt|exact D].
Qed.
(** For a point off the axis the reported number is the sine of the angle between the cone and the direction of the point, seen from the apex. *)
Theorem C229_distance : forall p apex v theta phi, dot v v = 1 -> 0 < phi < PI -> p <> apex -> dot (sub p apex) v = norm (sub p apex) * cos phi -> cone_distance p apex v theta = Rabs (sin (phi - theta)).
Proof. exact cone_angle. Qed.
Print Assumptions C229_distance.
(** It vanishes exactly on the cone. *)
Theorem C229_zero : forall p apex v theta, dot v v = 1 -> 0 <= theta <= PI / 2 -> cross (sub p apex) v <> (0, 0, 0) -> (cone_distance p apex v theta = 0 <-> on_cone apex v theta p).
Proof.
  intros p apex v theta V T K. destruct (angle_of _ _ V K) as (phi & F & D). assert (N : p <> apex) by (intros ->; apply K; apply vec_eq; vecs; ring).
  assert (X : sub p apex <> (0, 0, 0)) by (intros E; apply K; rewrite E; apply vec_eq; vecs; ring). pose proof (norm_pos _ X) as P.
  rewrite (cone_angle p apex v theta phi V F N D). unfold on_cone. rewrite D. pose proof PI_RGT_0. split.
  - intros E. assert (S0 : sin (phi - theta) = 0) by (destruct (Req_dec (sin (phi - theta)) 0) as [Z0|Z0]; [exact Z0|now apply Rabs_no_R0 in Z0]).
    assert (phi = theta) as ->; [|reflexivity]. destruct (Rtotal_order phi theta) as [L|[L|L]]; [|exact L|].
    + exfalso. assert (0 < sin (theta - phi)) by (apply sin_gt_0; lra). replace (theta - phi) with (- (phi - theta)) in H0 by ring. rewrite sin_neg in H0. lra.
    + exfalso. assert (0 < sin (phi - theta)) by (apply sin_gt_0; lra). lra.
  - intros E. apply Rmult_eq_reg_l in E; [|lra]. apply cos_inj in E; [|lra|lra]. subst. rewrite Rminus_diag_eq by reflexivity. rewrite sin_0. apply Rabs_R0.
Qed.
Print Assumptions C229_zero.
Lemma below : forall p apex v theta phi q, dot v v = 1 -> 0 <= theta <= PI -> 0 <= phi <= PI -> dot (sub p apex) v = norm (sub p apex) * cos phi -> on_cone apex v theta q ->
  norm (sub p apex) * Rabs (sin (phi - theta)) <= norm (sub p q).
Proof.
  intros p apex v theta phi q V T F D Q. unfold on_cone in Q. replace (sub p q) with (sub (sub p apex) (sub q apex)) by comps. set (x := sub p apex) in *. set (y := sub q apex) in *. clearbody x y.
  set (r := norm x) in *. set (t := norm y) in *. pose proof (norm_nonneg x) as P. pose proof (norm_nonneg y) as P'. fold r in P. fold t in P'. assert (X2 : dot x x = r * r) by (symmetry; apply norm_sq). assert (Y2 : dot y y = t * t) by (symmetry; apply norm_sq).
  assert (SF : 0 <= sin phi) by (apply sin_ge_0; apply F). assert (ST : 0 <= sin theta) by (apply sin_ge_0; apply T). assert (CF : sin phi * sin phi + cos phi * cos phi = 1) by exact (sin2_cos2 phi). assert (CT : sin theta * sin theta + cos theta * cos theta = 1) by exact (sin2_cos2 theta).
  assert (B : dot x y <= r * t * cos (phi - theta)).
  { pose proof (cauchy (sub x (scale (dot x v) v)) (sub y (scale (dot y v) v))) as H. unfold norm in H.
    replace (dot (sub x (scale (dot x v) v)) (sub x (scale (dot x v) v))) with (dot x x - 2 * dot x v * dot x v + dot x v * dot x v * dot v v) in H by (vecs; ring).
    replace (dot (sub y (scale (dot y v) v)) (sub y (scale (dot y v) v))) with (dot y y - 2 * dot y v * dot y v + dot y v * dot y v * dot v v) in H by (vecs; ring).
    replace (dot (sub x (scale (dot x v) v)) (sub y (scale (dot y v) v))) with (dot x y - 2 * dot x v * dot y v + dot x v * dot y v * dot v v) in H by (vecs; ring).
    rewrite V, D, Q, X2, Y2 in H. replace (r * r - 2 * (r * cos phi) * (r * cos phi) + r * cos phi * (r * cos phi) * 1) with ((r * sin phi) * (r * sin phi)) in H by (replace (cos phi * cos phi) with (1 - sin phi * sin phi) by lra; replace (r * r - 2 * (r * cos phi) * (r * cos phi) + r * cos phi * (r * cos phi) * 1) with (r * r * (1 - cos phi * cos phi)) by ring; replace (1 - cos phi * cos phi) with (sin phi * sin phi) by lra; ring).
    replace (t * t - 2 * (t * cos theta) * (t * cos theta) + t * cos theta * (t * cos theta) * 1) with ((t * sin theta) * (t * sin theta)) in H by (replace (t * t - 2 * (t * cos theta) * (t * cos theta) + t * cos theta * (t * cos theta) * 1) with (t * t * (1 - cos theta * cos theta)) by ring; replace (1 - cos theta * cos theta) with (sin theta * sin theta) by lra; ring).
    rewrite !sqrt_square in H by now apply Rmult_le_pos. rewrite cos_minus. lra. }
  assert (E : dot (sub x y) (sub x y) = r * r - 2 * dot x y + t * t) by (rewrite <- X2, <- Y2; vecs; ring).
  assert (SC : sin (phi - theta) * sin (phi - theta) + cos (phi - theta) * cos (phi - theta) = 1) by exact (sin2_cos2 (phi - theta)). set (c := cos (phi - theta)) in *. set (s := sin (phi - theta)) in *.
  apply Rsqr_incr_0_var; [|apply norm_nonneg]. unfold Rsqr. rewrite norm_sq, E. replace (r * Rabs s * (r * Rabs s)) with (r * r * (s * s)) by (rewrite <- (Rabs_right (s * s)) by nra; rewrite Rabs_mult; ring).
  pose proof (Rle_0_sqr (t - r * c)) as H. unfold Rsqr in H. replace (s * s) with (1 - c * c) by lra. nra.
Qed.
(** Multiplied by the distance from the apex it is the distance to the nearest point of the cone, if the point is less than a right angle away from it. *)
Theorem C229_nearest : forall p apex v theta phi, dot v v = 1 -> 0 <= theta <= PI / 2 -> 0 < phi < PI -> Rabs (phi - theta) <= PI / 2 -> p <> apex -> dot (sub p apex) v = norm (sub p apex) * cos phi ->
  let far := norm (sub p apex) * cone_distance p apex v theta in (exists q, on_cone apex v theta q /\ norm (sub p q) = far) /\ forall q, on_cone apex v theta q -> far <= norm (sub p q).
Proof.
  intros p apex v theta phi V T F A N D far. unfold far. rewrite (cone_angle p apex v theta phi V F N D). pose proof PI_RGT_0 as PP. split.
  2:{ intros q Q. apply (below p apex v theta phi q); try assumption; lra. }
  set (x := sub p apex) in *. assert (X : x <> (0, 0, 0)). { intros E. apply N. unfold x in E. destruct p as [[? ?] ?], apex as [[? ?] ?]. vecs. injection E as E1 E2 E3. f_equal; [f_equal|]; lra. }
  pose proof (norm_pos x X) as P. set (r := norm x) in *. assert (X2 : dot x x = r * r) by (symmetry; apply norm_sq). assert (SF : 0 < sin phi) by (apply sin_gt_0; apply F). assert (CF : sin phi * sin phi + cos phi * cos phi = 1) by exact (sin2_cos2 phi). assert (CT : sin theta * sin theta + cos theta * cos theta = 1) by exact (sin2_cos2 theta).
  set (e := scale (/ (r * sin phi)) (sub x (scale (r * cos phi) v))). assert (EV : dot e v = 0) by (unfold e; replace (dot (scale (/ (r * sin phi)) (sub x (scale (r * cos phi) v))) v) with (/ (r * sin phi) * (dot x v - r * cos phi * dot v v)) by (vecs; ring); rewrite V, D; ring).
  assert (E2 : dot e e = 1). { unfold e. replace (dot _ _) with (/ (r * sin phi) * / (r * sin phi) * (dot x x - 2 * (r * cos phi) * dot x v + r * cos phi * (r * cos phi) * dot v v)) by (vecs; ring). rewrite V, D, X2.
    replace (r * r - 2 * (r * cos phi) * (r * cos phi) + r * cos phi * (r * cos phi) * 1) with (r * r * (sin phi * sin phi)) by (replace (sin phi * sin phi) with (1 - cos phi * cos phi) by lra; ring). field. split; lra. }
  assert (XE : dot x e = r * sin phi). { unfold e. replace (dot x _) with (/ (r * sin phi) * (dot x x - r * cos phi * dot x v)) by (vecs; ring). rewrite D, X2. replace (r * r - r * cos phi * (r * cos phi)) with (r * r * (sin phi * sin phi)) by (replace (sin phi * sin phi) with (1 - cos phi * cos phi) by lra; ring). field. split; lra. }
  clearbody e. set (g := add (scale (cos theta) v) (scale (sin theta) e)). assert (G2 : dot g g = 1) by (unfold g; replace (dot _ _) with (cos theta * cos theta * dot v v + 2 * (cos theta * sin theta) * dot e v + sin theta * sin theta * dot e e) by (vecs; ring); rewrite V, EV, E2; lra).
  assert (GV : dot g v = cos theta) by (unfold g; replace (dot _ v) with (cos theta * dot v v + sin theta * dot e v) by (vecs; ring); rewrite V, EV; ring).
  assert (XG : dot x g = r * cos (phi - theta)) by (unfold g; replace (dot x _) with (cos theta * dot x v + sin theta * dot x e) by (vecs; ring); rewrite D, XE, cos_minus; ring). clearbody g.
  assert (C0 : 0 <= cos (phi - theta)). { unfold Rabs in A. destruct (Rcase_abs (phi - theta)); apply cos_ge_0; lra. }
  assert (SC : sin (phi - theta) * sin (phi - theta) + cos (phi - theta) * cos (phi - theta) = 1) by exact (sin2_cos2 (phi - theta)). set (c := cos (phi - theta)) in *. set (s := sin (phi - theta)) in *. clearbody c s.
  exists (add apex (scale (r * c) g)). replace (sub p (add apex (scale (r * c) g))) with (sub x (scale (r * c) g)) by (unfold x; comps). unfold on_cone. replace (sub (add apex (scale (r * c) g)) apex) with (scale (r * c) g) by comps.
  assert (R0 : 0 <= r * c) by (apply Rmult_le_pos; lra). split.
  - unfold norm. replace (dot (scale (r * c) g) (scale (r * c) g)) with ((r * c) * (r * c) * dot g g) by (vecs; ring). rewrite G2, Rmult_1_r, sqrt_square by exact R0. rewrite <- GV. vecs. ring.
  - unfold norm. replace (dot _ _) with (dot x x - 2 * (r * c) * dot x g + r * c * (r * c) * dot g g) by (vecs; ring). rewrite X2, XG, G2. replace (r * r - 2 * (r * c) * (r * c) + r * c * (r * c) * 1) with ((r * Rabs s) * (r * Rabs s)).
    + apply sqrt_square. apply Rmult_le_pos; [lra|apply Rabs_pos].
    + replace (r * Rabs s * (r * Rabs s)) with (r * r * (s * s)) by (rewrite <- (Rabs_right (s * s)) by nra; rewrite Rabs_mult; ring). replace (s * s) with (1 - c * c) by lra. ring.
Qed.
Print Assumptions C229_nearest.
(** The axis has length one, the direction or the opposite of the given one, and does not point backwards. *)
Theorem C229_axis : forall apex axis theta, axis <> (0, 0, 0) -> let '(apex', axis', theta') := from_coeffs apex axis theta in
  apex' = apex /\ theta' = theta /\ dot axis' axis' = 1 /\ 0 <= vx axis' /\ (axis' = scale (/ norm axis) axis \/ vx axis < 0 /\ axis' = scale (- / norm axis) axis).
Proof.
  intros apex axis theta N. unfold from_coeffs. pose proof (unit_sq axis N) as U. pose proof (norm_pos axis N) as P. split; [reflexivity|]. split; [reflexivity|]. destruct (Rlt_dec (vx (unit_of axis)) 0) as [L|L].
  - split; [rewrite <- U; vecs; ring|]. split; [vecs; lra|]. right. split; [|unfold unit_of; comps]. apply Rnot_le_lt. intros K. apply (Rlt_not_le _ _ L). unfold unit_of. vecs. apply Rmult_le_pos; [left; now apply Rinv_0_lt_compat|exact K].
  - split; [exact U|]. split; [lra|]. now left.
Qed.
Print Assumptions C229_axis.

(** * Rays *)
Definition on_double_cone (apex axis : vec) (theta : R) (q : vec) : Prop := dot (sub q apex) axis * dot (sub q apex) axis = dot (sub q apex) (sub q apex) * (cos theta * cos theta).
Definition on_line (p v q : vec) : Prop := exists t, q = add p (scale t v).
(** The returned points are exactly those of the line on the cone and its mirror image, unless the line is parallel to one in the cone. *)
Theorem C229_ray : forall apex axis theta rp rv, rv <> (0, 0, 0) -> match ray_intersection apex axis theta rp rv with
  | NoHit => forall q, on_line rp rv q -> ~ on_double_cone apex axis theta q
  | OneHit p => forall q, on_line rp rv q /\ on_double_cone apex axis theta q <-> q = p
  | TwoHits p p' => p <> p' /\ forall q, on_line rp rv q /\ on_double_cone apex axis theta q <-> q = p \/ q = p'
  | Undefined => dot rv axis * dot rv axis = dot rv rv * (cos theta * cos theta)
  end.
Proof.
  intros apex axis theta rp rv N. pose proof (unit_sq rv N) as U. pose proof (norm_pos rv N) as P. pose proof (unit_scaled rv N) as E. unfold ray_intersection. set (d := unit_of rv) in *. set (n := norm rv) in *. clearbody d n.
  set (cos2 := cos theta * cos theta). set (co := sub rp apex). set (a := dot d axis * dot d axis - cos2). set (b := 2 * (dot d axis * dot co axis - dot d co * cos2)). set (c := dot co axis * dot co axis - dot co co * cos2).
  assert (POLY : forall t, on_double_cone apex axis theta (add rp (scale t d)) <-> a * (t * t) + b * t + c = 0).
  { intros t. unfold on_double_cone. fold cos2. replace (sub (add rp (scale t d)) apex) with (add co (scale t d)) by (unfold co; comps).
    replace (dot (add co (scale t d)) axis) with (dot co axis + t * dot d axis) by (vecs; ring). replace (dot (add co (scale t d)) (add co (scale t d))) with (dot co co + 2 * t * dot d co + t * t * dot d d) by (vecs; ring). rewrite U. unfold a, b, c. split; intros H; lra. }
  assert (LINE : forall q, on_line rp rv q <-> exists t, q = add rp (scale t d)).
  { intros q. split; intros (t & ->); [exists (t * n); rewrite E; comps|exists (t / n); rewrite E; apply vec_eq; vecs; field; lra]. }
  assert (INJ : forall t t', add rp (scale t d) = add rp (scale t' d) -> t = t').
  { intros t t' H. assert (H' : dot (sub (add rp (scale t d)) rp) d = dot (sub (add rp (scale t' d)) rp) d) by now rewrite H. replace (dot (sub (add rp (scale t d)) rp) d) with (t * dot d d) in H' by (vecs; ring). replace (dot (sub (add rp (scale t' d)) rp) d) with (t' * dot d d) in H' by (vecs; ring). rewrite U in H'. lra. }
  clearbody b c. destruct (Rlt_dec (b * b - 4 * a * c) 0) as [L|L].
  - intros q Q H. apply LINE in Q. destruct Q as (t & ->). apply POLY in H. pose proof (Rle_0_sqr (2 * a * t + b)) as K. unfold Rsqr in K. nra.
  - destruct (Req_EM_T a 0) as [A|A].
    + rewrite E. replace (dot (scale n d) axis) with (n * dot d axis) by (vecs; ring). replace (dot (scale n d) (scale n d)) with (n * n * dot d d) by (vecs; ring). rewrite U. fold cos2. unfold a in A. replace cos2 with (dot d axis * dot d axis) by lra. ring.
    + clearbody a. destruct (Req_EM_T (b * b - 4 * a * c) 0) as [Z0|Z0].
      * intros q. rewrite LINE. split.
        -- intros ((t & ->) & H). apply POLY in H. assert (K : (2 * a * t + b) * (2 * a * t + b) = 0) by nra. apply Rsqr_0_uniq in K. f_equal. f_equal. apply Rmult_eq_reg_l with (2 * a); [|lra]. field_simplify; lra.
        -- intros ->. split; [now eexists|]. apply POLY. apply Rmult_eq_reg_l with (4 * a); [|lra]. rewrite Rmult_0_r. replace (4 * a * (a * (- b / (2 * a) * (- b / (2 * a))) + b * (- b / (2 * a)) + c)) with (- (b * b - 4 * a * c)) by (field; lra). rewrite Z0. ring.
      * assert (D0 : 0 < b * b - 4 * a * c) by lra. pose proof (sqrt_lt_R0 _ D0) as S0. assert (S2 : sqrt (b * b - 4 * a * c) * sqrt (b * b - 4 * a * c) = b * b - 4 * a * c) by (apply sqrt_sqrt; lra). set (s := sqrt _) in *. clearbody s. split.
        -- intros H. apply INJ in H. assert (K : 2 * a * ((- b - s) / (2 * a)) = 2 * a * ((- b + s) / (2 * a))) by now rewrite H. replace (2 * a * ((- b - s) / (2 * a))) with (- b - s) in K by (field; lra). replace (2 * a * ((- b + s) / (2 * a))) with (- b + s) in K by (field; lra). lra.
        -- intros q. rewrite LINE. split.
           ++ intros ((t & ->) & H). apply POLY in H. assert (K : (2 * a * t + b - s) * (2 * a * t + b + s) = 0) by (replace ((2 * a * t + b - s) * (2 * a * t + b + s)) with (4 * a * (a * (t * t) + b * t + c) + (b * b - 4 * a * c) - s * s) by ring; rewrite H, S2; ring).
              apply Rmult_integral in K. destruct K as [K|K]; [right|left]; f_equal; f_equal; apply Rmult_eq_reg_l with (2 * a); try lra; [replace (2 * a * ((- b + s) / (2 * a))) with (- b + s) by (field; lra)|replace (2 * a * ((- b - s) / (2 * a))) with (- b - s) by (field; lra)]; lra.
           ++ intros [-> | ->]; (split; [now eexists|]); apply POLY; apply Rmult_eq_reg_l with (4 * a); try lra; rewrite Rmult_0_r;
                [replace (4 * a * (a * ((- b - s) / (2 * a) * ((- b - s) / (2 * a))) + b * ((- b - s) / (2 * a)) + c)) with (s * s - (b * b - 4 * a * c)) by (field; lra)|replace (4 * a * (a * ((- b + s) / (2 * a) * ((- b + s) / (2 * a))) + b * ((- b + s) / (2 * a)) + c)) with (s * s - (b * b - 4 * a * c)) by (field; lra)]; rewrite S2; ring.
Qed.
Print Assumptions C229_ray.

(** * What does not hold *)
Lemma sqrt2 : 0 < sqrt 2 /\ sqrt 2 * sqrt 2 = 2.
Proof. split; [apply sqrt_lt_R0; lra|apply sqrt_sqrt; lra]. Qed.
Lemma norm_is : forall u r, 0 <= r -> dot u u = r * r -> norm u = r.
Proof. intros u r P E. unfold norm. rewrite E. now apply sqrt_square. Qed.
Ltac not_zero := let E := fresh in intros E; injection E; intros; lra.
Ltac by_norm r := rewrite (norm_is _ r); [|lra|vecs; lra].
(** The number is not the distance to the cone: seven metres away it is less than one. *)
Theorem C230_metres_refuted : exists p apex v theta, dot v v = 1 /\ 0 <= theta <= PI / 2 /\ cone_distance p apex v theta < 1 /\ forall q, on_cone apex v theta q -> 7 <= norm (sub p q).
Proof.
  exists (10, 0, 0), (0, 0, 0), (0, 0, 1), (PI / 4). pose proof PI_RGT_0. destruct sqrt2 as [S0 S1]. split; [vecs; ring|]. split; [lra|].
  assert (D : dot (sub (10, 0, 0) (0, 0, 0)) (0, 0, 1) = norm (sub (10, 0, 0) (0, 0, 0)) * cos (PI / 2)) by (rewrite cos_PI2; vecs; ring).
  assert (NN : norm (sub (10, 0, 0) (0, 0, 0)) = 10) by (apply norm_is; [lra|vecs; ring]). assert (SS : sin (PI / 2 - PI / 4) = 1 / sqrt 2) by (replace (PI / 2 - PI / 4) with (PI / 4) by field; apply sin_PI4).
  assert (P4 : 0 < 1 / sqrt 2) by (apply Rdiv_lt_0_compat; lra). assert (Q4 : 1 / sqrt 2 * sqrt 2 = 1) by (field; lra). split.
  - rewrite (cone_angle _ _ _ _ (PI / 2)); [|vecs; ring|lra|not_zero|exact D]. rewrite SS, Rabs_right by lra. nra.
  - intros q Q. assert (H1 := below (10, 0, 0) (0, 0, 0) (0, 0, 1) (PI / 4) (PI / 2) q ltac:(vecs; ring) ltac:(lra) ltac:(lra) D Q). rewrite NN, SS, Rabs_right in H1 by lra. nra.
Qed.
Print Assumptions C230_metres_refuted.
(** On the axis: a point of the cone one metre from the apex gets 1, and one a metre away from the cone gets 0. *)
Theorem C230_axis_refuted : exists p apex v, dot v v = 1 /\ on_cone apex v 0 p /\ cone_distance p apex v 0 = 1 /\ cone_distance p apex v (PI / 2) = 0 /\ forall q, on_cone apex v (PI / 2) q -> 1 <= norm (sub p q).
Proof.
  exists (0, 0, 1), (0, 0, 0), (0, 0, 1). assert (NN : norm (sub (0, 0, 1) (0, 0, 0)) = 1) by (apply norm_is; [lra|vecs; ring]).
  assert (K : forall t, cone_distance (0, 0, 1) (0, 0, 0) (0, 0, 1) t = cos t).
  { intros t. unfold cone_distance. rewrite NN. destruct (Req_EM_T 1 0); [lra|]. destruct (Req_EM_T (norm (cross (unit_of (sub (0, 0, 1) (0, 0, 0))) (0, 0, 1))) 0) as [_|E]; [ring|]. exfalso. apply E. apply norm_zero. unfold unit_of. rewrite NN. apply vec_eq; vecs; ring. }
  split; [vecs; ring|]. split; [unfold on_cone; rewrite NN, cos_0; vecs; ring|]. rewrite !K, cos_0, cos_PI2. repeat (split; [reflexivity|]). intros q Q. pose proof PI_RGT_0.
  assert (B := below (0, 0, 1) (0, 0, 0) (0, 0, 1) (PI / 2) 0 q ltac:(vecs; ring) ltac:(lra) ltac:(lra) ltac:(rewrite NN, cos_0; vecs; ring) Q).
  rewrite NN in B. replace (0 - PI / 2) with (- (PI / 2)) in B by ring. rewrite sin_neg, sin_PI2, Rabs_Ropp, Rabs_R1 in B. lra.
Qed.
Print Assumptions C230_axis_refuted.
(** An axis that points backwards is turned round: a point of the given cone is not on the one stored. *)
Theorem C230_turned_refuted : exists apex axis theta p, dot axis axis = 1 /\ on_cone apex axis theta p /\ let '(apex', axis', theta') := from_coeffs apex axis theta in cone_distance p apex' axis' theta' = 1.
Proof.
  exists (0, 0, 0), (-1, 0, 0), (PI / 4), (-1, 1, 0). destruct sqrt2 as [S0 S1]. pose proof PI_RGT_0. assert (NN : norm (sub (-1, 1, 0) (0, 0, 0)) = sqrt 2) by (apply norm_is; [lra|vecs; lra]). split; [vecs; ring|]. split.
  - unfold on_cone. rewrite NN, cos_PI4. replace (sqrt 2 * (1 / sqrt 2)) with 1 by (field; lra). vecs. ring.
  - unfold from_coeffs. rewrite unit_unit by (vecs; ring). destruct (Rlt_dec (vx (-1, 0, 0)) 0) as [_|K]; [|exfalso; apply K; vecs; lra].
    replace (scale (- 1) (-1, 0, 0)) with (1, 0, 0) by (apply vec_eq; vecs; ring). rewrite (cone_angle _ _ _ _ (3 * (PI / 4))); [|vecs; ring|lra|not_zero|].
    + replace (3 * (PI / 4) - PI / 4) with (PI / 2) by field. now rewrite sin_PI2, Rabs_R1.
    + rewrite NN, cos_3PI4. replace (sqrt 2 * (-1 / sqrt 2)) with (-1) by (field; lra). vecs. ring.
Qed.
Print Assumptions C230_turned_refuted.
(** A ray parallel to a line in the cone meets it in front of the camera and nothing is found. *)
Theorem C230_parallel_refuted : exists apex axis theta rp rv t, dot axis axis = 1 /\ 0 < t /\ on_cone apex axis theta (add rp (scale t rv)) /\ ray_intersection apex axis theta rp rv = Undefined.
Proof.
  exists (0, 0, 0), (0, 0, 1), (PI / 4), (-1, 0, 0), (1, 0, 1), (1 / 2). destruct sqrt2 as [S0 S1]. assert (HS : 1 / sqrt 2 * (1 / sqrt 2) = 1 / 2) by (rewrite <- S1 at 3; field; lra). split; [vecs; ring|]. split; [lra|]. split.
  - unfold on_cone. replace (sub (add (-1, 0, 0) (scale (1 / 2) (1, 0, 1))) (0, 0, 0)) with (-1 / 2, 0, 1 / 2) by (apply vec_eq; vecs; field). rewrite (norm_is _ (1 / sqrt 2)); [|left; apply Rdiv_lt_0_compat; lra|vecs; rewrite HS; field].
    rewrite cos_PI4, HS. vecs. ring.
  - assert (RN : norm (1, 0, 1) = sqrt 2) by (apply norm_is; [lra|vecs; lra]). unfold ray_intersection, unit_of. rewrite RN, cos_PI4, HS. set (a := _ * _ - 1 / 2).
    assert (A0 : a = 0) by (unfold a; vecs; replace ((/ sqrt 2 * 1 * 0 + / sqrt 2 * 0 * 0 + / sqrt 2 * 1 * 1)) with (1 / sqrt 2) by (field; lra); rewrite HS; ring). rewrite A0.
    destruct (Rlt_dec _ 0) as [L|_]; [exfalso|now destruct (Req_EM_T 0 0)]. match type of L with ?b * ?b - _ < 0 => pose proof (Rle_0_sqr b) as K; unfold Rsqr in K end. lra.
Qed.
Print Assumptions C230_parallel_refuted.
Lemma crossing : forall x z, z * z = 1 -> ray_intersection (0, 0, 0) (0, 0, 1) (PI / 4) (x, 0, z) (-1, 0, 0) = TwoHits (-1, 0, z) (1, 0, z).
Proof.
  intros x z Z1. destruct sqrt2 as [S0 S1]. assert (HS : 1 / sqrt 2 * (1 / sqrt 2) = 1 / 2) by (rewrite <- S1 at 3; field; lra). unfold ray_intersection. rewrite unit_unit by (vecs; ring). rewrite cos_PI4, HS.
  set (a := _ - 1 / 2). assert (A : a = - (1 / 2)) by (unfold a; vecs; ring). rewrite A. set (b := 2 * _). assert (B : b = x) by (unfold b; vecs; field). rewrite B. set (c := _ - _ * (1 / 2)).
  assert (C : c = (1 - x * x) / 2) by (unfold c; vecs; replace (z - 0) with z by ring; replace (x - 0) with x by ring; lra). rewrite C. replace (x * x - 4 * - (1 / 2) * ((1 - x * x) / 2)) with 1 by field. rewrite sqrt_1.
  destruct (Rlt_dec 1 0); [lra|]. destruct (Req_EM_T (- (1 / 2)) 0); [lra|]. destruct (Req_EM_T 1 0); [lra|]. f_equal; apply vec_eq; vecs; field.
Qed.
(** Points of the mirror image are returned, and points behind the camera. *)
Theorem C230_mirror_refuted : exists apex axis theta rp rv p q, dot axis axis = 1 /\ ray_intersection apex axis theta rp rv = TwoHits p q /\ ~ on_cone apex axis theta p /\ ~ on_cone apex axis theta q.
Proof.
  exists (0, 0, 0), (0, 0, 1), (PI / 4), (5, 0, -1), (-1, 0, 0), (-1, 0, -1), (1, 0, -1). split; [vecs; ring|]. split; [apply crossing; ring|]. destruct sqrt2 as [S0 S1].
  assert (H : forall u, 0 <= norm u * cos (PI / 4)) by (intros u; rewrite cos_PI4; apply Rmult_le_pos; [apply norm_nonneg|left; apply Rdiv_lt_0_compat; lra]).
  split; intros E; unfold on_cone in E; match type of E with _ = norm ?u * _ => pose proof (H u) as K end; rewrite <- E in K; vecs; lra.
Qed.
Print Assumptions C230_mirror_refuted.
Theorem C230_behind_refuted : exists apex axis theta rp rv p q, dot axis axis = 1 /\ ray_intersection apex axis theta rp rv = TwoHits p q /\ forall t, add rp (scale t rv) = p \/ add rp (scale t rv) = q -> t < 0.
Proof.
  exists (0, 0, 0), (0, 0, 1), (PI / 4), (-5, 0, 1), (-1, 0, 0), (-1, 0, 1), (1, 0, 1). split; [vecs; ring|]. split; [apply crossing; ring|]. intros t [E|E]; vecs; injection E; intros; lra.
Qed.
Print Assumptions C230_behind_refuted.
