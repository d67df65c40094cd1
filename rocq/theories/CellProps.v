(** C311, C312: the matrix of a crystal's cell. *)
From Coq Require Import Reals Lra Psatz.
From Verif Require Import CellModel.
Open Scope R_scope.

(** * Specification *)
(** The image of a point of the cell *)
Definition dot (u v : row) : R := let '(a, b, c) := u in let '(x, y, z) := v in a * x + b * y + c * z.
Definition maps (m : matrix) (v : row) : row := let '(r1, r2, r3) := m in (dot r1 v, dot r2 v, dot r3 v).
Definition volume (u v w : row) : R :=
  let '(a, b, c) := u in let '(d, e, f) := v in let '(g, h, i) := w in a * (e * i - f * h) - b * (d * i - f * g) + c * (d * h - e * g).
Definition degrees (d : R) : R := d * PI / 180.
(** There is a cell with these angles. *)
Definition gram (alpha beta gamma : R) : R :=
  1 - (cos (degrees alpha))^2 - (cos (degrees beta))^2 - (cos (degrees gamma))^2 + 2 * cos (degrees alpha) * cos (degrees beta) * cos (degrees gamma).

Lemma radians_degrees : forall d, radians d = degrees d.
Proof. intros d. unfold radians, degrees. lra. Qed.
Lemma sin_inside : forall d, 0 < d < 180 -> 0 < sin (degrees d).
Proof. intros d H. pose proof PI_RGT_0. unfold degrees. apply sin_gt_0; nra. Qed.
Lemma co_gram : forall sa sb ca cb cg, 0 < sa -> 0 < sb -> sa * sa + ca * ca = 1 -> sb * sb + cb * cb = 1 ->
  let co := (ca * cb - cg) / (sa * sb) in (1 - co * co) * ((sa * sb) * (sa * sb)) = 1 - ca^2 - cb^2 - cg^2 + 2 * ca * cb * cg.
Proof.
  intros sa sb ca cb cg A B SA SB co. assert (co * (sa * sb) = ca * cb - cg) as E by (unfold co; field; split; lra).
  replace ((1 - co * co) * (sa * sb * (sa * sb))) with ((sa * sa) * (sb * sb) - (co * (sa * sb)) * (co * (sa * sb))) by ring. rewrite E.
  replace (sa * sa) with (1 - ca * ca) by lra. replace (sb * sb) with (1 - cb * cb) by lra. ring.
Qed.
Lemma unit_ : forall d, sin (degrees d) * sin (degrees d) + cos (degrees d) * cos (degrees d) = 1.
Proof. intros d. pose proof (sin2_cos2 (degrees d)) as H. unfold Rsqr in H. exact H. Qed.

(** * C311 *)
(** There is a matrix exactly for the angles of a cell. *)
Theorem C311_defined : forall a b c alpha beta gamma, 0 < alpha < 180 -> 0 < beta < 180 ->
  ((exists m, orthogonalization_matrix a b c alpha beta gamma = Some m) <-> 0 <= gram alpha beta gamma).
Proof.
  intros a b c alpha beta gamma A B. pose proof (sin_inside alpha A) as SA. pose proof (sin_inside beta B) as SB. unfold orthogonalization_matrix, gram. rewrite !radians_degrees.
  pose proof (co_gram _ _ _ _ (cos (degrees gamma)) SA SB (unit_ alpha) (unit_ beta)) as G. cbv zeta in G. rewrite <- G.
  assert (0 < sin (degrees alpha) * sin (degrees beta)) as P by nra. assert (0 < (sin (degrees alpha) * sin (degrees beta)) * (sin (degrees alpha) * sin (degrees beta))) as P2 by nra. clear G.
  destruct (Req_EM_T _ 0) as [Z|_]; [lra|]. set (co := _ / _). destruct (Rlt_dec (1 - co * co) 0) as [L|L].
  - split; [intros [m H]; discriminate|]. intros H. exfalso. clearbody co. nra.
  - split; [|intros _; eexists; reflexivity]. intros _. clearbody co. apply Rnot_lt_le in L. nra.
Qed.
(** The edges of the cell have the given lengths and angles, and its volume is known. *)
Theorem C311_edges : forall a b c alpha beta gamma m, 0 < alpha < 180 -> 0 < beta < 180 -> orthogonalization_matrix a b c alpha beta gamma = Some m ->
  let u := maps m (1, 0, 0) in let v := maps m (0, 1, 0) in let w := maps m (0, 0, 1) in
  dot u u = a^2 /\ dot v v = b^2 /\ dot w w = c^2 /\ dot v w = b * c * cos (degrees alpha) /\ dot u w = a * c * cos (degrees beta) /\ dot u v = a * b * cos (degrees gamma) /\
  volume u v w = a * b * c * sqrt (gram alpha beta gamma).
Proof.
  intros a b c alpha beta gamma m A B H. pose proof (sin_inside alpha A) as SA. pose proof (sin_inside beta B) as SB. unfold orthogonalization_matrix in H. rewrite !radians_degrees in H. unfold gram.
  pose proof (co_gram _ _ _ _ (cos (degrees gamma)) SA SB (unit_ alpha) (unit_ beta)) as G. cbv zeta in G. rewrite <- G. clear G.
  pose proof (unit_ alpha) as UA. pose proof (unit_ beta) as UB. destruct (Req_EM_T _ 0) as [Z|Z]; [discriminate|].
  assert ((cos (degrees alpha) * cos (degrees beta) - cos (degrees gamma)) / (sin (degrees alpha) * sin (degrees beta)) * (sin (degrees alpha) * sin (degrees beta)) = cos (degrees alpha) * cos (degrees beta) - cos (degrees gamma)) as E by (field; split; lra).
  set (co := _ / _) in *. clearbody co. destruct (Rlt_dec _ 0) as [L|L]; [discriminate|]. apply Rnot_lt_le in L. injection H as <-. cbn [maps dot volume]. cbv zeta.
  assert (sqrt ((1 - co * co) * (sin (degrees alpha) * sin (degrees beta) * (sin (degrees alpha) * sin (degrees beta)))) = sqrt (1 - co * co) * (sin (degrees alpha) * sin (degrees beta))) as V.
  { rewrite sqrt_mult; [|exact L|nra]. rewrite sqrt_square by nra. reflexivity. }
  rewrite V. pose proof (sqrt_sqrt (1 - co * co) L) as Q. set (q := sqrt (1 - co * co)) in *. clearbody q. clear V L Z.
  set (sa := sin (degrees alpha)) in *. set (sb := sin (degrees beta)) in *. set (ca := cos (degrees alpha)) in *. set (cb := cos (degrees beta)) in *. set (cg := cos (degrees gamma)) in *. clearbody sa sb ca cb cg.
  repeat split; try ring.
  - transitivity (a * a * (sb * sb * (q * q + co * co) + cb * cb)); [ring|]. rewrite Q. replace (1 - co * co + co * co) with 1 by ring. replace (sb * sb * 1 + cb * cb) with 1 by lra. ring.
  - transitivity (b * b * (sa * sa + ca * ca)); [ring|]. rewrite UA. ring.
  - transitivity (a * b * (ca * cb - co * (sa * sb))); [ring|]. rewrite E. ring.
Qed.
(** The third edge is along z and the second one in the plane of y and z, to the side of y. *)
Theorem C311_axes : forall a b c alpha beta gamma m, 0 < alpha < 180 -> 0 < b -> orthogonalization_matrix a b c alpha beta gamma = Some m ->
  maps m (0, 0, 1) = (0, 0, c) /\ exists y z, maps m (0, 1, 0) = (0, y, z) /\ 0 < y.
Proof.
  intros a b c alpha beta gamma m A B E. pose proof (sin_inside alpha A) as SA. unfold orthogonalization_matrix in E. rewrite !radians_degrees in E. destruct (Req_EM_T _ 0); [discriminate|]. destruct (Rlt_dec _ 0); [discriminate|]. injection E as <-. cbn [maps dot].
  split; [f_equal; [f_equal|]; ring|]. exists (b * sin (degrees alpha)), (b * cos (degrees alpha)). split; [f_equal; [f_equal|]; ring|nra].
Qed.
Print Assumptions C311_axes. Print Assumptions C311_defined. Print Assumptions C311_edges.

(** Not vacuous: a box *)
Example C311_box : forall a b c, exists m, orthogonalization_matrix a b c 90 90 90 = Some m.
Proof.
  intros a b c. apply C311_defined; [lra|lra|]. unfold gram. replace (degrees 90) with (PI / 2) by (unfold degrees; field). rewrite cos_PI2. lra.
Qed.

(** * C312: the claims without the conditions *)
(** "Three angles have a cell": not if one is more than the sum of the two others. *)
Theorem C312_angles_refuted : exists alpha beta gamma, 0 < alpha < 180 /\ 0 < beta < 180 /\ 0 < gamma < 180 /\ forall a b c, orthogonalization_matrix a b c alpha beta gamma = None.
Proof.
  exists 60, 60, 135. repeat split; try lra. intros a b c. destruct (orthogonalization_matrix a b c 60 60 135) as [m|] eqn:E; [exfalso|reflexivity].
  assert (0 <= gram 60 60 135) as G by (apply (C311_defined a b c); [lra|lra|now exists m]). unfold gram in G. replace (degrees 60) with (PI / 3) in G by (unfold degrees; field). replace (degrees 135) with (3 * (PI / 4)) in G by (unfold degrees; field).
  rewrite cos_PI3, cos_3PI4 in G. pose proof (sqrt_lt_R0 2 ltac:(lra)) as S. pose proof (sqrt_sqrt 2 ltac:(lra)) as S2. assert (/ sqrt 2 * sqrt 2 = 1) by (apply Rinv_l; lra). assert (-1 / sqrt 2 = - / sqrt 2) as R by (field; lra). rewrite R in G. assert (0 < / sqrt 2) by (now apply Rinv_0_lt_compat). nra.
Qed.
(** "The first edge stays where it is": its direction changes unless the cell is a box; it is the third that stays. *)
Theorem C312_first_refuted : exists m, orthogonalization_matrix 1 1 1 90 60 90 = Some m /\ maps m (0, 0, 1) = (0, 0, 1) /\ forall x, maps m (1, 0, 0) <> (x, 0, 0).
Proof.
  destruct (proj2 (C311_defined 1 1 1 90 60 90 ltac:(lra) ltac:(lra))) as [m E].
  { unfold gram. replace (degrees 90) with (PI / 2) by (unfold degrees; field). replace (degrees 60) with (PI / 3) by (unfold degrees; field). rewrite cos_PI2, cos_PI3. lra. }
  exists m. split; [exact E|]. unfold orthogonalization_matrix in E. destruct (Req_EM_T _ 0); [discriminate|]. destruct (Rlt_dec _ 0); [discriminate|]. injection E as <-. cbn [maps dot]. split; [f_equal; [f_equal|]; ring|].
  intros x H. injection H as _ _ H. replace (radians 60) with (PI / 3) in H by (unfold radians; field). rewrite cos_PI3 in H. lra.
Qed.
Print Assumptions C312_angles_refuted. Print Assumptions C312_first_refuted.
