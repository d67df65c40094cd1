(** C213, C214: triangulated laser points, the angles of the fitted plane and its uncertainty planes. *)
From Coq Require Import Reals Lra Psatz List.
From Verif Require Import FramesModel EulerModel EulerProps PlaneModel PlaneProps TriModel.
From Verif Require QuatProps.
Import ListNotations.
Open Scope R_scope.

(** ** Triangulation *)
(** A point seen at a pixel: the usual pinhole projection. *)
Definition homog (X : vec) : buffer := (vx X, vy X, vz X, 1).
Definition seen (P : proj) (X : vec) (p : pixel) : Prop :=
  let l := dot4 (row2 P) (homog X) in l <> 0 /\ snd p = dot4 (row0 P) (homog X) / l /\ fst p = dot4 (row1 P) (homog X) / l.
(** A rectified pair, side by side or one above the other, at different places. *)
Definition rectified (P1 P2 : proj) : Prop := exists fx fy cx cy cx' cy' tx ty, fx <> 0 /\ fy <> 0 /\ (tx <> 0 \/ ty <> 0) /\
  P1 = ((fx, 0, cx, 0), (0, fy, cy, 0), (0, 0, 1, 0)) /\ P2 = ((fx, 0, cx', tx), (0, fy, cy', ty), (0, 0, 1, 0)).
Lemma squares_nonneg : forall l, 0 <= squares l.
Proof. induction l as [|a l IH]; cbn; [lra|]. pose proof (Rle_0_sqr a). unfold Rsqr in *. unfold squares in *. nra. Qed.
Lemma squares_zero : forall l, squares l <= 0 -> Forall (fun a => a = 0) l.
Proof.
  induction l as [|a l IH]; intros H; [constructor|]. cbn [squares fold_right] in H. fold (squares l) in H. pose proof (squares_nonneg l). pose proof (Rle_0_sqr a) as S. unfold Rsqr in S.
  constructor; [nra|apply IH; lra].
Qed.
Definition scale4 (k : R) (V : buffer) : buffer := let '(x, y, z, w) := V in (k * x, k * y, k * z, k * w).
Lemma unit_of : forall l : list R, 0 < squares l -> let k := / sqrt (squares l) in squares (map (fun a => k * a) l) = 1.
Proof.
  intros l P k. assert (E : forall m, squares (map (fun a => k * a) m) = k * k * squares m).
  { induction m as [|a m IH]; cbn [map squares fold_right]; [unfold squares; cbn; ring|]. fold (squares m). unfold squares in IH at 1. rewrite IH. ring. }
  rewrite E. unfold k. pose proof (sqrt_lt_R0 _ P). replace (/ sqrt (squares l) * / sqrt (squares l)) with (/ (sqrt (squares l) * sqrt (squares l))) by (field; lra). rewrite sqrt_sqrt by lra. field. lra.
Qed.
(** What the exact observations say about a vector without residual. *)
Lemma lst_kernel : forall P1 P2 x1 x2 X V l1 l2, rectified P1 P2 -> seen P1 X x1 -> seen P2 X x2 -> Forall (fun a => a = 0) (lst_rows x1 x2 P1 P2 (V, l1, l2)) ->
  let w := snd V in V = scale4 w (homog X) /\ l1 = w * vz X /\ l2 = w * vz X.
Proof.
  intros P1 P2 [r1 c1] [r2 c2] [[X Y] Z] [[[x y] z] w] l1 l2 (fx & fy & cx & cy & cx' & cy' & tx & ty & Fx & Fy & T & -> & ->) (D1 & C1 & R1) (D2 & C2 & R2) H.
  unfold lst_rows, seen, homog, dot4, row0, row1, row2, scale4 in *. cbn [fst snd vx vy vz] in *. rewrite !Forall_cons_iff in H. destruct H as (A1 & A2 & A3 & A4 & A5 & A6 & _).
  assert (z = l1) by lra. assert (z = l2) by lra. subst l1 l2. replace (0 * X + 0 * Y + 1 * Z + 0 * 1) with Z in * by ring.
  assert (B1 : c1 * Z = fx * X + cx * Z) by (rewrite C1; field; lra). assert (B2 : r1 * Z = fy * Y + cy * Z) by (rewrite R1; field; lra).
  assert (B3 : c2 * Z = fx * X + cx' * Z + tx) by (rewrite C2; field; lra). assert (B4 : r2 * Z = fy * Y + cy' * Z + ty) by (rewrite R2; field; lra).
  clear C1 R1 C2 R2 D2 A3 A6.
  assert (Ex : fx * (x * Z) = fx * (z * X)). { replace (fx * (x * Z)) with ((fx * x) * Z) by ring. replace (fx * x) with (z * c1 - cx * z) by lra. replace ((z * c1 - cx * z) * Z) with (z * (c1 * Z) - cx * z * Z) by ring. rewrite B1. ring. }
  assert (Ey : fy * (y * Z) = fy * (z * Y)). { replace (fy * (y * Z)) with ((fy * y) * Z) by ring. replace (fy * y) with (z * r1 - cy * z) by lra. replace ((z * r1 - cy * z) * Z) with (z * (r1 * Z) - cy * z * Z) by ring. rewrite B2. ring. }
  apply Rmult_eq_reg_l in Ex; [|exact Fx]. apply Rmult_eq_reg_l in Ey; [|exact Fy].
  assert (Ew : w * Z = z).
  { destruct T as [T|T].
    - apply Rmult_eq_reg_l with tx; [|exact T]. replace (tx * (w * Z)) with ((tx * w) * Z) by ring. replace (tx * w) with (z * c2 - fx * x - cx' * z) by lra.
      replace ((z * c2 - fx * x - cx' * z) * Z) with (z * (c2 * Z) - fx * (x * Z) - cx' * z * Z) by ring. rewrite B3, Ex. ring.
    - apply Rmult_eq_reg_l with ty; [|exact T]. replace (ty * (w * Z)) with ((ty * w) * Z) by ring. replace (ty * w) with (z * r2 - fy * y - cy' * z) by lra.
      replace ((z * r2 - fy * y - cy' * z) * Z) with (z * (r2 * Z) - fy * (y * Z) - cy' * z * Z) by ring. rewrite B4, Ey. ring. }
  assert (Hx : x = w * X) by (apply Rmult_eq_reg_r with Z; [rewrite Ex, <- Ew; ring|exact D1]). assert (Hy : y = w * Y) by (apply Rmult_eq_reg_r with Z; [rewrite Ey, <- Ew; ring|exact D1]).
  repeat split; try lra. repeat f_equal; lra.
Qed.
(** Least squares: for exact observations by a rectified pair there is a result and it is the point. *)
Theorem C213_lst : forall P1 P2 X x1 x2, rectified P1 P2 -> seen P1 X x1 -> seen P2 X x2 ->
  forall X', triangulate_lst x1 x2 P1 P2 X' <-> X' = X.
Proof.
  intros P1 P2 X x1 x2 Rc S1 S2 X'.
  set (u0 := (homog X, vz X, vz X)). assert (Pos : 0 < squares (cells6 u0)).
  { unfold u0, cells6, homog, cells. cbn. destruct X as [[X Y] Z]. cbn [vx vy vz fst snd]. pose proof (Rle_0_sqr X). pose proof (Rle_0_sqr Y). pose proof (Rle_0_sqr Z). unfold Rsqr in *. nra. }
  set (k := / sqrt (squares (cells6 u0))). assert (K : k <> 0) by (unfold k; pose proof (sqrt_lt_R0 _ Pos); apply Rinv_neq_0_compat; lra).
  set (u := (scale4 k (homog X), k * vz X, k * vz X)). assert (U1 : squares (cells6 u) = 1).
  { change (cells6 u) with (map (fun a => k * a) (cells6 u0)). now apply unit_of. }
  assert (U0 : squares (lst_rows x1 x2 P1 P2 u) = 0).
  { clear -Rc S1 S2. destruct Rc as (fx & fy & cx & cy & cx' & cy' & tx & ty & Fx & Fy & T & -> & ->). destruct X as [[X Y] Z]. destruct x1 as [r1 c1], x2 as [r2 c2]. destruct S1 as (D1 & C1 & R1), S2 as (D2 & C2 & R2).
    unfold u, lst_rows, homog, dot4, row0, row1, row2, scale4 in *. cbn [fst snd vx vy vz] in *. replace (0 * X + 0 * Y + 1 * Z + 0 * 1) with Z in * by ring. subst c1 r1 c2 r2. unfold squares. cbn [fold_right]. field. exact D1. }
  split.
  - intros ([[V l1] l2] & (N & M) & W & ->). cbn [fst snd] in *. specialize (M u U1). rewrite U0 in M. apply squares_zero in M.
    destruct (lst_kernel P1 P2 x1 x2 X V l1 l2 Rc S1 S2 M) as (E & _ & _). rewrite E. destruct V as [[[x y] z] w]. cbn [fst snd] in *. destruct X as [[X Y] Z]. unfold homog, scale4, normalise. cbn [vx vy vz fst snd]. repeat f_equal; field; exact W.
  - intros ->. exists u. split; [split; [exact U1|intros v _; rewrite U0; apply squares_nonneg]|]. cbn [fst snd u]. unfold scale4, homog, normalise. destruct X as [[X Y] Z]. cbn [vx vy vz fst snd]. split; [lra|]. repeat f_equal; field; exact K.
Qed.
Print Assumptions C213_lst.
(** ... whichever unit vector the decomposition returns: its last cell is not zero. *)
Theorem C213_lst_defined : forall P1 P2 X x1 x2 v, rectified P1 P2 -> seen P1 X x1 -> seen P2 X x2 -> last_singular cells6 (lst_rows x1 x2 P1 P2) v -> snd (fst (fst v)) <> 0.
Proof.
  intros P1 P2 X x1 x2 [[V l1] l2] Rc S1 S2 (N & M) W. destruct (proj2 (C213_lst P1 P2 X x1 x2 Rc S1 S2 X) eq_refl) as (u & (U1 & Umin) & Uw & _).
  assert (Z : squares (lst_rows x1 x2 P1 P2 u) = 0).
  { apply Rle_antisym; [|apply squares_nonneg]. set (k := / sqrt (squares (cells6 (homog X, vz X, vz X)))).
    assert (Pos : 0 < squares (cells6 (homog X, vz X, vz X))).
    { unfold cells6, homog, cells. cbn. destruct X as [[X Y] Z]. cbn [vx vy vz fst snd]. pose proof (Rle_0_sqr X). pose proof (Rle_0_sqr Y). pose proof (Rle_0_sqr Z). unfold Rsqr in *. nra. }
    pose proof (Umin (scale4 k (homog X), k * vz X, k * vz X)) as Q. replace (squares (lst_rows x1 x2 P1 P2 (scale4 k (homog X), k * vz X, k * vz X))) with 0 in Q; [apply Q; change (cells6 (scale4 k (homog X), k * vz X, k * vz X)) with (map (fun a => k * a) (cells6 (homog X, vz X, vz X))); now apply unit_of|].
    symmetry. clear -Rc S1 S2. generalize k. clear k. intros k. destruct Rc as (fx & fy & cx & cy & cx' & cy' & tx & ty & Fx & Fy & T & -> & ->). destruct X as [[X Y] Z]. destruct x1 as [r1 c1], x2 as [r2 c2]. destruct S1 as (D1 & C1 & R1), S2 as (D2 & C2 & R2).
    unfold lst_rows, homog, dot4, row0, row1, row2, scale4 in *. cbn [fst snd vx vy vz] in *. replace (0 * X + 0 * Y + 1 * Z + 0 * 1) with Z in * by ring. subst c1 r1 c2 r2. unfold squares. cbn [fold_right]. field. exact D1. }
  specialize (M u U1). rewrite Z in M. apply squares_zero in M. destruct (lst_kernel P1 P2 x1 x2 X V l1 l2 Rc S1 S2 M) as (E & E1 & E2). cbn [fst snd] in W. rewrite W in E, E1, E2.
  rewrite E in N. subst l1 l2. unfold cells6, scale4, homog, cells in N. cbn in N. lra.
Qed.
Print Assumptions C213_lst_defined.
(** The direct linear transform: the same. *)
Lemma dlt_kernel : forall P1 P2 x1 x2 X V, rectified P1 P2 -> seen P1 X x1 -> seen P2 X x2 -> Forall (fun a => a = 0) (dlt_rows x1 x2 P1 P2 V) -> V = scale4 (snd V) (homog X).
Proof.
  intros P1 P2 x1 x2 X V Rc S1 S2 H. destruct (lst_kernel P1 P2 x1 x2 X V (dot4 (row2 P1) V) (dot4 (row2 P2) V) Rc S1 S2) as (E & _); [|exact E].
  unfold dlt_rows in H. unfold lst_rows. rewrite !Forall_cons_iff in H. destruct H as (A1 & A2 & A3 & A4 & _).
  destruct Rc as (fx & fy & cx & cy & cx' & cy' & tx & ty & _ & _ & _ & -> & ->). destruct V as [[[x y] z] w]. unfold row0, row1, row2, minus4, dot4 in *. cbn [fst snd] in *.
  repeat (constructor; [lra|]). constructor.
Qed.
Theorem C213_dlt : forall P1 P2 X x1 x2, rectified P1 P2 -> seen P1 X x1 -> seen P2 X x2 ->
  forall X', triangulate_dlt x1 x2 P1 P2 X' <-> X' = X.
Proof.
  intros P1 P2 X x1 x2 Rc S1 S2 X'.
  assert (Pos : 0 < squares (cells (homog X))).
  { unfold homog, cells. cbn. destruct X as [[X Y] Z]. cbn [vx vy vz fst snd]. pose proof (Rle_0_sqr X). pose proof (Rle_0_sqr Y). pose proof (Rle_0_sqr Z). unfold Rsqr in *. nra. }
  set (k := / sqrt (squares (cells (homog X)))). assert (K : k <> 0) by (unfold k; pose proof (sqrt_lt_R0 _ Pos); apply Rinv_neq_0_compat; lra).
  set (u := scale4 k (homog X)). assert (U1 : squares (cells u) = 1) by (change (cells u) with (map (fun a => k * a) (cells (homog X))); now apply unit_of).
  assert (U0 : squares (dlt_rows x1 x2 P1 P2 u) = 0).
  { clear -Rc S1 S2. destruct Rc as (fx & fy & cx & cy & cx' & cy' & tx & ty & Fx & Fy & T & -> & ->). destruct X as [[X Y] Z]. destruct x1 as [r1 c1], x2 as [r2 c2]. destruct S1 as (D1 & C1 & R1), S2 as (D2 & C2 & R2).
    unfold u, dlt_rows, homog, row0, row1, row2, minus4, scale4, dot4 in *. cbn [fst snd vx vy vz] in *. replace (0 * X + 0 * Y + 1 * Z + 0 * 1) with Z in * by ring. subst c1 r1 c2 r2. unfold squares. cbn [fold_right]. field. exact D1. }
  split.
  - intros (V & (N & M) & W & ->). specialize (M u U1). rewrite U0 in M. apply squares_zero in M. rewrite (dlt_kernel P1 P2 x1 x2 X V Rc S1 S2 M). destruct V as [[[x y] z] w]. cbn [fst snd] in *. destruct X as [[X Y] Z]. unfold homog, scale4, normalise. cbn [vx vy vz fst snd]. repeat f_equal; field; exact W.
  - intros ->. exists u. split; [split; [exact U1|intros v _; rewrite U0; apply squares_nonneg]|]. unfold u, scale4, homog, normalise. destruct X as [[X Y] Z]. cbn [vx vy vz fst snd]. split; [lra|]. repeat f_equal; field; exact K.
Qed.
Print Assumptions C213_dlt.

(** ** North-east-down: a rotation, camera up to forward *)
Theorem C213_ned : forall u v, dot (opencv_to_ned u) (opencv_to_ned v) = dot u v /\ cross (opencv_to_ned u) (opencv_to_ned v) = opencv_to_ned (cross u v) /\ far (opencv_to_ned u) (opencv_to_ned v) = far u v /\
  opencv_to_ned (0, -1, 0) = (1, 0, 0) /\ opencv_to_ned (1, 0, 0) = (0, 1, 0) /\ opencv_to_ned (0, 0, 1) = (0, 0, 1).
Proof.
  intros [[a b] c] [[d e] f]. unfold dot, cross, far, opencv_to_ned. cbn [vx vy vz fst snd]. split; [ring|]. split; [f_equal; [f_equal|]; ring|]. split; [f_equal; ring|]. split; [f_equal; f_equal; ring|]. split; [f_equal; f_equal; ring|]. f_equal; f_equal; ring.
Qed.
Print Assumptions C213_ned.

(** ** Angles *)
Lemma norm_pos : forall n, n <> (0, 0, 0) -> 0 < norm n /\ norm n * norm n = dot n n.
Proof.
  intros [[a b] c] H. unfold norm. assert (P : 0 < dot (a, b, c) (a, b, c)).
  { unfold dot. cbn [vx vy vz fst snd]. destruct (Req_dec a 0) as [->|A]; [|nra]. destruct (Req_dec b 0) as [->|B]; [|nra]. destruct (Req_dec c 0) as [->|C]; [now destruct H|nra]. }
  split; [now apply sqrt_lt_R0|apply sqrt_sqrt; lra].
Qed.
Lemma degrees_back : forall x, degrees x * deg_to_rad = x.
Proof. intros x. unfold degrees, deg_to_rad. pose proof PI_RGT_0. field. lra. Qed.
(** The angle between the plane and the y-z plane, from 0 to 90, whichever way the normal points. *)
Theorem C213_plane_angle : forall n, n <> (0, 0, 0) -> cos (get_angle n (1, 0, 0) * deg_to_rad) = Rabs (vx n) / norm n /\ 0 <= get_angle n (1, 0, 0) <= 90.
Proof.
  intros n H. destruct (norm_pos n H) as [P E]. unfold get_angle. set (N := norm n) in *. set (u := scale (/ N) n).
  assert (Nr : norm (1, 0, 0) = 1) by (unfold norm, dot; cbn [vx vy vz fst snd]; replace (1 * 1 + 0 * 0 + 0 * 0) with 1 by ring; apply sqrt_1).
  rewrite Nr. set (w := if Rlt_dec (vx u) 0 then scale (-1) u else u).
  assert (D : vx u * vx u + vy u * vy u + vz u * vz u = 1). { unfold u, scale. cbn [vx vy vz fst snd]. unfold dot in E. replace (_ + _) with ((vx n * vx n + vy n * vy n + vz n * vz n) / (N * N)) by (field; lra). rewrite <- E. field. lra. }
  assert (Wd : vx w * vx w + vy w * vy w + vz w * vz w = 1) by (unfold w; destruct (Rlt_dec (vx u) 0); [unfold scale; cbn [vx vy vz fst snd]; lra|exact D]).
  assert (W0 : vx w = Rabs (vx n) / N).
  { assert (Eu : vx u = vx n / N) by (unfold u, scale; cbn [vx fst]; unfold Rdiv; ring). unfold w. destruct (Rlt_dec (vx u) 0) as [L|L]; [unfold scale; cbn [vx fst]|]; rewrite Eu in *.
    - assert (vx n < 0). { apply Rnot_le_lt. intros K. apply Rlt_not_le in L. apply L. unfold Rdiv. apply Rmult_le_pos; [exact K|left; now apply Rinv_0_lt_compat]. } rewrite Rabs_left by assumption. unfold Rdiv. ring.
    - assert (0 <= vx n). { apply Rnot_lt_le. intros K. apply L. unfold Rdiv. assert (0 < / N) by now apply Rinv_0_lt_compat. nra. } rewrite Rabs_right by lra. reflexivity. }
  clearbody w. assert (Cr : dot w (scale (/ 1) (1, 0, 0)) = vx w) by (unfold dot, scale; cbn [vx vy vz fst snd]; rewrite Rinv_1; ring).
  assert (Sn : norm (cross w (scale (/ 1) (1, 0, 0))) = sqrt (vy w * vy w + vz w * vz w)) by (unfold norm; f_equal; unfold dot, cross, scale; cbn [vx vy vz fst snd]; rewrite Rinv_1; ring).
  rewrite Cr, Sn. set (s := sqrt _). assert (S0 : 0 <= s) by apply sqrt_pos. assert (S2 : s * s = vy w * vy w + vz w * vz w) by (apply sqrt_sqrt; nra).
  destruct (atan2_unit (vx w) s ltac:(lra)) as [C S]. rewrite degrees_back. split; [now rewrite C|].
  assert (X0 : 0 <= vx w) by (rewrite W0; unfold Rdiv; apply Rmult_le_pos; [apply Rabs_pos|left; now apply Rinv_0_lt_compat]).
  pose proof (QuatProps.atan2_right s (vx w) X0) as B. pose proof PI_RGT_0 as Pi.
  assert (A0 : 0 <= atan2 s (vx w)). { apply Rnot_lt_le. intros K. assert (sin (atan2 s (vx w)) < 0) by (apply sin_lt_0_var; lra). lra. }
  unfold degrees. assert (Q : atan2 s (vx w) * 180 / PI * PI = atan2 s (vx w) * 180) by (field; lra). split; nra.
Qed.
Print Assumptions C213_plane_angle.
Lemma fold_tan : forall y x, x <> 0 -> let a := fold90 (degrees (atan2 y x)) in -90 < a < 90 /\ tan (a * deg_to_rad) = y / x.
Proof.
  intros y x X. set (n := sqrt (x * x + y * y)). assert (P : 0 < x * x + y * y) by nra. assert (N : 0 < n) by now apply sqrt_lt_R0. assert (E : x * x + y * y = n * n) by (symmetry; apply sqrt_sqrt; lra).
  destruct (atan2_dir x y n N E) as [C S]. pose proof (QuatProps.atan2_range y x) as Rg. set (t := atan2 y x) in *. pose proof PI_RGT_0 as Pi.
  assert (Dg : -180 <= degrees t <= 180). { unfold degrees. assert (Q : t * 180 / PI * PI = t * 180) by (field; lra). split; nra. }
  assert (Xn : x / n <> 0) by (unfold Rdiv; apply Rmult_integral_contrapositive_currified; [exact X|apply Rinv_neq_0_compat; lra]).
  assert (Co : cos t <> 0) by (rewrite C; exact Xn).
  assert (Half : degrees t <> 90 /\ degrees t <> -90).
  { split; intros K; apply Co; rewrite <- (degrees_back t), K; [replace (90 * deg_to_rad) with (PI / 2) by (unfold deg_to_rad; field); apply cos_PI2|replace (-90 * deg_to_rad) with (- (PI / 2)) by (unfold deg_to_rad; field); rewrite cos_neg; apply cos_PI2]. }
  assert (T0 : tan t = y / x) by (unfold tan; rewrite C, S; field; split; lra).
  unfold fold90. destruct (Rlt_dec 90 (degrees t)) as [L|L].
  - destruct (Rlt_dec (degrees t - 180) (-90)) as [L'|L']; [lra|]. cbv zeta. split; [lra|]. replace ((degrees t - 180) * deg_to_rad) with (t - PI) by (rewrite Rmult_minus_distr_r, degrees_back; unfold deg_to_rad; field).
    unfold tan. unfold Rminus. rewrite sin_plus, cos_plus, cos_neg, sin_neg, cos_PI, sin_PI. rewrite <- T0. unfold tan. field. exact Co.
  - destruct (Rlt_dec (degrees t) (-90)) as [L'|L']; cbv zeta; (split; [lra|]).
    + replace ((degrees t + 180) * deg_to_rad) with (t + PI) by (rewrite Rmult_plus_distr_r, degrees_back; unfold deg_to_rad; field). unfold tan. rewrite sin_plus, cos_plus, cos_PI, sin_PI. rewrite <- T0. unfold tan. field. exact Co.
    + now rewrite degrees_back.
Qed.
(** Pitch and yaw between -90 and 90 degrees; the plane built from them has the direction of the normal. *)
Theorem C213_pitch_yaw : forall n p, vx n <> 0 -> let '(_, pitch, yaw) := get_angles n in
  -90 < pitch < 90 /\ -90 < yaw < 90 /\ fst (fst (build_plane pitch yaw p)) = (1, vy n / vx n, vz n / vx n).
Proof.
  intros n p X. assert (H : n <> (0, 0, 0)) by (intros ->; now apply X). destruct (norm_pos n H) as [P _]. unfold get_angles. set (N := norm n) in *.
  assert (X' : vx (scale (/ N) n) <> 0) by (unfold scale; cbn [vx fst]; apply Rmult_integral_contrapositive_currified; [apply Rinv_neq_0_compat; lra|exact X]).
  destruct (fold_tan (vz (scale (/ N) n)) _ X') as [Rp Tp]. destruct (fold_tan (vy (scale (/ N) n)) _ X') as [Ry Ty]. cbv zeta in *. split; [exact Rp|]. split; [exact Ry|].
  unfold build_plane. cbn [fst]. rewrite Tp, Ty. unfold scale. cbn [vx vy vz fst snd]. f_equal; [f_equal|]; field; split; lra.
Qed.
Print Assumptions C213_pitch_yaw.

(** ** Uncertainty planes *)
(** A plane x + by + cz + d = 0 through three sampled points that are far apart and not aligned, seen along x. *)
Definition bounding (md : R) (samples : list triple) (k : buffer) : Prop := exists p0 p1 p2, In (p0, p1, p2) samples /\
  fst (fst (fst k)) = 1 /\ on_plane k p0 /\ on_plane k p1 /\ on_plane k p2 /\
  md <= yz_norm p0 p1 /\ md <= yz_norm p0 p2 /\ md <= yz_norm p1 p2 /\ 866 / 1000 * (yz_norm p0 p1 * yz_norm p0 p2) <= Rabs (yz_cross p0 p1 p2).
Lemma accepted_spec : forall md p0 p1 p2, 0 < md -> accepted md (p0, p1, p2) = true -> md <= yz_norm p0 p1 /\ md <= yz_norm p0 p2 /\ md <= yz_norm p1 p2 /\ 866 / 1000 * (yz_norm p0 p1 * yz_norm p0 p2) <= Rabs (yz_cross p0 p1 p2).
Proof.
  intros md p0 p1 p2 M A. unfold accepted in A. destruct (Rlt_dec (yz_norm p0 p1) md); [discriminate|]. destruct (Rlt_dec (yz_norm p0 p2) md); [discriminate|]. destruct (Rlt_dec (yz_norm p1 p2) md); [discriminate|].
  destruct (Rlt_dec (Rabs (yz_cross p0 p1 p2) / (yz_norm p0 p1 * yz_norm p0 p2)) (866 / 1000)) as [|L]; [discriminate|]. repeat (split; [lra|]). apply Rnot_lt_le in L.
  assert (P : 0 < yz_norm p0 p1 * yz_norm p0 p2) by nra. set (q := yz_norm p0 p1 * yz_norm p0 p2) in *. assert (Q : Rabs (yz_cross p0 p1 p2) / q * q = Rabs (yz_cross p0 p1 p2)) by (field; lra). nra.
Qed.
Lemma accepted_plane : forall md p0 p1 p2, 0 < md -> accepted md (p0, p1, p2) = true -> forall samples, In (p0, p1, p2) samples -> bounding md samples (plane_through_3_points p0 p1 p2).
Proof.
  intros md p0 p1 p2 M A samples I. pose proof (accepted_spec md p0 p1 p2 M A) as (A1 & A2 & A3 & A4). destruct (C54_three_points p0 p1 p2) as (O0 & O1 & O2 & _). exists p0, p1, p2.
  split; [exact I|]. split; [|repeat (split; [assumption|]); assumption].
  assert (NZ : yz_cross p0 p1 p2 <> 0) by (intros Z; rewrite Z, Rabs_R0 in A4; nra).
  unfold plane_through_3_points. set (n := cross (sub p1 p0) (sub p2 p0)). assert (V : vx n = yz_cross p0 p1 p2) by (unfold n, cross, sub, yz_cross; cbn [vx vy vz fst snd]; reflexivity).
  destruct (Req_EM_T (vx n) 0) as [Z|Z]; [rewrite V in Z; contradiction|]. unfold div_all. cbn [fst]. field. exact Z.
Qed.
Theorem C213_uncertainty : forall md num samples out, 0 < md -> gather md num [] samples = Some out -> length out = num /\ Forall (bounding md samples) out.
Proof.
  intros md num all out M G.
  assert (H : forall samples planes, incl samples all -> (length planes <= num)%nat -> Forall (bounding md all) planes -> gather md num planes samples = Some out -> length out = num /\ Forall (bounding md all) out).
  { induction samples as [|[[p0 p1] p2] samples IH]; intros planes Inc L F E; cbn [gather] in E; destruct (Nat.ltb_spec (length planes) num) as [K|K]; try discriminate; try (injection E as <-; split; [apply Nat.le_antisymm; assumption|exact F]).
    apply IH in E; [exact E|intros x X; apply Inc; now right| |].
    - destruct (accepted md (p0, p1, p2)); [rewrite app_length; cbn [length]; apply Nat.le_trans with (S (length planes)); [rewrite Nat.add_1_r; apply Nat.le_refl|exact K]|now apply Nat.lt_le_incl].
    - destruct (accepted md (p0, p1, p2)) eqn:A; [|exact F]. apply Forall_app. split; [exact F|]. constructor; [|constructor]. apply accepted_plane; [exact M|exact A|apply Inc; now left]. }
  apply (H all []); auto; [intros x X; exact X|apply Nat.le_0_l].
Qed.
Print Assumptions C213_uncertainty.
(** The mean plane is written with the first coefficient one and is the fitted plane. *)
Theorem C213_scaled : forall k, fst (fst (fst k)) <> 0 -> fst (fst (fst (scaled k))) = 1 /\ forall p, on_plane (scaled k) p <-> on_plane k p.
Proof.
  intros [[[a b] c] d] A. cbn [fst] in A. unfold scaled. cbn [fst]. split; [field; exact A|]. intros p. unfold on_plane.
  replace (a * (1 / a) * vx p + b * (1 / a) * vy p + c * (1 / a) * vz p + d * (1 / a)) with ((a * vx p + b * vy p + c * vz p + d) / a) by (field; exact A). split; intros H; [|rewrite H; unfold Rdiv; ring].
  apply (f_equal (fun x => x * a)) in H. rewrite Rmult_0_l in H. rewrite <- H. field. exact A.
Qed.
Print Assumptions C213_scaled.

Definition left_P : proj := ((1000, 0, 500, 0), (0, 1000, 400, 0), (0, 0, 1, 0)).
Definition right_P : proj := ((1000, 0, 500, -500), (0, 1000, 400, 0), (0, 0, 1, 0)).
Example ex_rectified : rectified left_P right_P /\ seen left_P (1, 2, 4) (900, 750) /\ seen right_P (1, 2, 4) (900, 625).
Proof.
  split; [|unfold seen, dot4, row0, row1, row2, left_P, right_P, homog; cbn [fst snd vx vy vz]; split; (split; [lra|]); split; field].
  exists 1000, 1000, 500, 400, 500, 400, (-500), 0. split; [lra|]. split; [lra|]. split; [left; lra|]. split; reflexivity.
Qed.
Definition wide : triple := ((5, 0, 0), (6, 1, 0), (7, 0, 1)).
Lemma wide_norms : yz_norm (5, 0, 0) (6, 1, 0) = 1 /\ yz_norm (5, 0, 0) (7, 0, 1) = 1 /\ 1 <= yz_norm (6, 1, 0) (7, 0, 1) /\ yz_cross (5, 0, 0) (6, 1, 0) (7, 0, 1) = 1.
Proof.
  unfold yz_norm, yz_cross. cbn [vx vy vz fst snd]. split; [replace (_ + _) with 1 by ring; apply sqrt_1|]. split; [replace (_ + _) with 1 by ring; apply sqrt_1|]. split; [|ring].
  replace (_ + _) with 2 by ring. rewrite <- sqrt_1 at 1. apply sqrt_le_1_alt. lra.
Qed.
Lemma wide_accepted : accepted (1 / 2) wide = true.
Proof.
  destruct wide_norms as (A & B & C & D). unfold accepted, wide. rewrite A, B, D. destruct (Rlt_dec 1 (1 / 2)); [lra|]. destruct (Rlt_dec 1 (1 / 2)); [lra|]. destruct (Rlt_dec _ (1 / 2)); [lra|].
  rewrite Rabs_R1. destruct (Rlt_dec (1 / (1 * 1)) (866 / 1000)) as [L|]; [|reflexivity]. replace (1 / (1 * 1)) with 1 in L by field. lra.
Qed.
Example ex_gather : gather (1 / 2) 1 [] [wide] = Some [plane_through_3_points (5, 0, 0) (6, 1, 0) (7, 0, 1)].
Proof. cbn [gather length Nat.ltb Nat.leb]. rewrite wide_accepted. reflexivity. Qed.

(** * C214 *)
(** The planes of the second laser go through points of the second laser: they are always those of the first. *)
Lemma second_laser_never : forall dt db num top bottom a b, two_lasers dt db num top bottom = Some (a, b) -> b = a.
Proof.
  intros dt db num top bottom a b H. unfold two_lasers in H. destruct (gather dt num [] top) as [x|] eqn:E; [|discriminate].
  assert (L : (num <= length x)%nat).
  { clear H. revert E. generalize (@nil buffer). induction top as [|t top IH]; intros pl E; cbn [gather] in E; destruct (Nat.ltb_spec (length pl) num) as [K|K]; try discriminate; try (injection E as <-; exact K). now apply IH in E. }
  assert (G : gather db num x bottom = Some x) by (destruct bottom; cbn [gather]; now rewrite (proj2 (Nat.ltb_ge _ _) L)). rewrite G in H. injection H as <- <-. reflexivity.
Qed.
Theorem C214_second_laser_refuted : exists dt db num top bottom a b, 0 < db /\ two_lasers dt db num top bottom = Some (a, b) /\ ~ Forall (bounding db bottom) b.
Proof.
  set (far_away := ((15, 0, 0), (16, 1, 0), (17, 0, 1)) : triple). exists (1 / 2), (1 / 2), 1%nat, [wide], [far_away]. eexists. eexists. split; [lra|]. split; [unfold two_lasers; rewrite ex_gather; reflexivity|].
  intros F. inversion F as [|k l (p0 & p1 & p2 & [I|[]] & _ & O & _) _]. subst k l. unfold far_away in I. injection I as <- <- <-. unfold plane_through_3_points in O.
  destruct (Req_EM_T _ 0) as [Z|Z]; unfold on_plane, div_all, dot, cross, sub in O, Z; cbn [vx vy vz fst snd] in O, Z; [lra|]. revert O. match goal with |- ?e = 0 -> _ => replace e with 10 by field end. lra.
Qed.
Print Assumptions C214_second_laser_refuted.
(** The search for planes ends: not when the inliers are on a line, whatever is sampled. *)
Theorem C214_ends_refuted : exists cloud md, 0 < md /\ NoDup cloud /\ (3 <= length cloud)%nat /\ forall samples, (forall p0 p1 p2, In (p0, p1, p2) samples -> In p0 cloud /\ In p1 cloud /\ In p2 cloud) -> gather md 1 [] samples = None.
Proof.
  exists [(1, 0, 5); (1, 1, 5); (1, 2, 5)], (1 / 2). split; [lra|]. split.
  { repeat (constructor; [intros K; repeat (destruct K as [K|K]; [injection K as K; lra|]); exact K|]). constructor. }
  split; [cbn; apply Nat.le_refl|]. intros samples H. induction samples as [|[[p0 p1] p2] samples IH]; [reflexivity|]. cbn [gather length Nat.ltb Nat.leb].
  assert (A : accepted (1 / 2) (p0, p1, p2) = false).
  { destruct (accepted (1 / 2) (p0, p1, p2)) eqn:A; [|reflexivity]. exfalso. apply accepted_spec in A; [|lra]. destruct A as (A1 & A2 & A3 & A4). destruct (H p0 p1 p2 (or_introl eq_refl)) as (I0 & I1 & I2).
    assert (Z : forall p, In p [(1, 0, 5); (1, 1, 5); (1, 2, 5)] -> vz p = 5) by (intros p [<-|[<-|[<-|[]]]]; reflexivity).
    unfold yz_cross in A4. rewrite (Z p0 I0), (Z p1 I1), (Z p2 I2) in A4. replace ((vy p1 - vy p0) * (5 - 5) - (5 - 5) * (vy p2 - vy p0)) with 0 in A4 by ring. rewrite Rabs_R0 in A4. nra. }
  rewrite A. apply IH. intros q0 q1 q2 Q. apply H. now right.
Qed.
Print Assumptions C214_ends_refuted.
(** The angles do not depend on the sign of the normal: at 90 degrees they do. *)
Theorem C214_sign_refuted : exists n, n <> (0, 0, 0) /\ snd (get_angles n) <> snd (get_angles (scale (-1) n)).
Proof.
  exists (0, 1, 0). split; [intros K; injection K as K; lra|]. unfold get_angles. cbn [snd].
  assert (N : norm (0, 1, 0) = 1) by (unfold norm, dot; cbn [vx vy vz fst snd]; replace (_ + _) with 1 by ring; apply sqrt_1). assert (N' : norm (scale (-1) (0, 1, 0)) = 1) by (unfold norm, dot, scale; cbn [vx vy vz fst snd]; replace (_ + _) with 1 by ring; apply sqrt_1).
  rewrite N, N'. unfold scale. cbn [vx vy vz fst snd]. unfold atan2. rewrite Rinv_1.
  pose proof PI_RGT_0. repeat match goal with |- context [Rlt_dec ?a ?b] => destruct (Rlt_dec a b); try lra end.
  all: unfold degrees; replace (PI / 2 * 180 / PI) with 90 by (field; lra); replace (- (PI / 2) * 180 / PI) with (-90) by (field; lra).
  all: unfold fold90; repeat match goal with |- context [Rlt_dec ?a ?b] => destruct (Rlt_dec a b); try lra end.
Qed.
Print Assumptions C214_sign_refuted.
