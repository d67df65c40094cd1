(** C265/C266: the plane fitted to a laser's point cloud, and the files of the cloud. *)
From Coq Require Import Psatz.
From Verif Require Import FramesModel PlaneModel PlaneProps TriModel LaserFitModel.
From Coq Require Import Reals Lra List.
Import ListNotations.
Open Scope R_scope.

(** ** Fit *)
Lemma stored_distance : forall a b c d p, some_normal (a, b, c, d) -> let n := length3 (a, b, c, d) in
  distance (from_coeffs (a, b, c, d)) p = Rabs (a * vx p + b * vy p + c * vz p + n * d) / (n * n).
Proof.
  intros a b c d p H n. destruct (length_pos a b c d H) as [N NN]. fold n in N, NN. unfold distance.
  change (dot (normal (from_coeffs (a, b, c, d))) p + offset4 (from_coeffs (a, b, c, d))) with (a / n / n * vx p + b / n / n * vy p + c / n / n * vz p + d / n).
  replace (a / n / n * vx p + b / n / n * vy p + c / n / n * vz p + d / n) with ((a * vx p + b * vy p + c * vz p + n * d) / (n * n)) by (field; lra).
  unfold Rdiv. rewrite Rabs_mult. f_equal. apply Rabs_pos_eq. left. apply Rinv_0_lt_compat. nra.
Qed.
(** The Euclidean distance to the plane that is returned is [n] times what the code takes for the distance. *)
Lemma returned_distance : forall a b c d p, some_normal (a, b, c, d) -> let n := length3 (a, b, c, d) in
  distance_to (coeffs (from_coeffs (a, b, c, d))) p (n * distance (from_coeffs (a, b, c, d)) p).
Proof.
  intros a b c d p H n. destruct (length_pos a b c d H) as [N NN]. fold n in N, NN. destruct (C154_from_coeffs a b c d H) as (P & _). cbv zeta in P. fold n in P.
  rewrite (stored_distance a b c d p H). fold n. replace (n * (Rabs (a * vx p + b * vy p + c * vz p + n * d) / (n * n))) with (Rabs (a * vx p + b * vy p + c * vz p + n * d) / n) by (field; lra).
  assert (Rabs (a * vx p + b * vy p + c * vz p + n * d) / n = Rabs (a / n * vx p + b / n * vy p + c / n * vz p + d)) as ->.
  { replace (a / n * vx p + b / n * vy p + c / n * vz p + d) with ((a * vx p + b * vy p + c * vz p + n * d) / n) by (field; lra). unfold Rdiv. rewrite Rabs_mult. f_equal. symmetry. apply Rabs_pos_eq. left. now apply Rinv_0_lt_compat. }
  assert (forall q, on_plane (coeffs (from_coeffs (a, b, c, d))) q <-> on_plane (a / n, b / n, c / n, d) q) as Q.
  { intros q. rewrite (P q). unfold on_plane. replace (a * vx q + b * vy q + c * vz q + n * d) with (n * (a / n * vx q + b / n * vy q + c / n * vz q + d)) by (field; lra). split; intros E; [apply Rmult_integral in E; destruct E; [lra|assumption]|rewrite E; ring]. }
  destruct (plane_distance (a / n) (b / n) (c / n) d p) as [(q & Oq & F) L].
  { replace (a / n * (a / n) + b / n * (b / n) + c / n * (c / n)) with ((a * a + b * b + c * c) / (n * n)) by (field; lra). rewrite <- NN. field. lra. }
  split; [exists q; split; [now apply Q|exact F]|]. intros r R. apply L. now apply Q.
Qed.
Lemma distance_unique : forall k p r s, distance_to k p r -> distance_to k p s -> r = s.
Proof. intros k p r s [(q & Oq & <-) L] [(t & Ot & <-) M]. apply Rle_antisym; auto. Qed.

(** ** C265 *)
(** The points taken as inliers are exactly those nearer than [n] times the threshold to the plane that is returned, where [n] is the length of the
    normal that was found. *)
Theorem C265_inliers : forall a b c d threshold cloud p, some_normal (a, b, c, d) ->
  In p (snd (fit (a, b, c, d) cloud threshold)) <-> In p cloud /\ exists r, distance_to (fst (fit (a, b, c, d) cloud threshold)) p r /\ r < sqrt (a * a + b * b + c * c) * threshold.
Proof.
  intros a b c d threshold cloud p H. unfold fit. cbn [fst snd]. rewrite filter_In. change (sqrt (a * a + b * b + c * c)) with (length3 (a, b, c, d)). destruct (length_pos a b c d H) as [N _].
  pose proof (returned_distance a b c d p H) as D. cbv zeta in D. set (n := length3 (a, b, c, d)) in *. split; intros [I J]; split; try exact I.
  - destruct (Rlt_dec _ _) as [L|L]; [|discriminate]. eexists. split; [exact D|]. now apply Rmult_lt_compat_l.
  - destruct J as (r & R & L). rewrite (distance_unique _ _ _ _ R D) in L. apply Rmult_lt_reg_l in L; [|exact N]. destruct (Rlt_dec _ _); [reflexivity|contradiction].
Qed.
Print Assumptions C265_inliers.

(** That length is at least one and at most the root of three, for a least cost within the bounds, unless the plane goes through all points: one coordinate
    of the normal is at its bound. *)
Definition best (s : buffer) (cloud : list vec) : Prop := within s /\ some_normal s /\ forall t, within t -> some_normal t -> cost s cloud <= cost t cloud.
Lemma soft_mono : forall y z, 0 <= y -> y <= z -> soft_l1 y <= soft_l1 z.
Proof. intros y z Y L. unfold soft_l1. assert (sqrt (1 + y) <= sqrt (1 + z)) by (apply sqrt_le_1; lra). lra. Qed.
Lemma soft_strict : forall y z, 0 <= y -> y < z -> soft_l1 y < soft_l1 z.
Proof. intros y z Y L. unfold soft_l1. assert (sqrt (1 + y) < sqrt (1 + z)) by (apply sqrt_lt_1; lra). lra. Qed.
Lemma longer : forall a b c d k p, 0 < k -> some_normal (a, b, c, d) -> distance (from_coeffs (k * a, k * b, k * c, d)) p = distance (from_coeffs (a, b, c, d)) p / k.
Proof.
  intros a b c d k p K H. assert (some_normal (k * a, k * b, k * c, d)) as H'. { unfold some_normal in *. destruct H as [H|[H|H]]; [left|right; left|right; right]; apply Rmult_integral_contrapositive_currified; lra. }
  rewrite !stored_distance by assumption. destruct (length_pos a b c d H) as [N NN].
  assert (length3 (k * a, k * b, k * c, d) = k * length3 (a, b, c, d)) as ->.
  { unfold length3 at 1. replace (k * a * (k * a) + k * b * (k * b) + k * c * (k * c)) with ((k * length3 (a, b, c, d)) * (k * length3 (a, b, c, d))) by (transitivity (k * k * (length3 (a, b, c, d) * length3 (a, b, c, d))); [ring|rewrite NN; ring]). apply sqrt_square. nra. }
  set (n := length3 (a, b, c, d)) in *. replace (k * a * vx p + k * b * vy p + k * c * vz p + k * n * d) with (k * (a * vx p + b * vy p + c * vz p + n * d)) by ring.
  rewrite Rabs_mult, (Rabs_pos_eq k) by lra. field. lra.
Qed.
Lemma sum_le : forall A (f g : A -> R) l, (forall q, f q <= g q) -> fold_right Rplus 0 (map f l) <= fold_right Rplus 0 (map g l).
Proof. intros A f g l H. induction l as [|q l IH]; [apply Rle_refl|]. cbn [map fold_right]. specialize (H q). lra. Qed.
Lemma sum_lt : forall A (f g : A -> R) l p, (forall q, f q <= g q) -> In p l -> f p < g p -> fold_right Rplus 0 (map f l) < fold_right Rplus 0 (map g l).
Proof.
  intros A f g l p H I L. induction l as [|q l IH]; [destruct I|]. cbn [map fold_right]. destruct I as [->|I]; [pose proof (sum_le A f g l H); lra|]. specialize (IH I). specialize (H q). lra.
Qed.
Lemma cost_less : forall a b c d k cloud p, 1 < k -> some_normal (a, b, c, d) -> In p cloud -> distance (from_coeffs (a, b, c, d)) p <> 0 ->
  cost (k * a, k * b, k * c, d) cloud < cost (a, b, c, d) cloud.
Proof.
  intros a b c d k cloud p K H I NZ. unfold cost, residuals. rewrite !map_map. apply Rmult_lt_compat_l; [lra|].
  assert (forall q, exists s, 0 <= s /\ distance (from_coeffs (k * a, k * b, k * c, d)) q = s /\ distance (from_coeffs (a, b, c, d)) q = s * k) as S.
  { intros q. exists (distance (from_coeffs (a, b, c, d)) q / k). split; [|split; [apply longer; [lra|exact H]|field; lra]]. apply Rmult_le_pos; [apply Rabs_pos|left; apply Rinv_0_lt_compat; lra]. }
  apply (sum_lt _ _ _ cloud p); [|exact I|].
  - intros q. destruct (S q) as (s & P & -> & ->). apply soft_mono; [nra|]. assert (s <= s * k) by nra. nra.
  - destruct (S p) as (s & P & E & F). rewrite E, F in *. assert (0 < s) by (destruct P as [P| <-]; [exact P|rewrite Rmult_0_l in NZ; now elim NZ]). apply soft_strict; [nra|]. assert (s < s * k) by nra. nra.
Qed.
Theorem C265_length : forall a b c d cloud p, best (a, b, c, d) cloud -> In p cloud -> ~ on_plane (fst (fit (a, b, c, d) cloud 1)) p ->
  (Rabs a = 1 \/ Rabs b = 1 \/ Rabs c = 1) /\ 1 <= sqrt (a * a + b * b + c * c) <= sqrt 3.
Proof.
  intros a b c d cloud p (W & H & B) I O. destruct W as (A1 & B1 & C1).
  assert (distance (from_coeffs (a, b, c, d)) p <> 0) as NZ.
  { intros E. apply O. unfold fit. cbn [fst]. destruct (C154_from_coeffs a b c d H) as (P & _). apply P. rewrite stored_distance in E by exact H. destruct (length_pos a b c d H) as [N _]. cbv zeta in *. set (n := length3 (a, b, c, d)) in *. unfold on_plane.
    apply Rmult_integral in E. destruct E as [E|E]; [destruct (Req_dec (a * vx p + b * vy p + c * vz p + n * d) 0) as [X|X]; [exact X|apply Rabs_pos_lt in X; lra]|]. exfalso. assert (0 < / (n * n)) by (apply Rinv_0_lt_compat; nra). lra. }
  assert (Rabs a = 1 \/ Rabs b = 1 \/ Rabs c = 1) as M.
  { set (m := Rmax (Rabs a) (Rmax (Rabs b) (Rabs c))). assert (Rabs a <= m /\ Rabs b <= m /\ Rabs c <= m) as (MA & MB & MC).
    { unfold m. split; [apply Rmax_l|]. split; (eapply Rle_trans; [|apply Rmax_r]); [apply Rmax_l|apply Rmax_r]. }
    assert (m = Rabs a \/ m = Rabs b \/ m = Rabs c) as ME. { unfold m, Rmax. repeat destruct (Rle_dec _ _); auto. }
    assert (m <= 1) as M1. { assert (Rabs a <= 1 /\ Rabs b <= 1 /\ Rabs c <= 1) as (X & Y & Z) by (repeat split; apply Rabs_le; lra). destruct ME as [->|[->| ->]]; assumption. }
    assert (0 < m) as M0. { destruct H as [H|[H|H]]; apply Rabs_pos_lt in H; lra. }
    destruct (Req_dec m 1) as [E|NE]; [rewrite E in ME; destruct ME as [<-|[<-| <-]]; auto|exfalso].
    assert (1 < / m) as K. { rewrite <- Rinv_1. apply Rinv_lt_contravar; lra. }
    assert (some_normal (/ m * a, / m * b, / m * c, d)) as H'. { unfold some_normal in *. destruct H as [H|[H|H]]; [left|right; left|right; right]; apply Rmult_integral_contrapositive_currified; lra. }
    assert (forall x, Rabs x <= m -> -1 <= / m * x <= 1) as BB.
    { intros x X. assert (Rabs (/ m * x) <= 1) as Y. { rewrite Rabs_mult, (Rabs_pos_eq (/ m)) by lra. apply Rmult_le_reg_l with m; [exact M0|]. rewrite <- Rmult_assoc, Rinv_r, Rmult_1_l by lra. lra. }
      unfold Rabs in Y. destruct (Rcase_abs (/ m * x)); lra. }
    pose proof (B (/ m * a, / m * b, / m * c, d)) as L. specialize (L (conj (BB a MA) (conj (BB b MB) (BB c MC))) H').
    pose proof (cost_less a b c d (/ m) cloud p K H I NZ). lra. }
  split; [exact M|]. assert (forall x, Rabs x = 1 -> x * x = 1) as SQ. { intros x X. rewrite <- (Rabs_pos_eq (x * x)) by nra. rewrite Rabs_mult, X. ring. }
  split.
  - rewrite <- sqrt_1 at 1. apply sqrt_le_1; [lra|nra|]. destruct M as [M|[M|M]]; apply SQ in M; nra.
  - apply sqrt_le_1; nra.
Qed.
Print Assumptions C265_length.
(** So no point within the threshold is left out, and none beyond the root of three times the threshold is taken. *)
Theorem C265_threshold : forall a b c d threshold cloud p r, best (a, b, c, d) cloud -> 0 <= threshold -> In p cloud -> distance_to (fst (fit (a, b, c, d) cloud threshold)) p r ->
  (r < threshold -> In p (snd (fit (a, b, c, d) cloud threshold))) /\ (In p (snd (fit (a, b, c, d) cloud threshold)) -> r < sqrt 3 * threshold \/ r = 0).
Proof.
  intros a b c d threshold cloud p r B T I D. pose proof B as (_ & H & _). pose proof D as [(q & Oq & F) L].
  destruct (Req_dec r 0) as [Z|NZ].
  - split; [|now right]. intros L0. apply C265_inliers; [exact H|]. split; [exact I|]. exists r. split; [exact D|]. rewrite Z in *. apply Rmult_lt_0_compat; [|exact L0]. destruct (length_pos a b c d H) as [N _]. exact N.
  - assert (~ on_plane (fst (fit (a, b, c, d) cloud 1)) p) as O.
    { intros O. assert (r <= far p p) as X by (apply L; exact O). assert (far p p = 0) as E by (unfold far; rewrite <- sqrt_0; apply (f_equal sqrt); ring). assert (0 <= r) by (rewrite <- F; apply sqrt_pos). lra. }
    destruct (C265_length a b c d cloud p B I O) as (_ & L1 & L3). split.
    + intros R. apply C265_inliers; [exact H|]. split; [exact I|]. exists r. split; [exact D|]. nra.
    + intros J. apply C265_inliers in J; [|exact H]. destruct J as (_ & s & S & LT). rewrite (distance_unique _ _ _ _ D S) in *. left. nra.
Qed.
Print Assumptions C265_threshold.
(** What is written: the plane of the fit with first coefficient 1, and the mean of the inliers, which is nearer to it than the threshold for inliers. *)
Lemma sum_linear : forall (f : vec -> R) k l m, (forall p, f p = k * vx p + l * vy p + m * vz p) -> forall ps,
  fold_right Rplus 0 (map f ps) = k * fold_right Rplus 0 (map vx ps) + l * fold_right Rplus 0 (map vy ps) + m * fold_right Rplus 0 (map vz ps).
Proof. intros f k l m F. induction ps as [|p ps IH]; [cbn; ring|]. cbn [map fold_right]. rewrite IH, F. ring. Qed.
Lemma sum_below : forall (f : vec -> R) t ps, ps <> [] -> (forall p, In p ps -> Rabs (f p) < t) -> Rabs (fold_right Rplus 0 (map f ps)) < INR (length ps) * t.
Proof.
  intros f t ps N H. destruct ps as [|p ps]; [congruence|]. clear N. revert p H. induction ps as [|q ps IH]; intros p H.
  - cbn [map fold_right length]. rewrite Rplus_0_r. change (INR 1) with 1. rewrite Rmult_1_l. apply H. now left.
  - specialize (IH q (fun r I => H r (or_intror I))). change (fold_right Rplus 0 (map f (p :: q :: ps))) with (f p + fold_right Rplus 0 (map f (q :: ps))).
    eapply Rle_lt_trans; [apply Rabs_triang|]. change (length (p :: q :: ps)) with (S (length (q :: ps))). rewrite S_INR. specialize (H p (or_introl eq_refl)). lra.
Qed.
Lemma mean_distance : forall s t ps, ps <> [] -> (forall p, In p ps -> distance (from_coeffs s) p < t) -> distance (from_coeffs s) (centre ps) < t.
Proof.
  intros s t ps N H. unfold distance in *. set (v := normal (from_coeffs s)) in *. set (o := offset4 (from_coeffs s)) in *.
  assert (0 < INR (length ps)) as P. { destruct ps as [|p ps]; [congruence|]. cbn [length]. apply lt_0_INR, Nat.lt_0_succ. }
  pose proof (sum_below (fun p => dot v p + o) t ps N H) as B.
  assert (fold_right Rplus 0 (map (fun p => dot v p + o) ps) = INR (length ps) * (dot v (centre ps) + o)) as E.
  { assert (fold_right Rplus 0 (map (fun p => dot v p + o) ps) = fold_right Rplus 0 (map (dot v) ps) + INR (length ps) * o) as ->.
    { clear. induction ps as [|p ps IH]; [cbn; ring|]. cbn [map fold_right]. change (length (p :: ps)) with (S (length ps)). rewrite IH, S_INR. ring. }
    rewrite (sum_linear (dot v) (vx v) (vy v) (vz v)) by reflexivity. unfold centre, dot, mean_of, vx, vy, vz. cbn [fst snd]. rewrite !map_length. field. lra. }
  rewrite E, Rabs_mult, (Rabs_pos_eq (INR _)) in B by lra. now apply Rmult_lt_reg_l in B.
Qed.
Definition average (f : vec -> R) (ps : list vec) (m : R) : Prop := m * INR (length ps) = fold_right Rplus 0 (map f ps).
Lemma average_of : forall f ps, ps <> [] -> average f ps (mean_of (map f ps)).
Proof. intros f ps N. unfold average, mean_of. rewrite map_length. field. destruct ps as [|p ps]; [congruence|]. cbn [length]. apply not_0_INR. discriminate. Qed.
Theorem C265_written : forall a b c d threshold num before samples cloud l, a <> 0 -> fit_and_save (a, b, c, d) threshold num before samples cloud = Done l ->
  let '(plane, inliers) := fit (a, b, c, d) cloud threshold in
  (exists b' c' d', mean_plane l = (1, b', c', d')) /\ (forall p, on_plane (mean_plane l) p <-> on_plane plane p) /\
  average vx inliers (vx (mean_xyz l)) /\ average vy inliers (vy (mean_xyz l)) /\ average vz inliers (vz (mean_xyz l)) /\
  exists r, distance_to (mean_plane l) (mean_xyz l) r /\ r < sqrt (a * a + b * b + c * c) * threshold.
Proof.
  intros a b c d threshold num before samples cloud l A0 E. unfold fit_and_save in E. destruct (fit (a, b, c, d) cloud threshold) as [plane inliers] eqn:F.
  assert (some_normal (a, b, c, d)) as H by now left. destruct (length_pos a b c d H) as [N NN]. set (n := length3 (a, b, c, d)) in *.
  assert (inliers <> [] /\ exists ps, l = mklaser (centre inliers) (TriModel.scaled plane) ps) as (NE & ps & ->).
  { destruct inliers as [|i is]; [discriminate|]. split; [discriminate|]. destruct (_ && _)%bool; [discriminate|]. destruct (gather _ _ _ _) as [ps|]; [|discriminate]. injection E as <-. now exists ps. }
  assert ((a / n / n, b / n / n, c / n / n, d / n) = plane) as P by exact (f_equal fst F). pose proof (f_equal snd F) as I. unfold fit in I. cbn [snd] in I. cbn [mean_plane mean_xyz].
  assert (a / n / n <> 0) as AN. { replace (a / n / n) with (a * (/ n * / n)) by (field; lra). apply Rmult_integral_contrapositive_currified; [exact A0|]. pose proof (Rinv_0_lt_compat n N). nra. }
  assert (forall p, on_plane (TriModel.scaled plane) p <-> on_plane plane p) as S.
  { intros p. rewrite <- P. unfold TriModel.scaled, on_plane. set (a' := a / n / n) in *. set (b' := b / n / n) in *. set (c' := c / n / n) in *. set (d' := d / n) in *.
    replace (a' * (1 / a') * vx p + b' * (1 / a') * vy p + c' * (1 / a') * vz p + d' * (1 / a')) with ((a' * vx p + b' * vy p + c' * vz p + d') * / a') by (field; exact AN).
    split; intros X; [|rewrite X; ring]. apply Rmult_integral in X. destruct X as [X|X]; [exact X|]. pose proof (Rinv_neq_0_compat a' AN). contradiction. }
  split. { rewrite <- P. unfold TriModel.scaled. eexists. eexists. eexists. f_equal. f_equal. f_equal. field. repeat split; lra. }
  split; [exact S|]. split; [now apply average_of|]. split; [now apply average_of|]. split; [now apply average_of|].
  pose proof (returned_distance a b c d (centre inliers) H) as D. cbv zeta in D. fold n in D. exists (n * distance (from_coeffs (a, b, c, d)) (centre inliers)). split.
  - rewrite <- P in S. destruct D as [(q & Oq & Fq) L]. split; [exists q; split; [rewrite <- P; apply S; exact Oq|exact Fq]|]. intros q' O. apply L. apply (S q'). rewrite P. exact O.
  - change (sqrt (a * a + b * b + c * c)) with n. apply Rmult_lt_compat_l; [exact N|]. apply mean_distance; [exact NE|]. intros p J. rewrite <- I in J. apply filter_In in J. destruct J as [_ J]. destruct (Rlt_dec _ _); [assumption|discriminate].
Qed.
Print Assumptions C265_written.
(** The points of an uncertainty plane must be twice the root mean square distance of the inliers from their mean apart, seen along the first axis. *)
Theorem C265_spread : forall inliers my mz, inliers <> [] -> average vy inliers my -> average vz inliers mz ->
  0 <= min_dist inliers /\ average (fun p => (vy p - my) * (vy p - my) + (vz p - mz) * (vz p - mz)) inliers (min_dist inliers / 2 * (min_dist inliers / 2)).
Proof.
  intros inliers my mz N Y Z. assert (0 < INR (length inliers)) as P. { destruct inliers as [|p ps]; [congruence|]. cbn [length]. apply lt_0_INR, Nat.lt_0_succ. }
  assert (forall f m, average f inliers m -> mean_of (map f inliers) = m) as U.
  { intros f m A. pose proof (average_of f inliers N) as B. unfold average in A, B. rewrite <- A in B. apply Rmult_eq_reg_r in B; lra. }
  assert (forall f m, average f inliers m -> std_of (map f inliers) * std_of (map f inliers) * INR (length inliers) = fold_right Rplus 0 (map (fun p => (f p - m) * (f p - m)) inliers)) as V.
  { intros f m A. unfold std_of. rewrite map_map. assert (0 <= fold_right Rplus 0 (map (fun p => (f p - mean_of (map f inliers)) * (f p - mean_of (map f inliers))) inliers)) as PP.
    { clear. generalize (mean_of (map f inliers)). intros m. induction inliers as [|p ps IH]; [cbn; lra|]. cbn [map fold_right]. pose proof (Rle_0_sqr (f p - m)) as Q. unfold Rsqr in Q. apply Rplus_le_le_0_compat; [exact Q|exact IH]. }
    rewrite sqrt_sqrt by (unfold mean_of at 1; apply Rmult_le_pos; [exact PP|left; apply Rinv_0_lt_compat; now rewrite map_length]). unfold mean_of at 1. rewrite map_length. rewrite (U f m A). field. lra. }
  pose proof (V vy my Y) as VY. pose proof (V vz mz Z) as VZ. unfold min_dist, average. set (sy := std_of (map vy inliers)) in *. set (sz := std_of (map vz inliers)) in *.
  split; [pose proof (sqrt_pos (sy * sy + sz * sz)); lra|].
  replace (2 * sqrt (sy * sy + sz * sz) / 2 * (2 * sqrt (sy * sy + sz * sz) / 2)) with (sqrt (sy * sy + sz * sz) * sqrt (sy * sy + sz * sz)) by field. rewrite sqrt_sqrt by nra. rewrite Rmult_plus_distr_r, VY, VZ. clear.
  induction inliers as [|p ps IH]; [cbn; ring|]. cbn [map fold_right]. lra.
Qed.
Print Assumptions C265_spread.
(** The fit raises exactly without inliers, or with less than three if planes are still wanted. *)
Theorem C265_raises : forall s threshold num before samples cloud, fit_and_save s threshold num before samples cloud = Raised <->
  let n := length (snd (fit s cloud threshold)) in n = 0%nat \/ ((length before < num)%nat /\ (n < 3)%nat).
Proof.
  intros s threshold num before samples cloud. unfold fit_and_save. destruct (fit s cloud threshold) as [plane inliers]. cbn [snd]. cbv zeta. destruct inliers as [|i is]; [split; [now left|reflexivity]|].
  destruct (Nat.ltb_spec (length before) num) as [L|L], (Nat.ltb_spec (length (i :: is)) 3) as [M|M]; cbn [andb]; [split; [intros _; now right|reflexivity]|..];
    (destruct (gather _ _ _ _); (split; [discriminate|intros [X|[X Y]]; [discriminate|exfalso; lia]])).
Qed.
Print Assumptions C265_raises.
(** The detections of the two images of a pair stay together: those of the upper laser of every pair with both, in order, and likewise of the lower. *)
Definition both {A} (x y : option A) : list (A * A) := match x, y with Some a, Some b => [(a, b)] | _, _ => [] end.
Theorem C265_detections : forall A two (result : list (@entry A)),
  top_pairs (gather_peaks two result) = flat_map (fun '(p1, p2, _, _) => both p1 p2) result /\
  bottom_pairs (gather_peaks two result) = if two then flat_map (fun '(_, _, b1, b2) => both b1 b2) result else [].
Proof.
  intros A two result. unfold gather_peaks.
  assert (forall s, length (top1 s) = length (top2 s) -> length (bottom1 s) = length (bottom2 s) ->
    top_pairs (fold_left (add_pair two) result s) = (top_pairs s ++ flat_map (fun '(p1, p2, _, _) => both p1 p2) result)%list /\
    bottom_pairs (fold_left (add_pair two) result s) = (bottom_pairs s ++ (if two then flat_map (fun '(_, _, b1, b2) => both b1 b2) result else []))%list) as G.
  { induction result as [|[[[p1 p2] b1] b2] result IH]; intros s T B; [cbn [fold_left flat_map]; destruct two; now rewrite !app_nil_r|].
    assert (forall (x y u v : list A), length x = length y -> combine (x ++ u) (y ++ v) = (combine x y ++ combine u v)%list) as C.
    { clear. induction x as [|a x IH]; intros [|b y] u v E; try discriminate; [reflexivity|]. cbn. now rewrite IH by (now injection E). }
    cbn [fold_left flat_map].
    assert (length (top1 (add_pair two s (p1, p2, b1, b2))) = length (top2 (add_pair two s (p1, p2, b1, b2))) /\ length (bottom1 (add_pair two s (p1, p2, b1, b2))) = length (bottom2 (add_pair two s (p1, p2, b1, b2))) /\
      top_pairs (add_pair two s (p1, p2, b1, b2)) = (top_pairs s ++ both p1 p2)%list /\ bottom_pairs (add_pair two s (p1, p2, b1, b2)) = (bottom_pairs s ++ (if two then both b1 b2 else []))%list) as (T' & B' & ET & EB).
    { unfold add_pair, top_pairs, bottom_pairs. destruct p1, p2, two, b1, b2; cbn [top1 top2 bottom1 bottom2 both]; rewrite ?app_length, ?C, ?app_nil_r by assumption; cbn [length combine]; repeat split; lia || reflexivity. }
    destruct (IH _ T' B') as [-> ->]. rewrite ET, EB, <- !app_assoc. destruct two; split; reflexivity. }
  destruct (G (mkpeaks [] [] [] []) eq_refl eq_refl) as [-> ->]. split; reflexivity.
Qed.
Print Assumptions C265_detections.
(** The length is one only for a normal along an axis. *)
Theorem C265_axis : forall a b c d cloud p, best (a, b, c, d) cloud -> In p cloud -> ~ on_plane (fst (fit (a, b, c, d) cloud 1)) p ->
  sqrt (a * a + b * b + c * c) = 1 -> (b = 0 /\ c = 0) \/ (a = 0 /\ c = 0) \/ (a = 0 /\ b = 0).
Proof.
  intros a b c d cloud p B I O E. destruct (C265_length a b c d cloud p B I O) as (M & _). assert (a * a + b * b + c * c = 1) as S. { rewrite <- (sqrt_sqrt (a * a + b * b + c * c)) by nra. rewrite E. ring. }
  assert (forall x, Rabs x = 1 -> x * x = 1) as SQ. { intros x X. rewrite <- (Rabs_pos_eq (x * x)) by nra. rewrite Rabs_mult, X. ring. }
  assert (forall x y, x * x + y * y = 0 -> x = 0 /\ y = 0) as Z by (intros x y X; split; nra).
  destruct M as [M|[M|M]]; apply SQ in M; [left|right; left|right; right]; apply Z; lra.
Qed.
Print Assumptions C265_axis.

(** Six points at distance one on the axes: the best plane has the normal (1, 1, 1), of the length of the root of three, and none of them is on it. *)
Definition star : list vec := [(1, 0, 0); (-1, 0, 0); (0, 1, 0); (0, -1, 0); (0, 0, 1); (0, 0, -1)].
Lemma tangent : forall r, 0 <= r -> 1 + r / 3 <= sqrt (1 + r * r) * sqrt (10 / 9).
Proof.
  intros r P. assert (0 <= r * r) as RR by now apply Rmult_le_pos. rewrite <- sqrt_mult by lra. pose proof (sqrt_square (1 + r / 3) ltac:(lra)) as E. rewrite <- E. apply sqrt_le_1; [apply Rmult_le_pos; lra|apply Rmult_le_pos; lra|].
  pose proof (Rle_0_sqr (1 / 3 - r)) as Q. unfold Rsqr in Q. replace ((1 + r * r) * (10 / 9)) with ((1 + r / 3) * (1 + r / 3) + (1 / 3 - r) * (1 / 3 - r)) by field. lra.
Qed.
Lemma star_cost : forall a b c d, some_normal (a, b, c, d) -> within (a, b, c, d) -> cost (1, 1, 1, 0) star <= cost (a, b, c, d) star.
Proof.
  intros a b c d H (A & B & C). destruct (length_pos a b c d H) as [N NN].
  assert (some_normal (1, 1, 1, 0)) as H1 by (left; lra). destruct (length_pos 1 1 1 0 H1) as [N1 NN1].
  unfold cost, residuals, star. rewrite !map_map. cbn [map fold_right]. rewrite !stored_distance by assumption. unfold vx, vy, vz. cbn [fst snd]. cbv zeta. set (m := length3 (1, 1, 1, 0)) in *. set (n := length3 (a, b, c, d)) in *.
  set (K := sqrt (10 / 9)). assert (K * K = 10 / 9) as KK by (apply sqrt_sqrt; lra). assert (0 < K) as KP by (apply sqrt_lt_R0; lra).
  set (r1 := Rabs (a * 1 + b * 0 + c * 0 + n * d) / (n * n)). set (r2 := Rabs (a * -1 + b * 0 + c * 0 + n * d) / (n * n)). set (r3 := Rabs (a * 0 + b * 1 + c * 0 + n * d) / (n * n)).
  set (r4 := Rabs (a * 0 + b * -1 + c * 0 + n * d) / (n * n)). set (r5 := Rabs (a * 0 + b * 0 + c * 1 + n * d) / (n * n)). set (r6 := Rabs (a * 0 + b * 0 + c * -1 + n * d) / (n * n)).
  assert (0 < / (n * n)) as IN by (apply Rinv_0_lt_compat; nra).
  assert (forall x, 0 <= Rabs x / (n * n)) as RP by (intros x; apply Rmult_le_pos; [apply Rabs_pos|lra]).
  assert (forall x y u v, x = u + v -> y = - u + v -> 2 * (u * u) <= Rabs x + Rabs y \/ 1 < Rabs u) as PR.
  { intros x y u v -> ->. destruct (Rle_lt_dec (Rabs u) 1) as [L|L]; [left|now right]. pose proof (Rabs_triang (u + v) (- (- u + v))) as T. rewrite Rabs_Ropp in T. replace (u + v + - (- u + v)) with (2 * u) in T by ring. rewrite Rabs_mult, (Rabs_pos_eq 2) in T by lra.
    assert (u * u = Rabs u * Rabs u) as -> by (rewrite <- Rabs_mult; symmetry; apply Rabs_pos_eq; nra). pose proof (Rabs_pos u). nra. }
  assert (Rabs a <= 1 /\ Rabs b <= 1 /\ Rabs c <= 1) as (RA & RB & RC) by (repeat split; apply Rabs_le; lra).
  assert (2 <= r1 + r2 + r3 + r4 + r5 + r6) as SUM.
  { destruct (PR (a * 1 + b * 0 + c * 0 + n * d) (a * -1 + b * 0 + c * 0 + n * d) a (n * d) ltac:(ring) ltac:(ring)) as [P1|P1]; [|lra].
    destruct (PR (a * 0 + b * 1 + c * 0 + n * d) (a * 0 + b * -1 + c * 0 + n * d) b (n * d) ltac:(ring) ltac:(ring)) as [P2|P2]; [|lra].
    destruct (PR (a * 0 + b * 0 + c * 1 + n * d) (a * 0 + b * 0 + c * -1 + n * d) c (n * d) ltac:(ring) ltac:(ring)) as [P3|P3]; [|lra].
    set (x1 := Rabs (a * 1 + b * 0 + c * 0 + n * d)) in *. set (x2 := Rabs (a * -1 + b * 0 + c * 0 + n * d)) in *. set (x3 := Rabs (a * 0 + b * 1 + c * 0 + n * d)) in *.
    set (x4 := Rabs (a * 0 + b * -1 + c * 0 + n * d)) in *. set (x5 := Rabs (a * 0 + b * 0 + c * 1 + n * d)) in *. set (x6 := Rabs (a * 0 + b * 0 + c * -1 + n * d)) in *.
    replace (r1 + r2 + r3 + r4 + r5 + r6) with ((x1 + x2 + x3 + x4 + x5 + x6) * / (n * n)) by (unfold r1, r2, r3, r4, r5, r6, Rdiv; ring).
    replace 2 with (2 * (n * n) * / (n * n)) by (field; lra). apply Rmult_le_compat_r; lra. }
  assert (forall x, Rabs x = 1 -> soft_l1 (Rabs x / (m * m) * (Rabs x / (m * m))) = 2 * (K - 1)) as S1.
  { intros x X. rewrite X, NN1. unfold soft_l1, K. f_equal. f_equal. f_equal. field. }
  rewrite !S1 by (match goal with |- Rabs ?x = 1 => first [replace x with 1 by ring; apply Rabs_R1|replace x with (-1) by ring; rewrite Rabs_left; lra] end).
  assert (forall r, 0 <= r -> 1 + r / 3 <= (soft_l1 (r * r) / 2 + 1) * K) as T. { intros r P. unfold soft_l1. replace (2 * (sqrt (1 + r * r) - 1) / 2 + 1) with (sqrt (1 + r * r)) by field. now apply tangent. }
  pose proof (T r1 (RP _)) as T1. pose proof (T r2 (RP _)) as T2. pose proof (T r3 (RP _)) as T3. pose proof (T r4 (RP _)) as T4. pose proof (T r5 (RP _)) as T5. pose proof (T r6 (RP _)) as T6.
  set (g1 := soft_l1 (r1 * r1)) in *. set (g2 := soft_l1 (r2 * r2)) in *. set (g3 := soft_l1 (r3 * r3)) in *. set (g4 := soft_l1 (r4 * r4)) in *. set (g5 := soft_l1 (r5 * r5)) in *. set (g6 := soft_l1 (r6 * r6)) in *.
  assert (6 * K * K <= ((g1 + g2 + g3 + g4 + g5 + g6) / 2 + 6) * K) as F. { replace (6 * K * K) with (6 * (10 / 9)) by (rewrite <- KK; ring). lra. }
  apply Rmult_le_reg_r in F; [|exact KP]. lra.
Qed.
Lemma star_best : best (1, 1, 1, 0) star.
Proof. split; [cbn; lra|]. split; [left; lra|]. intros [[[a b] c] d] W H. now apply star_cost. Qed.
Lemma star_distance : forall p, In p star -> distance (from_coeffs (1, 1, 1, 0)) p = 1 / 3 /\ length3 (1, 1, 1, 0) = sqrt 3.
Proof.
  intros p I. assert (some_normal (1, 1, 1, 0)) as H1 by (left; lra). destruct (length_pos 1 1 1 0 H1) as [N1 NN1]. split; [|unfold length3; f_equal; ring].
  rewrite stored_distance by exact H1. cbv zeta. rewrite NN1. assert (Rabs (1 * vx p + 1 * vy p + 1 * vz p + length3 (1, 1, 1, 0) * 0) = 1) as ->; [|field].
  unfold star in I. cbn [In] in I. repeat (destruct I as [<-|I]; [unfold vx, vy, vz; cbn [fst snd]; match goal with |- Rabs ?x = 1 => first [replace x with 1 by ring; apply Rabs_R1|replace x with (-1) by ring; rewrite Rabs_left; lra] end|]). destruct I.
Qed.
(** ** C266: what one would expect, and is not so *)
(** "Inliers are nearer than the threshold to the plane": with a threshold of 0.4 all six are inliers, although 0.577 away. *)
Theorem C266_threshold_refuted : exists s cloud threshold p r, best s cloud /\ In p (snd (fit s cloud threshold)) /\ distance_to (fst (fit s cloud threshold)) p r /\ threshold < r.
Proof.
  exists (1, 1, 1, 0), star, (4 / 10), (1, 0, 0), (sqrt 3 * (1 / 3)). split; [exact star_best|]. assert (In (1, 0, 0) star) as I by now left. destruct (star_distance _ I) as (D & L). split; [|split].
  - unfold fit. cbn [snd]. apply filter_In. split; [exact I|]. rewrite D. destruct (Rlt_dec (1 / 3) (4 / 10)) as [_|X]; [reflexivity|lra].
  - unfold fit. cbn [fst]. rewrite <- D, <- L. apply (returned_distance 1 1 1 0 (1, 0, 0)). left. lra.
  - assert (1.7 < sqrt 3) as S. { rewrite <- (sqrt_square 1.7) by lra. apply sqrt_lt_1; lra. } lra.
Qed.
Print Assumptions C266_threshold_refuted.
(** "The mean point written is on the plane written": only near it. *)
Lemma axis_distance : forall p, distance (from_coeffs (1, 0, 0, 0)) p = Rabs (vx p).
Proof.
  intros p. assert (some_normal (1, 0, 0, 0)) as H by (left; lra). rewrite stored_distance by exact H. destruct (length_pos 1 0 0 0 H) as [N NN]. cbv zeta. rewrite NN. replace (1 * vx p + 0 * vy p + 0 * vz p + length3 (1, 0, 0, 0) * 0) with (vx p) by ring. field.
Qed.
Theorem C266_mean_refuted : exists s threshold cloud l, fit_and_save s threshold 0 [] [] cloud = Done l /\ ~ on_plane (mean_plane l) (mean_xyz l).
Proof.
  assert (norm (1, 0, 0) = 1) as N. { unfold norm, dot, vx, vy, vz. cbn [fst snd]. transitivity (sqrt 1); [f_equal; ring|exact sqrt_1]. }
  assert (fit (1, 0, 0, 0) [(1 / 2, 0, 0)] 1 = ((1, 0, 0, 0), [(1 / 2, 0, 0)])) as E.
  { unfold fit. f_equal.
    - unfold from_coeffs. cbn [coeffs div_all div_view3 view3 fst]. rewrite N. repeat f_equal; field.
    - cbn [filter]. rewrite axis_distance. unfold vx. cbn [fst]. destruct (Rlt_dec (Rabs (1 / 2)) 1) as [L|L]; [reflexivity|rewrite Rabs_pos_eq in L by lra; lra]. }
  exists (1, 0, 0, 0), 1, [(1 / 2, 0, 0)]. unfold fit_and_save. rewrite E. cbn [length Nat.ltb Nat.leb andb gather]. eexists. split; [reflexivity|].
  cbn [mean_plane mean_xyz]. unfold on_plane, TriModel.scaled, centre, mean_of, vx, vy, vz. cbn [map fold_right length fst snd]. change (INR 1) with 1. lra.
Qed.
Print Assumptions C266_mean_refuted.
(** "Every cloud gets a plane": not without inliers, and not with one or two (of which uncertainty planes cannot be made). *)
Theorem C266_inliers_refuted : exists s threshold cloud, cloud <> [] /\ 0 < threshold /\ forall num before samples, fit_and_save s threshold num before samples cloud = Raised.
Proof.
  exists (1, 0, 0, 0), 1, [(5, 0, 0)]. split; [discriminate|]. split; [lra|]. intros. apply C265_raises. left. unfold fit. cbn [filter snd]. rewrite axis_distance. unfold vx. cbn [fst]. destruct (Rlt_dec (Rabs 5) 1) as [L|L]; [rewrite Rabs_pos_eq in L by lra; lra|reflexivity].
Qed.
Print Assumptions C266_inliers_refuted.
Theorem C266_three_refuted : exists s threshold cloud, length (snd (fit s cloud threshold)) = 2%nat /\ forall samples, fit_and_save s threshold 300 [] samples cloud = Raised.
Proof.
  assert (length (snd (fit (1, 0, 0, 0) [(0, 0, 1); (0, 1, 2)] 1)) = 2%nat) as E.
  { unfold fit. cbn [filter snd]. rewrite !axis_distance. unfold vx. cbn [fst]. destruct (Rlt_dec (Rabs 0) 1) as [L|L]; [reflexivity|rewrite Rabs_R0 in L; lra]. }
  exists (1, 0, 0, 0), 1, [(0, 0, 1); (0, 1, 2)]. split; [exact E|]. intros samples. apply C265_raises. cbv zeta. rewrite E. right. cbn [length]. lia.
Qed.
Print Assumptions C266_three_refuted.
(** "At most max_cloud_size points are fitted": that many are saved, all are fitted. *)
Theorem C266_size_refuted : exists (cloud : list nat) size, forall draw, (size < length (snd (saved_and_fitted draw size cloud)))%nat.
Proof. exists [1; 2; 3]%nat, 2%nat. intros draw. cbn. lia. Qed.
Print Assumptions C266_size_refuted.

Example C265_example_best : best (1, 1, 1, 0) star /\ (forall p, In p star -> distance (from_coeffs (1, 1, 1, 0)) p = 1 / 3).
Proof. split; [exact star_best|]. intros p I. now apply star_distance. Qed.
Example C265_example_inliers : snd (fit (1, 0, 0, 0) [(0, 3, 1); (5, 0, 0); (1 / 2, 1, 1)] 1) = [(0, 3, 1); (1 / 2, 1, 1)].
Proof.
  unfold fit. cbn [filter snd]. rewrite !axis_distance. unfold vx. cbn [fst]. destruct (Rlt_dec (Rabs 0) 1) as [_|L]; [|rewrite Rabs_R0 in L; lra].
  destruct (Rlt_dec (Rabs 5) 1) as [L|_]; [rewrite Rabs_pos_eq in L by lra; lra|]. destruct (Rlt_dec (Rabs (1 / 2)) 1) as [_|L]; [reflexivity|rewrite Rabs_pos_eq in L by lra; lra].
Qed.
Example C265_example_detections : let r := [(Some 1, Some 2, Some 3, None); (None, Some 5, Some 6, Some 7)]%nat in
  top_pairs (gather_peaks true r) = [(1, 2)]%nat /\ bottom_pairs (gather_peaks true r) = [(6, 7)]%nat.
Proof. split; reflexivity. Qed.
