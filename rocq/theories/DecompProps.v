(** C287, C288: decomposing and composing transformation matrices, and shears. *)
From Coq Require Import Ascii String Reals Lra Psatz List Bool Arith.
From Verif Require Import FramesModel FramesProps EulerModel EulerProps QuatModel QuatProps TransfModel TransfProps TransfQuatProps TransfAffProps DecompModel.
Import ListNotations.
Open Scope R_scope.

(** * Specification *)
(** the turns about the static x, y and z axes *)
Definition turned_by (a : vec) (v : vec) : vec := turn AZ (vz a) (turn AY (vy a) (turn AX (vx a) v)).
Definition sheared (z : vec) (v : vec) : vec := let '(zxy, zxz, zyz) := z in let '(x, y, w) := v in (x + zxy * y + zxz * w, y + zyz * w, w).
Definition scaled (s : vec) (v : vec) : vec := let '(a, b, c) := s in let '(x, y, z) := v in (a * x, b * y, c * z).
Definition volume (m : mat) : R := dot (apply m (1, 0, 0)) (cross (apply m (0, 1, 0)) (apply m (0, 0, 1))).
Definition positive (s : vec) : Prop := 0 < vx s /\ 0 < vy s /\ 0 < vz s.
Definition negative (s : vec) : Prop := vx s < 0 /\ vy s < 0 /\ vz s < 0.

(** * Lemmas *)
Ltac flat := cbv [vsub vscale vdot vdiv vcross vadd column get vx vy vz fst snd r00 r01 r02 r10 r11 r12 r20 r21 r22].
Ltac flat_in H := cbv [vsub vscale vdot vdiv vcross vadd column get vx vy vz fst snd r00 r01 r02 r10 r11 r12 r20 r21 r22] in H.
Lemma vdot_sub : forall a b c, vdot a (vsub b c) = vdot a b - vdot a c. Proof. intros [[? ?] ?] [[? ?] ?] [[? ?] ?]. flat. ring. Qed.
Lemma vdot_scale : forall a k b, vdot a (vscale k b) = k * vdot a b. Proof. intros [[? ?] ?] k [[? ?] ?]. flat. ring. Qed.
Lemma vdot_sym : forall a b, vdot a b = vdot b a. Proof. intros [[? ?] ?] [[? ?] ?]. flat. ring. Qed.
Lemma vdot_div : forall a b k, vdot a (vdiv b k) = vdot a b / k. Proof. intros [[? ?] ?] [[? ?] ?] k. flat. unfold Rdiv. ring. Qed.
Lemma norm_step : forall v, v <> (0, 0, 0) -> 0 < vector_norm v /\ vdot (vdiv v (vector_norm v)) (vdiv v (vector_norm v)) = 1 /\ vscale (vector_norm v) (vdiv v (vector_norm v)) = v.
Proof.
  intros v N. assert (P : 0 < vdot v v).
  { destruct v as [[x y] z]. flat. destruct (Req_dec x 0) as [ -> |X]; [|nra]. destruct (Req_dec y 0) as [ -> |Y]; [|nra]. destruct (Req_dec z 0) as [ -> |Z]; [|nra]. now elim N. }
  assert (S : vector_norm v * vector_norm v = vdot v v) by (apply sqrt_sqrt; lra). assert (0 < vector_norm v) as Q by (apply sqrt_lt_R0; exact P).
  set (n := vector_norm v) in *. clearbody n. split; [exact Q|]. destruct v as [[x y] z]. split.
  - flat. flat_in S. transitivity ((x * x + y * y + z * z) / (n * n)); [field; lra|]. rewrite <- S. field. lra.
  - flat. apply vec_eq; field; lra.
Qed.
Definition triple (a b c : vec) : R := vdot a (vcross b c).
Definition orthonormal (a b c : vec) : Prop := vdot a a = 1 /\ vdot b b = 1 /\ vdot c c = 1 /\ vdot a b = 0 /\ vdot a c = 0 /\ vdot b c = 0.

Lemma orthogonalise_spec : forall c0 c1 c2, triple c0 c1 c2 <> 0 -> exists s0 s1 s2 z0 z1 z2 q0 q1 q2,
  orthogonalise c0 c1 c2 = ((s0, s1, s2), (z0, z1, z2), (q0, q1, q2)) /\ 0 < s0 /\ 0 < s1 /\ 0 < s2 /\ orthonormal q0 q1 q2 /\
  c0 = vscale s0 q0 /\ c1 = vscale s1 (vadd q1 (vscale z0 q0)) /\ c2 = vscale s2 (vadd q2 (vadd (vscale z2 q1) (vscale z1 q0))) /\
  triple c0 c1 c2 = s0 * s1 * s2 * triple q0 q1 q2.
Proof.
  intros c0 c1 c2 D.
  assert (N0 : c0 <> (0, 0, 0)) by (intros ->; apply D; destruct c1 as [[? ?] ?], c2 as [[? ?] ?]; unfold triple; flat; ring).
  destruct (norm_step c0 N0) as (S0 & U0 & E0). set (s0 := vector_norm c0) in *. set (q0 := vdiv c0 s0) in *.
  set (k := vdot q0 c1). set (w := vsub c1 (vscale k q0)).
  assert (T1 : triple c0 c1 c2 = s0 * triple q0 w c2).
  { rewrite <- E0. unfold w, triple. clear. clearbody s0 q0 k. destruct q0 as [[? ?] ?], c1 as [[? ?] ?], c2 as [[? ?] ?]. flat. ring. }
  assert (N1 : w <> (0, 0, 0)).
  { intros X. apply D. rewrite T1, X. clear. clearbody s0 q0. destruct q0 as [[? ?] ?], c2 as [[? ?] ?]. unfold triple. flat. ring. }
  destruct (norm_step w N1) as (S1 & U1 & E1). set (s1 := vector_norm w) in *. set (q1 := vdiv w s1) in *.
  set (k1 := vdot q0 c2). set (u := vsub c2 (vscale k1 q0)). set (k2 := vdot q1 u). set (t := vsub u (vscale k2 q1)).
  assert (T2 : triple c0 c1 c2 = s0 * s1 * triple q0 q1 t).
  { rewrite T1, <- E1. unfold t, u, triple. clear. clearbody s0 s1 q0 q1 k1 k2. destruct q0 as [[? ?] ?], q1 as [[? ?] ?], c2 as [[? ?] ?]. flat. ring. }
  assert (N2 : t <> (0, 0, 0)).
  { intros X. apply D. rewrite T2, X. clear. clearbody s0 s1 q0 q1. destruct q0 as [[? ?] ?], q1 as [[? ?] ?]. unfold triple. flat. ring. }
  destruct (norm_step t N2) as (S2 & U2 & E2). set (s2 := vector_norm t) in *. set (q2 := vdiv t s2) in *.
  assert (O01 : vdot q0 q1 = 0).
  { unfold q1, w. rewrite vdot_div, vdot_sub, vdot_scale, U0. fold k. unfold Rdiv. ring. }
  assert (O0t : vdot q0 t = 0).
  { unfold t, u. rewrite !vdot_sub, !vdot_scale, U0, O01. fold k1. ring. }
  assert (O1t : vdot q1 t = 0).
  { unfold t. rewrite vdot_sub, vdot_scale, U1. fold k2. ring. }
  exists s0, s1, s2, (k / s1), (k1 / s2), (k2 / s2), q0, q1, q2. split; [reflexivity|]. split; [exact S0|]. split; [exact S1|]. split; [exact S2|].
  split; [|split; [|split; [|split]]].
  - assert (vdot q0 q2 = 0) by (unfold q2; rewrite vdot_div, O0t; unfold Rdiv; ring).
    assert (vdot q1 q2 = 0) by (unfold q2; rewrite vdot_div, O1t; unfold Rdiv; ring). unfold orthonormal. auto 7.
  - symmetry. exact E0.
  - assert (X : c1 = vadd w (vscale k q0)) by (unfold w; clear; clearbody q0 k; destruct c1 as [[? ?] ?], q0 as [[? ?] ?]; flat; apply vec_eq; ring).
    rewrite X at 1. rewrite <- E1 at 1. clear - S1. clearbody q0 k q1 s1. destruct q0 as [[? ?] ?], q1 as [[? ?] ?]. flat. apply vec_eq; field; lra.
  - assert (X : c2 = vadd t (vadd (vscale k2 q1) (vscale k1 q0))) by (unfold t, u; clear; clearbody q0 q1 k1 k2; destruct c2 as [[? ?] ?], q0 as [[? ?] ?], q1 as [[? ?] ?]; flat; apply vec_eq; ring).
    rewrite X at 1. rewrite <- E2 at 1. clear - S2. clearbody q0 q1 k1 k2 q2 s2. destruct q0 as [[? ?] ?], q1 as [[? ?] ?], q2 as [[? ?] ?]. flat. apply vec_eq; field; lra.
  - rewrite T2, <- E2. unfold triple. clear. clearbody q0 q1 q2 s0 s1 s2. destruct q0 as [[? ?] ?], q1 as [[? ?] ?], q2 as [[? ?] ?]. flat. ring.
Qed.
Lemma triple_square : forall a b c, orthonormal a b c -> triple a b c * triple a b c = 1.
Proof.
  intros a b c (A & B & C & AB & AC & BC).
  transitivity (vdot a a * (vdot b b * vdot c c - vdot b c * vdot b c) - vdot a b * (vdot a b * vdot c c - vdot b c * vdot a c) + vdot a c * (vdot a b * vdot b c - vdot b b * vdot a c)).
  - destruct a as [[? ?] ?], b as [[? ?] ?], c as [[? ?] ?]. unfold triple. flat. ring.
  - rewrite A, B, C, AB, AC, BC. ring.
Qed.
Lemma right_handed : forall a b c, orthonormal a b c -> triple a b c = 1 -> vcross b c = a.
Proof.
  intros a b c (A & B & C & AB & AC & BC) T.
  assert (N : vdot (vsub (vcross b c) a) (vsub (vcross b c) a) = 0).
  { transitivity ((vdot b b * vdot c c - vdot b c * vdot b c) - 2 * triple a b c + vdot a a).
    - destruct a as [[? ?] ?], b as [[? ?] ?], c as [[? ?] ?]. unfold triple. flat. ring.
    - rewrite A, B, C, BC, T. ring. }
  destruct a as [[a1 a2] a3]. set (v := vcross b c) in *. clearbody v. destruct v as [[v1 v2] v3]. flat_in N.
  assert (K : forall x y z, x * x + y * y + z * z = 0 -> x = 0 /\ y = 0 /\ z = 0) by (intros; repeat split; nra).
  destruct (K _ _ _ N) as (K1 & K2 & K3). apply vec_eq; lra.
Qed.
Definition of_columns (a b c : vec) : mat := mkmat (vx a) (vx b) (vx c) (vy a) (vy b) (vy c) (vz a) (vz b) (vz c).
Lemma columns_special : forall a b c, orthonormal a b c -> triple a b c = 1 -> special (of_columns a b c).
Proof.
  intros a b c O T.
  assert (X : vcross b c = a) by now apply right_handed.
  assert (Y : vcross c a = b).
  { apply right_handed; [unfold orthonormal in *; rewrite (vdot_sym b a), (vdot_sym c a) ; intuition; rewrite vdot_sym; assumption|].
    rewrite <- T. unfold triple. clear. destruct a as [[? ?] ?], b as [[? ?] ?], c as [[? ?] ?]. flat. ring. }
  assert (Z : vcross a b = c).
  { apply right_handed; [unfold orthonormal in *; intuition; rewrite vdot_sym; assumption|].
    rewrite <- T. unfold triple. clear. destruct a as [[? ?] ?], b as [[? ?] ?], c as [[? ?] ?]. flat. ring. }
  apply full_special, rotation_full. destruct O as (A & B & C & AB & AC & BC). split.
  - intros [[x y] z] [[u v] w].
    transitivity (vdot a a * (x * u) + vdot b b * (y * v) + vdot c c * (z * w) + vdot a b * (x * v + y * u) + vdot a c * (x * w + z * u) + vdot b c * (y * w + z * v)).
    + destruct a as [[? ?] ?], b as [[? ?] ?], c as [[? ?] ?]. unfold of_columns, apply, dot. flat. ring.
    + rewrite A, B, C, AB, AC, BC. unfold dot. ring.
  - intros [[x y] z] [[u v] w].
    assert (M : forall p q r, apply (of_columns a b c) (p, q, r) = vadd (vscale p a) (vadd (vscale q b) (vscale r c))).
    { intros p q r. destruct a as [[? ?] ?], b as [[? ?] ?], c as [[? ?] ?]. unfold of_columns, apply. flat. apply vec_eq; ring. }
    cbn [cross]. rewrite !M.
    transitivity (vadd (vscale (y * w - z * v) (vcross b c)) (vadd (vscale (z * u - x * w) (vcross c a)) (vscale (x * v - y * u) (vcross a b)))).
    + rewrite X, Y, Z. reflexivity.
    + clear. destruct a as [[? ?] ?], b as [[? ?] ?], c as [[? ?] ?]. unfold cross. flat. apply vec_eq; ring.
Qed.
Lemma sxyz_rotation : forall x y z, sxyz (x, y, z) = rotation x y z.
Proof.
  intros x y z. unfold sxyz. cbn [vx vy vz fst snd]. unfold euler_matrix. cbn [decode find_axes axes2tuple String.eqb Ascii.eqb Bool.eqb]. rewrite rotation_entries. flats. f_equal; ring.
Qed.
Lemma angles_exact : forall a b c, orthonormal a b c -> triple a b c = 1 -> sxyz (angles_of a b c) = of_columns a b c.
Proof.
  intros a b c O T. pose proof (columns_special a b c O T) as P. set (m := of_columns a b c) in *.
  destruct (pitch_exact m P) as (C0 & CC & CP & SP). set (cy := sqrt _) in *.
  assert (R : -1 <= - r20 m <= 1). { destruct P as (_ & _ & _ & _ & A & _). split; nra. }
  assert (SA : sin (asin (- r20 m)) = - r20 m) by (apply sin_asin; exact R).
  assert (CA : cos (asin (- r20 m)) = cy).
  { rewrite cos_asin by exact R. unfold cy. f_equal. destruct P as (_ & _ & _ & _ & A & _). unfold Rsqr. lra. }
  unfold angles_of. change (- vz a) with (- r20 m). rewrite CA.
  destruct (Req_EM_T cy 0) as [Z|Z]; rewrite sxyz_rotation.
  - change (- vy c) with (- r12 m). change (vy b) with (r11 m). pose proof (special_gimbal m P Z) as G. fold cy in G. rewrite G at 4. rewrite !rotation_entries, SA, CA, CP, SP. reflexivity.
  - change (vz b) with (r21 m). change (vz c) with (r22 m). change (vy a) with (r10 m). change (vx a) with (r00 m).
    pose proof (special_rotation m P) as G. cbv zeta in G. fold cy in G. specialize (G ltac:(lra)). rewrite G at 6. rewrite !rotation_entries, SA, CA, CP, SP. reflexivity.
Qed.

Lemma vol_det : forall m, volume m = det m.
Proof. intros [a b c d e f g h i]. unfold volume, det, apply, dot, cross. flat. ring. Qed.
Lemma matrix_columns : forall m, m = of_columns (column m 0) (column m 1) (column m 2).
Proof. intros [a b c d e f g h i]. reflexivity. Qed.

(** what composing gives *)
Definition made (s z a : vec) : mat := mmul (mmul (sxyz a) (mkmat 1 (vx z) (vy z) 0 1 (vz z) 0 0 1)) (mkmat (vx s) 0 0 0 (vy s) 0 0 0 (vz s)).
Definition row_times (v : vec) (m : mat) : vec := (vdot v (column m 0), vdot v (column m 1), vdot v (column m 2)).
Lemma compose_all : forall s z a t p w, vdot p t + w <> 0 ->
  compose_matrix (Some s) (Some z) (Some a) (Some t) (Some (p, w)) =
  Some (hdiv (mkhomog (made s z a) t (row_times p (made s z a)) (vdot p t + w)) (vdot p t + w)).
Proof.
  intros s z a t p w N. unfold compose_matrix, given. unfold made. set (q := sxyz a). clearbody q.
  match goal with |- (if Req_EM_T (h_last ?m) 0 then _ else _) = _ => assert (E : m = mkhomog (mmul (mmul q (mkmat 1 (vx z) (vy z) 0 1 (vz z) 0 0 1)) (mkmat (vx s) 0 0 0 (vy s) 0 0 0 (vz s))) t
    (row_times p (mmul (mmul q (mkmat 1 (vx z) (vy z) 0 1 (vz z) 0 0 1)) (mkmat (vx s) 0 0 0 (vy s) 0 0 0 (vz s)))) (vdot p t + w)) end.
  { destruct q as [q1 q2 q3 q4 q5 q6 q7 q8 q9], s as [[sa sb] sc], z as [[za zb] zc], t as [[ta tb] tc], p as [[pa pb] pc].
    cbv [hmul hid hlin h_lin h_col h_row h_last madd lift2 mmul outer mdot vadd vscale vdot vx vy vz fst snd get r00 r01 r02 r10 r11 r12 r20 r21 r22 identity row_times column].
    f_equal; try ring; first [f_equal; ring | apply vec_eq; ring]. }
  rewrite E. cbn [h_last]. destruct (Req_EM_T _ 0) as [X|_]; [contradiction|reflexivity].
Qed.
Lemma made_columns : forall s0 s1 s2 z0 z1 z2 a q0 q1 q2, sxyz a = of_columns q0 q1 q2 ->
  made (s0, s1, s2) (z0, z1, z2) a = of_columns (vscale s0 q0) (vscale s1 (vadd q1 (vscale z0 q0))) (vscale s2 (vadd q2 (vadd (vscale z2 q1) (vscale z1 q0)))).
Proof.
  intros s0 s1 s2 z0 z1 z2 a q0 q1 q2 E. unfold made. rewrite E. clear E. destruct q0 as [[? ?] ?], q1 as [[? ?] ?], q2 as [[? ?] ?].
  unfold of_columns, mmul. flat. f_equal; ring.
Qed.
Lemma inverse_row : forall r m, det m <> 0 -> row_times (times_inverse r m) m = r.
Proof.
  intros [[a b] c] m D. unfold times_inverse. set (d := det m) in *. assert (E : d = det m) by reflexivity. clearbody d. destruct m as [m1 m2 m3 m4 m5 m6 m7 m8 m9].
  unfold det in E. unfold row_times. flat. flat_in E. apply vec_eq.
  - apply (Rmult_eq_reg_r d); [|exact D]. match type of E with _ = ?e => transitivity (a * e) end; [field; exact D|rewrite <- E; reflexivity].
  - apply (Rmult_eq_reg_r d); [|exact D]. match type of E with _ = ?e => transitivity (b * e) end; [field; exact D|rewrite <- E; reflexivity].
  - apply (Rmult_eq_reg_r d); [|exact D]. match type of E with _ = ?e => transitivity (c * e) end; [field; exact D|rewrite <- E; reflexivity].
Qed.

Lemma hdiv_last : forall h, h_last h <> 0 -> h_last (hdiv h (h_last h)) = 1.
Proof. intros h N. unfold hdiv. cbn [h_last]. field. exact N. Qed.
Lemma hdiv_1 : forall h, h_last h = 1 -> hdiv h 1 = h.
Proof.
  intros [[m1 m2 m3 m4 m5 m6 m7 m8 m9] [[c1 c2] c3] [[w1 w2] w3] l] E. cbn in E. subst l. unfold hdiv, lift2. cbn [h_lin h_col h_row h_last vx vy vz fst snd r00 r01 r02 r10 r11 r12 r20 r21 r22].
  f_equal; [f_equal|apply vec_eq|apply vec_eq|]; field.
Qed.
Lemma any_above_false : forall r, any_above r = false -> Rabs (vx r) <= eps /\ Rabs (vy r) <= eps /\ Rabs (vz r) <= eps.
Proof. intros r. unfold any_above. destruct (Rlt_dec _ (Rabs (vx r))), (Rlt_dec _ (Rabs (vy r))), (Rlt_dec _ (Rabs (vz r))); cbn; try discriminate. intros _. repeat split; lra. Qed.
Lemma numbers_hdiv : forall h, numbers (hdiv h (h_last h)) = map (fun x => x / h_last h) (numbers h).
Proof. intros [[m1 m2 m3 m4 m5 m6 m7 m8 m9] [[c1 c2] c3] [[w1 w2] w3] l]. reflexivity. Qed.
Lemma det_hdiv : forall h d, d <> 0 -> det (h_lin (hdiv h d)) = det (h_lin h) / (d * d * d).
Proof. intros [[m1 m2 m3 m4 m5 m6 m7 m8 m9] c w l] d N. unfold hdiv, det, lift2. cbn [h_lin]. flat. field. exact N. Qed.

(** the parts and what they make up *)
Lemma decompose_core : forall h, ~ Rabs (h_last h) < eps -> det (h_lin h) <> 0 -> exists s z a p,
  decompose_matrix h = Some (mkparts s z a (h_col (hdiv h (h_last h))) p) /\
  made s z a = h_lin (hdiv h (h_last h)) /\ (positive s /\ 0 < det (h_lin (hdiv h (h_last h))) \/ negative s /\ det (h_lin (hdiv h (h_last h))) < 0) /\
  (exists q0 q1 q2, orthonormal q0 q1 q2 /\ triple q0 q1 q2 = 1 /\ a = angles_of q0 q1 q2) /\
  p = if any_above (h_row (hdiv h (h_last h)))
      then (times_inverse (h_row (hdiv h (h_last h))) (h_lin (hdiv h (h_last h))),
            1 - vdot (times_inverse (h_row (hdiv h (h_last h))) (h_lin (hdiv h (h_last h)))) (h_col (hdiv h (h_last h))))
      else ((0, 0, 0), 1).
Proof.
  intros h L D. assert (N : h_last h <> 0) by (intros X; apply L; rewrite X, Rabs_R0; apply eps_pos).
  unfold decompose_matrix. destruct (Rlt_dec (Rabs (h_last h)) eps) as [X|_]; [contradiction|].
  assert (D' : det (h_lin (hdiv h (h_last h))) <> 0).
  { rewrite det_hdiv by exact N. unfold Rdiv. apply Rmult_integral_contrapositive. split; [exact D|]. apply Rinv_neq_0_compat.
    repeat (apply Rmult_integral_contrapositive; split); exact N. }
  rewrite hdiv_last by exact N. set (m := hdiv h (h_last h)) in *. clearbody m. clear D L.
  destruct (Req_EM_T (det (h_lin m)) 0) as [X|_]; [contradiction|].
  unfold det in D'. fold (triple (column (h_lin m) 0) (column (h_lin m) 1) (column (h_lin m) 2)) in D'.
  destruct (orthogonalise_spec _ _ _ D') as (s0 & s1 & s2 & z0 & z1 & z2 & q0 & q1 & q2 & E & S0 & S1 & S2 & O & C0 & C1 & C2 & T). rewrite E.
  assert (SP : 0 < s0 * s1 * s2) by (apply Rmult_lt_0_compat; [apply Rmult_lt_0_compat|]; assumption).
  pose proof (triple_square _ _ _ O) as SQ. fold (triple q0 q1 q2). destruct (Rlt_dec (triple q0 q1 q2) 0) as [B|B].
  - assert (T1 : triple q0 q1 q2 = -1) by nra.
    assert (O' : orthonormal (vscale (- 1) q0) (vscale (- 1) q1) (vscale (- 1) q2)).
    { destruct O as (A & B0 & C & AB & AC & BC). unfold orthonormal. rewrite !vdot_scale, !(vdot_sym (vscale _ _)), !vdot_scale.
      rewrite A, B0, C, (vdot_sym q1 q0), (vdot_sym q2 q0), (vdot_sym q2 q1), AB, AC, BC. repeat split; ring. }
    assert (T' : triple (vscale (- 1) q0) (vscale (- 1) q1) (vscale (- 1) q2) = 1).
    { transitivity (- triple q0 q1 q2); [|lra]. unfold triple. clear. destruct q0 as [[? ?] ?], q1 as [[? ?] ?], q2 as [[? ?] ?]. flat. ring. }
    do 4 eexists. split; [reflexivity|]. split; [|split; [|split; [|reflexivity]]].
    + unfold vscale at 1. cbn [vx vy vz fst snd]. rewrite (made_columns _ _ _ _ _ _ _ _ _ _ (angles_exact _ _ _ O' T')).
      rewrite (matrix_columns (h_lin m)), C0, C1, C2. clear. f_equal; destruct q0 as [[? ?] ?], q1 as [[? ?] ?], q2 as [[? ?] ?]; flat; apply vec_eq; ring.
    + right. split; [unfold negative; cbn; lra|]. unfold det. fold (triple (column (h_lin m) 0) (column (h_lin m) 1) (column (h_lin m) 2)). rewrite T, T1. lra.
    + do 3 eexists. split; [exact O'|]. split; [exact T'|reflexivity].
  - assert (T1 : triple q0 q1 q2 = 1) by nra.
    do 4 eexists. split; [reflexivity|]. split; [|split; [|split; [|reflexivity]]].
    + rewrite (made_columns _ _ _ _ _ _ _ _ _ _ (angles_exact _ _ _ O T1)). etransitivity; [|symmetry; apply matrix_columns]. rewrite <- C0, <- C1, <- C2. reflexivity.
    + left. split; [unfold positive; cbn; auto|]. unfold det. fold (triple (column (h_lin m) 0) (column (h_lin m) 1) (column (h_lin m) 2)). rewrite T, T1. lra.
    + do 3 eexists. split; [exact O|]. split; [exact T1|reflexivity].
Qed.

(** * C287 *)
Definition tiny (h : homog) : Prop := Rabs (vx (h_row h) / h_last h) <= 1 / 1125899906842624 /\ Rabs (vy (h_row h) / h_last h) <= 1 / 1125899906842624 /\
  Rabs (vz (h_row h) / h_last h) <= 1 / 1125899906842624.

(** Composing the parts of a matrix gives the matrix, divided by its last corner; a last row that is tiny becomes zero. *)
Theorem C287_recomposed : forall h, 1 / 1125899906842624 <= Rabs (h_last h) -> volume (h_lin h) <> 0 -> exists p r,
  decompose_matrix h = Some p /\ compose_matrix (Some (p_scale p)) (Some (p_shear p)) (Some (p_angles p)) (Some (p_translate p)) (Some (p_perspective p)) = Some r /\
  (numbers r = map (fun x => x / h_last h) (numbers h) \/
   tiny h /\ p_perspective p = ((0, 0, 0), 1) /\ numbers r = map (fun x => x / h_last h) (firstn 12 (numbers h)) ++ [0; 0; 0; 1]).
Proof.
  intros h L D. rewrite vol_det in D. assert (EP : eps = 1 / 1125899906842624) by (unfold eps; lra). rewrite <- EP in L. assert (L' : ~ Rabs (h_last h) < eps) by lra.
  assert (N : h_last h <> 0) by (intros X; apply L'; rewrite X, Rabs_R0; apply eps_pos).
  destruct (decompose_core h L' D) as (s & z & a & p & E & M & _ & _ & P). destruct p as [p w].
  assert (HL : h_last (hdiv h (h_last h)) = 1) by (apply hdiv_last; exact N).
  assert (D' : det (h_lin (hdiv h (h_last h))) <> 0).
  { rewrite det_hdiv by exact N. unfold Rdiv. apply Rmult_integral_contrapositive. split; [exact D|]. apply Rinv_neq_0_compat.
    repeat (apply Rmult_integral_contrapositive; split); exact N. }
  rewrite <- numbers_hdiv. unfold tiny. rewrite <- EP. set (m := hdiv h (h_last h)) in *.
  destruct (any_above (h_row m)) eqn:B.
  - apply pair_equal_spec in P. destruct P as [ -> -> ]. set (q := times_inverse (h_row m) (h_lin m)) in *.
    assert (W : vdot q (h_col m) + (1 - vdot q (h_col m)) = 1) by ring.
    eexists _, _. split; [exact E|]. cbn [p_scale p_shear p_angles p_translate p_perspective]. split; [apply compose_all; rewrite W; lra|]. left.
    rewrite W, hdiv_1 by reflexivity. rewrite M. unfold q. rewrite inverse_row by exact D'. rewrite <- HL at 1. destruct m; reflexivity.
  - apply pair_equal_spec in P. destruct P as [ -> -> ].
    assert (W : vdot (0, 0, 0) (h_col m) + 1 = 1) by (destruct (h_col m) as [[? ?] ?]; flat; ring).
    eexists _, _. split; [exact E|]. cbn [p_scale p_shear p_angles p_translate p_perspective]. split; [apply compose_all; rewrite W; lra|]. right.
    split; [exact (any_above_false _ B)|]. split; [reflexivity|].
    rewrite W, hdiv_1 by reflexivity. rewrite M.
    assert (Z : row_times (0, 0, 0) (h_lin m) = (0, 0, 0)) by (unfold row_times; destruct (h_lin m); flat; apply vec_eq; ring). rewrite Z.
    assert (F : map (fun x => x / h_last h) (firstn 12 (numbers h)) = firstn 12 (numbers m)) by (unfold m; rewrite numbers_hdiv; symmetry; apply firstn_map).
    rewrite F. destruct m as [lm cm rm hm]. reflexivity.
Qed.
Print Assumptions C287_recomposed.

(** It is refused just when the last corner is tiny or the matrix flattens space. *)
Theorem C287_refused : forall h, decompose_matrix h = None <-> Rabs (h_last h) < 1 / 1125899906842624 \/ volume (h_lin h) = 0.
Proof.
  intros h. assert (EP : eps = 1 / 1125899906842624) by (unfold eps; lra). rewrite <- EP, vol_det. split.
  - intros H. destruct (Rlt_dec (Rabs (h_last h)) eps) as [L|L]; [now left|]. right. destruct (Req_dec (det (h_lin h)) 0) as [Z|Z]; [exact Z|].
    destruct (decompose_core h L Z) as (s & z & a & p & E & _). congruence.
  - intros H. unfold decompose_matrix. destruct (Rlt_dec (Rabs (h_last h)) eps) as [L|L]; [reflexivity|].
    assert (N : h_last h <> 0) by (intros X; apply L; rewrite X, Rabs_R0; apply eps_pos).
    destruct H as [H|H]; [contradiction|]. destruct (Req_EM_T _ 0) as [_|X]; [reflexivity|]. elim X. rewrite det_hdiv by exact N. rewrite H. unfold Rdiv. ring.
Qed.
Print Assumptions C287_refused.

(** The scales are all positive, or all negative of a matrix that mirrors; the angles are within their ranges. *)
Lemma angles_range : forall a b c, - PI <= vx (angles_of a b c) <= PI /\ - (PI / 2) <= vy (angles_of a b c) <= PI / 2 /\ - PI <= vz (angles_of a b c) <= PI.
Proof.
  intros a b c. pose proof PI_RGT_0 as P. pose proof (asin_bound (- vz a)) as A. unfold angles_of. destruct (Req_EM_T _ 0); cbn [vx vy vz fst snd]; repeat split; try apply atan2_range; try lra.
Qed.
Theorem C287_ranges : forall h p, decompose_matrix h = Some p ->
  (positive (p_scale p) /\ 0 < volume (h_lin h) * h_last h \/ negative (p_scale p) /\ volume (h_lin h) * h_last h < 0) /\
  - PI <= vx (p_angles p) <= PI /\ - (PI / 2) <= vy (p_angles p) <= PI / 2 /\ - PI <= vz (p_angles p) <= PI.
Proof.
  intros h p H. assert (R : ~ Rabs (h_last h) < eps /\ det (h_lin h) <> 0).
  { assert (EP : eps = 1 / 1125899906842624) by (unfold eps; lra). rewrite EP, <- vol_det. split; intros X; assert (Y : decompose_matrix h = None) by (apply C287_refused; tauto); congruence. }
  destruct R as [L D]. assert (N : h_last h <> 0) by (intros X; apply L; rewrite X, Rabs_R0; apply eps_pos).
  destruct (decompose_core h L D) as (s & z & a & q & E & _ & S & (q0 & q1 & q2 & _ & _ & A) & _). rewrite E in H. injection H as <-. cbn [p_scale p_angles].
  split; [|rewrite A; apply angles_range]. rewrite vol_det. rewrite det_hdiv in S by exact N.
  assert (K : det (h_lin h) * h_last h = det (h_lin h) / (h_last h * h_last h * h_last h) * (h_last h * h_last h * (h_last h * h_last h))) by (field; exact N).
  assert (0 < h_last h * h_last h * (h_last h * h_last h)) by nra. rewrite K.
  destruct S as [[S1 S2]|[S1 S2]]; [left|right]; (split; [exact S1|]).
  - now apply Rmult_lt_0_compat.
  - nra.
Qed.
Print Assumptions C287_ranges.

(** What composing does to a point: scale, shear, turn, move. *)
Theorem C287_composed : forall s z a t x, exists r, compose_matrix (Some s) (Some z) (Some a) (Some t) None = Some r /\ h_row r = (0, 0, 0) /\ h_last r = 1 /\
  plus (apply (h_lin r) x) (h_col r) = plus (turned_by a (sheared z (scaled s x))) t.
Proof.
  intros s z a t x. destruct a as [[a0 a1] a2]. unfold compose_matrix, given. rewrite sxyz_rotation, rotation_entries.
  match goal with |- exists r, (if Req_EM_T (h_last ?m) 0 then _ else _) = _ /\ _ => assert (E : h_last m = 1); [|set (h := m) in *] end.
  { destruct t as [[? ?] ?]. cbv [hmul hid hlin h_lin h_col h_row h_last vdot vadd vscale vx vy vz fst snd]. ring. }
  destruct (Req_EM_T (h_last h) 0) as [X|_]; [lra|]. eexists. split; [reflexivity|]. rewrite E, hdiv_1 by exact E. unfold h. clear h E.
  destruct s as [[sa sb] sc], z as [[za zb] zc], t as [[ta tb] tc], x as [[xa xb] xc].
  cbv [hmul hid hlin h_lin h_col h_row h_last madd lift2 mmul outer mdot vadd vscale vdot vx vy vz fst snd get r00 r01 r02 r10 r11 r12 r20 r21 r22 identity apply plus turned_by turn sheared scaled].
  repeat split; try (apply vec_eq; ring); ring.
Qed.
Print Assumptions C287_composed.
