(** C287, C288 (continued): the parts put in come out again; shears; what is not recovered. *)
From Coq Require Import Ascii String Reals Lra Psatz List Bool Arith.
From Verif Require Import FramesModel FramesProps EulerModel EulerProps QuatModel QuatProps TransfModel TransfProps TransfQuatProps TransfAffProps DecompModel DecompProps.
Import ListNotations.
Open Scope R_scope.

(** * Lemmas *)
Lemma norm_scaled : forall s q, 0 < s -> vdot q q = 1 -> vector_norm (vscale s q) = s /\ vdiv (vscale s q) s = q.
Proof.
  intros s q S Q. split.
  - unfold vector_norm. rewrite vdot_scale, (vdot_sym (vscale s q)), vdot_scale, Q. replace (s * (s * 1)) with (s * s) by ring. apply sqrt_square. lra.
  - destruct q as [[? ?] ?]. flat. apply vec_eq; field; lra.
Qed.
Lemma vdot_add : forall a b c, vdot a (vadd b c) = vdot a b + vdot a c. Proof. intros [[? ?] ?] [[? ?] ?] [[? ?] ?]. flat. ring. Qed.
Lemma orthogonalise_back : forall s0 s1 s2 z0 z1 z2 q0 q1 q2, 0 < s0 -> 0 < s1 -> 0 < s2 -> orthonormal q0 q1 q2 ->
  orthogonalise (vscale s0 q0) (vscale s1 (vadd q1 (vscale z0 q0))) (vscale s2 (vadd q2 (vadd (vscale z2 q1) (vscale z1 q0)))) = ((s0, s1, s2), (z0, z1, z2), (q0, q1, q2)).
Proof.
  intros s0 s1 s2 z0 z1 z2 q0 q1 q2 S0 S1 S2 (A & B & C & AB & AC & BC). unfold orthogonalise.
  destruct (norm_scaled s0 q0 S0 A) as [-> ->].
  assert (H0 : vdot q0 (vscale s1 (vadd q1 (vscale z0 q0))) = s1 * z0) by (rewrite vdot_scale, vdot_add, vdot_scale, A, AB; ring).
  rewrite H0.
  assert (R1 : vsub (vscale s1 (vadd q1 (vscale z0 q0))) (vscale (s1 * z0) q0) = vscale s1 q1).
  { clear. destruct q0 as [[? ?] ?], q1 as [[? ?] ?]. flat. apply vec_eq; ring. }
  rewrite R1. destruct (norm_scaled s1 q1 S1 B) as [-> ->].
  assert (H1 : vdot q0 (vscale s2 (vadd q2 (vadd (vscale z2 q1) (vscale z1 q0)))) = s2 * z1) by (rewrite vdot_scale, !vdot_add, !vdot_scale, A, AB, AC; ring).
  rewrite H1.
  assert (R2 : vsub (vscale s2 (vadd q2 (vadd (vscale z2 q1) (vscale z1 q0)))) (vscale (s2 * z1) q0) = vscale s2 (vadd q2 (vscale z2 q1))).
  { clear. destruct q0 as [[? ?] ?], q1 as [[? ?] ?], q2 as [[? ?] ?]. flat. apply vec_eq; ring. }
  rewrite R2. assert (H2 : vdot q1 (vscale s2 (vadd q2 (vscale z2 q1))) = s2 * z2) by (rewrite vdot_scale, !vdot_add, !vdot_scale, B, BC; ring).
  rewrite H2.
  assert (R3 : vsub (vscale s2 (vadd q2 (vscale z2 q1))) (vscale (s2 * z2) q1) = vscale s2 q2).
  { clear. destruct q1 as [[? ?] ?], q2 as [[? ?] ?]. flat. apply vec_eq; ring. }
  rewrite R3. destruct (norm_scaled s2 q2 S2 C) as [-> ->].
  assert (Z0 : s1 * z0 / s1 = z0) by (field; lra). assert (Z1 : s2 * z1 / s2 = z1) by (field; lra). assert (Z2 : s2 * z2 / s2 = z2) by (field; lra).
  rewrite Z0, Z1, Z2. reflexivity.
Qed.
Lemma rotation_columns : forall x y z, exists q0 q1 q2, sxyz (x, y, z) = of_columns q0 q1 q2 /\ orthonormal q0 q1 q2 /\ triple q0 q1 q2 = 1 /\
  (- (PI / 2) < y < PI / 2 -> - PI < x < PI -> - PI < z < PI -> angles_of q0 q1 q2 = (x, y, z)).
Proof.
  intros x y z. set (m := sxyz (x, y, z)). exists (column m 0), (column m 1), (column m 2). split; [apply matrix_columns|].
  unfold m. rewrite sxyz_rotation, rotation_entries. clear m.
  pose proof (sin2_cos2 x) as X. pose proof (sin2_cos2 y) as Y. pose proof (sin2_cos2 z) as Z. unfold Rsqr in X, Y, Z.
  assert (X' : cos x * cos x = 1 - sin x * sin x) by lra. assert (Y' : cos y * cos y = 1 - sin y * sin y) by lra. assert (Z' : cos z * cos z = 1 - sin z * sin z) by lra.
  split; [|split].
  - unfold orthonormal. flat. set (a := cos x) in *. set (b := cos y) in *. set (c := cos z) in *. set (p := sin x) in *. set (q := sin y) in *. set (r := sin z) in *. clearbody a b c p q r.
    repeat split; ring [X' Y' Z'].
  - unfold triple. flat. set (a := cos x) in *. set (b := cos y) in *. set (c := cos z) in *. set (p := sin x) in *. set (q := sin y) in *. set (r := sin z) in *. clearbody a b c p q r.
    ring [X' Y' Z'].
  - intros RY RX RZ. unfold angles_of. flat. replace (- - sin y) with (sin y) by ring. rewrite asin_sin by lra.
    assert (0 < cos y) by (apply cos_gt_0; lra). destruct (Req_EM_T _ 0) as [E|_]; [lra|]. rewrite !atan2_back by (assumption || lra). reflexivity.
Qed.
Lemma compose_made : forall s z a t, compose_matrix (Some s) (Some z) (Some a) (Some t) None = Some (mkhomog (made s z a) t (0, 0, 0) 1).
Proof.
  intros s z a t. unfold compose_matrix, given. unfold made. set (q := sxyz a). clearbody q.
  match goal with |- (if Req_EM_T (h_last ?m) 0 then _ else _) = _ => assert (E : m = mkhomog (mmul (mmul q (mkmat 1 (vx z) (vy z) 0 1 (vz z) 0 0 1)) (mkmat (vx s) 0 0 0 (vy s) 0 0 0 (vz s))) t (0, 0, 0) 1) end.
  { destruct q as [q1 q2 q3 q4 q5 q6 q7 q8 q9], s as [[sa sb] sc], z as [[za zb] zc], t as [[ta tb] tc].
    cbv [hmul hid hlin h_lin h_col h_row h_last madd lift2 mmul outer mdot vadd vscale vdot vx vy vz fst snd get r00 r01 r02 r10 r11 r12 r20 r21 r22 identity].
    f_equal; try ring; first [f_equal; ring | apply vec_eq; ring]. }
  rewrite E. cbn [h_last]. destruct (Req_EM_T 1 0) as [X|_]; [lra|]. f_equal. apply hdiv_1. reflexivity.
Qed.
Lemma det_columns : forall a b c, det (of_columns a b c) = triple a b c. Proof. reflexivity. Qed.
Lemma any_above_zero : any_above (0, 0, 0) = false.
Proof. unfold any_above. cbn [vx vy vz fst snd]. rewrite Rabs_R0. pose proof eps_pos. destruct (Rlt_dec eps 0); [lra|reflexivity]. Qed.

(** * C287: the parts come back *)
Theorem C287_parts : forall s z a t, positive s \/ negative s -> - (PI / 2) < vy a < PI / 2 -> - PI < vx a < PI -> - PI < vz a < PI -> exists h,
  compose_matrix (Some s) (Some z) (Some a) (Some t) None = Some h /\
  decompose_matrix h = Some (mkparts s z a t ((0, 0, 0), 1)).
Proof.
  intros s z a t S AY AX AZ. rewrite compose_made. eexists. split; [reflexivity|].
  destruct s as [[s0 s1] s2], z as [[z0 z1] z2], a as [[x y] w]. unfold positive, negative in S. cbn [vx vy vz fst snd] in *.
  destruct (rotation_columns x y w) as (q0 & q1 & q2 & E & O & T & B). specialize (B AY AX AZ).
  rewrite (made_columns _ _ _ _ _ _ _ _ _ _ E). set (c0 := vscale s0 q0). set (c1 := vscale s1 _). set (c2 := vscale s2 _).
  unfold decompose_matrix. cbn [h_last]. destruct (Rlt_dec (Rabs 1) eps) as [X|_]; [rewrite Rabs_R1 in X; unfold eps in X; lra|].
  rewrite hdiv_1 by reflexivity. cbn [h_lin h_row h_col]. rewrite any_above_zero, det_columns.
  assert (D : triple c0 c1 c2 = s0 * s1 * s2).
  { transitivity (s0 * s1 * s2 * triple q0 q1 q2); [|rewrite T; ring]. unfold triple, c0, c1, c2. clear. destruct q0 as [[? ?] ?], q1 as [[? ?] ?], q2 as [[? ?] ?]. flat. ring. }
  assert (N : s0 * s1 * s2 <> 0) by (apply Rmult_integral_contrapositive; split; [apply Rmult_integral_contrapositive; split|]; lra).
  destruct (Req_EM_T (triple c0 c1 c2) 0) as [X|_]; [lra|].
  change (column (of_columns c0 c1 c2) 0) with ((vx c0, vy c0, vz c0)). change (column (of_columns c0 c1 c2) 1) with ((vx c1, vy c1, vz c1)). change (column (of_columns c0 c1 c2) 2) with ((vx c2, vy c2, vz c2)).
  assert (eta : forall v : vec, (vx v, vy v, vz v) = v) by (intros [[? ?] ?]; reflexivity). rewrite !eta.
  destruct S as [(S0 & S1 & S2)|(S0 & S1 & S2)].
  - unfold c0, c1, c2. rewrite orthogonalise_back by assumption. fold (triple q0 q1 q2). destruct (Rlt_dec (triple q0 q1 q2) 0) as [X|_]; [lra|]. rewrite B. reflexivity.
  - set (p0 := vscale (- 1) q0). set (p1 := vscale (- 1) q1). set (p2 := vscale (- 1) q2).
    assert (O' : orthonormal p0 p1 p2).
    { destruct O as (A & B0 & C & AB & AC & BC). unfold orthonormal, p0, p1, p2. rewrite !vdot_scale, !(vdot_sym (vscale _ _)), !vdot_scale.
      rewrite A, B0, C, (vdot_sym q1 q0), (vdot_sym q2 q0), (vdot_sym q2 q1), AB, AC, BC. repeat split; ring. }
    assert (T' : triple p0 p1 p2 = -1).
    { transitivity (- triple q0 q1 q2); [|rewrite T; lra]. unfold triple, p0, p1, p2. clear. destruct q0 as [[? ?] ?], q1 as [[? ?] ?], q2 as [[? ?] ?]. flat. ring. }
    assert (E0 : c0 = vscale (- s0) p0) by (unfold c0, p0; clear; destruct q0 as [[? ?] ?]; flat; apply vec_eq; ring).
    assert (E1 : c1 = vscale (- s1) (vadd p1 (vscale z0 p0))) by (unfold c1, p1, p0; clear; destruct q0 as [[? ?] ?], q1 as [[? ?] ?]; flat; apply vec_eq; ring).
    assert (E2 : c2 = vscale (- s2) (vadd p2 (vadd (vscale z2 p1) (vscale z1 p0)))) by (unfold c2, p2, p1, p0; clear; destruct q0 as [[? ?] ?], q1 as [[? ?] ?], q2 as [[? ?] ?]; flat; apply vec_eq; ring).
    rewrite E0, E1, E2. rewrite orthogonalise_back by (assumption || lra). fold (triple p0 p1 p2). destruct (Rlt_dec (triple p0 p1 p2) 0) as [_|X]; [|lra].
    assert (F : forall q, vscale (- 1) (vscale (- 1) q) = q) by (intros [[? ?] ?]; flat; apply vec_eq; ring). unfold p0, p1, p2. rewrite !F, B.
    assert (G : vscale (- 1) (- s0, - s1, - s2) = (s0, s1, s2)) by (flat; apply vec_eq; ring). rewrite G. reflexivity.
Qed.
Print Assumptions C287_parts.

(** A shear slides each point along the direction by the tangent of the angle times its height over the plane; the plane stays. *)
Theorem C287_shear : forall angle d p n, 
  (shear_matrix angle d p n = None <-> 1 / 1000000 < Rabs (dot (along n) (along d))) /\
  forall m, shear_matrix angle d p n = Some m -> forall x, act m x = plus x (times (tan angle * dot (along n) (minus x p)) (along d)).
Proof.
  intros angle d p n. unfold shear_matrix. rewrite !unit_along. destruct (along d) as [[d1 d2] d3], (along n) as [[n1 n2] n3]. split.
  - destruct (Rlt_dec _ _) as [X|X]; unfold vdot, dot in *; cbn [vx vy vz fst snd] in X; split; intros H; try discriminate; try tauto; auto.
  - intros m. destruct (Rlt_dec _ _) as [X|X]; [discriminate|]. intros H [[x y] z]. apply (f_equal (fun o => match o with Some a => a | None => m end)) in H. cbn beta iota in H. subst m.
    destruct p as [[p1 p2] p3]. unfold act, plus, times, minus, apply, dot. cbn [lin col]. unfold madd, mscale, outer, lift2, identity. flat. apply vec_eq; ring.
Qed.
Print Assumptions C287_shear.
Theorem C287_shear_volume : forall angle d p n m, dot (along n) (along d) = 0 -> shear_matrix angle d p n = Some m -> volume (lin m) = 1.
Proof.
  intros angle d p n m O. unfold shear_matrix. rewrite !unit_along. destruct (Rlt_dec _ _) as [X|X]; [discriminate|]. intros H.
  apply (f_equal (fun o => match o with Some a => a | None => m end)) in H. cbn beta iota in H. subst m. cbn [lin].
  destruct (along d) as [[d1 d2] d3], (along n) as [[n1 n2] n3]. unfold dot in O.
  transitivity (1 + tan angle * (n1 * d1 + n2 * d2 + n3 * d3)); [|rewrite O; ring].
  unfold volume, madd, mscale, outer, lift2, identity, apply, cross, dot. flat. ring.
Qed.
Print Assumptions C287_shear_volume.

(** Not vacuous: half a turn less a bit about x, mirrored scales; a shear along x over the plane z = 1. *)
Example C287_parts_example : exists h, compose_matrix (Some (-2, -3, -4)) (Some (1 / 2, -1, 7)) (Some (3, -1, -3)) (Some (5, 6, 7)) None = Some h /\
  decompose_matrix h = Some (mkparts (-2, -3, -4) (1 / 2, -1, 7) (3, -1, -3) (5, 6, 7) ((0, 0, 0), 1)) /\ volume (h_lin h) = -24.
Proof.
  pose proof PI2_3_2.
  destruct (C287_parts (-2, -3, -4) (1 / 2, -1, 7) (3, -1, -3) (5, 6, 7)) as (h & E & D); [right; unfold negative; cbn [vx vy vz fst snd]; lra|cbn [vx vy vz fst snd]; lra..|].
  exists h. split; [exact E|]. split; [exact D|]. rewrite compose_made in E. injection E as <-. cbn [h_lin]. rewrite vol_det.
  destruct (rotation_columns 3 (-1) (-3)) as (q0 & q1 & q2 & Q & O & T & _). rewrite (made_columns _ _ _ _ _ _ _ _ _ _ Q), det_columns.
  transitivity (-24 * triple q0 q1 q2); [|rewrite T; lra]. unfold triple. destruct q0 as [[? ?] ?], q1 as [[? ?] ?], q2 as [[? ?] ?]. flat. lra.
Qed.
Lemma along_axis : along (2, 0, 0) = (1, 0, 0) /\ along (0, 0, 3) = (0, 0, 1).
Proof.
  unfold along, len, dot. replace (2 * 2 + 0 * 0 + 0 * 0) with (2 * 2) by ring. replace (0 * 0 + 0 * 0 + 3 * 3) with (3 * 3) by ring.
  rewrite !sqrt_square by lra. split; apply vec_eq; field.
Qed.
Example C287_shear_example : exists m, shear_matrix (PI / 4) (2, 0, 0) (9, 9, 1) (0, 0, 3) = Some m /\ act m (1, 2, 5) = (5, 2, 5) /\ act m (1, 2, 1) = (1, 2, 1).
Proof.
  destruct along_axis as [A1 A2]. destruct (C287_shear (PI / 4) (2, 0, 0) (9, 9, 1) (0, 0, 3)) as [N S]. rewrite A1, A2 in *.
  destruct (shear_matrix _ _ _ _) as [m|] eqn:E.
  - exists m. split; [reflexivity|]. rewrite !(S m eq_refl), tan_PI4. unfold plus, times, minus, dot. split; apply vec_eq; ring.
  - exfalso. destruct N as [N _]. specialize (N eq_refl). unfold dot in N. replace (0 * 1 + 0 * 0 + 1 * 0) with 0 in N by ring. rewrite Rabs_R0 in N. lra.
Qed.
(** a matrix with perspective whose parts are defined *)
Example C287_recomposed_example : exists p, decompose_matrix (mkhomog (mkmat 2 1 0 0 3 0 1 0 4) (1, 2, 3) (1, 0, 0) 2) = Some p.
Proof.
  destruct (C287_recomposed (mkhomog (mkmat 2 1 0 0 3 0 1 0 4) (1, 2, 3) (1, 0, 0) 2)) as (p & r & E & _).
  - cbn [h_last]. rewrite Rabs_pos_eq; lra.
  - unfold volume, apply, dot, cross. flat. cbn [h_lin]. flat. lra.
  - now exists p.
Qed.

(** * C288: what is not recovered *)
Lemma decomposed : forall s z a t, vx s * vy s * vz s <> 0 -> exists p, decompose_matrix (mkhomog (made s z a) t (0, 0, 0) 1) = Some p.
Proof.
  intros s z a t N. destruct (decompose_matrix _) as [p|] eqn:E; [now exists p|]. exfalso. apply C287_refused in E. cbn [h_last h_lin] in E. destruct E as [E|E]; [rewrite Rabs_R1 in E; lra|].
  apply N. rewrite vol_det in E. destruct s as [[s0 s1] s2], z as [[z0 z1] z2], a as [[x y] w]. destruct (rotation_columns x y w) as (q0 & q1 & q2 & Q & O & T & _).
  rewrite (made_columns _ _ _ _ _ _ _ _ _ _ Q), det_columns in E. rewrite <- E. cbn [vx vy vz fst snd]. transitivity (s0 * s1 * s2 * triple q0 q1 q2); [rewrite T; ring|].
  unfold triple. clear. destruct q0 as [[? ?] ?], q1 as [[? ?] ?], q2 as [[? ?] ?]. flat. ring.
Qed.
(** "decompose_matrix returns the scale, shear, angles and translation the matrix was composed of": not when one axis is mirrored, *)
Theorem C288_mirror_refuted : exists s h p, vx s = -1 /\ compose_matrix (Some s) (Some (0, 0, 0)) (Some (0, 0, 0)) (Some (0, 0, 0)) None = Some h /\
  decompose_matrix h = Some p /\ p_scale p <> s.
Proof.
  destruct (decomposed (-1, 1, 1) (0, 0, 0) (0, 0, 0) (0, 0, 0)) as [p D]; [cbn [vx vy vz fst snd]; lra|].
  exists (-1, 1, 1). eexists. exists p. split; [reflexivity|]. split; [apply compose_made|]. split; [exact D|]. intros E.
  destruct (C287_ranges _ _ D) as [[[(P & _) _]|[(_ & P & _) _]] _]; rewrite E in P; cbn [vx vy vz fst snd] in P; lra.
Qed.
Print Assumptions C288_mirror_refuted.
(** nor when the pitch is over a right angle, *)
Theorem C288_pitch_refuted : exists a h p, a = (0, PI, 0) /\ compose_matrix (Some (1, 1, 1)) (Some (0, 0, 0)) (Some a) (Some (0, 0, 0)) None = Some h /\
  decompose_matrix h = Some p /\ p_angles p <> a.
Proof.
  destruct (decomposed (1, 1, 1) (0, 0, 0) (0, PI, 0) (0, 0, 0)) as [p D]; [cbn [vx vy vz fst snd]; lra|].
  exists (0, PI, 0). eexists. exists p. split; [reflexivity|]. split; [apply compose_made|]. split; [exact D|]. intros E.
  destruct (C287_ranges _ _ D) as (_ & _ & P & _). rewrite E in P. cbn [vx vy vz fst snd] in P. pose proof PI_RGT_0. lra.
Qed.
Print Assumptions C288_pitch_refuted.
(** nor at all when a scale is zero. *)
Theorem C288_flat_refuted : exists h, compose_matrix (Some (1, 1, 0)) (Some (0, 0, 0)) (Some (0, 0, 0)) (Some (0, 0, 0)) None = Some h /\ decompose_matrix h = None.
Proof.
  eexists. split; [apply compose_made|]. apply C287_refused. right. cbn [h_lin]. rewrite vol_det.
  destruct (rotation_columns 0 0 0) as (q0 & q1 & q2 & Q & O & T & _). rewrite (made_columns _ _ _ _ _ _ _ _ _ _ Q), det_columns.
  unfold triple. clear. destruct q0 as [[? ?] ?], q1 as [[? ?] ?], q2 as [[? ?] ?]. flat. ring.
Qed.
Print Assumptions C288_flat_refuted.
(** "Composing the parts gives the matrix again": a small last row is lost. *)
Theorem C288_tiny_refuted : exists h p r, h_row h = (1 / 1125899906842624, 0, 0) /\ h_last h = 1 /\ decompose_matrix h = Some p /\
  compose_matrix (Some (p_scale p)) (Some (p_shear p)) (Some (p_angles p)) (Some (p_translate p)) (Some (p_perspective p)) = Some r /\ h_row r = (0, 0, 0).
Proof.
  set (h := mkhomog identity (0, 0, 0) (1 / 1125899906842624, 0, 0) 1).
  assert (L : ~ Rabs (h_last h) < eps) by (cbn [h h_last]; rewrite Rabs_R1; unfold eps; lra).
  assert (D : det (h_lin h) <> 0) by (unfold det, h; cbn [h_lin]; unfold identity; flat; lra).
  destruct (decompose_core h L D) as (s & z & a & p & E & M & _ & _ & P). change (h_last h) with 1 in *. rewrite hdiv_1 in * by reflexivity.
  assert (A : any_above (h_row h) = false).
  { unfold any_above, h. cbn [h_row vx vy vz fst snd]. rewrite Rabs_R0, Rabs_pos_eq by lra. pose proof eps_pos. destruct (Rlt_dec eps 0); [lra|]. destruct (Rlt_dec eps _) as [X|_]; [unfold eps in X; lra|reflexivity]. }
  rewrite A in P. subst p. exists h. eexists. eexists. split; [reflexivity|]. split; [reflexivity|]. split; [exact E|]. cbn [p_scale p_shear p_angles p_translate p_perspective].
  assert (W : vdot (0, 0, 0) (h_col h) + 1 = 1) by (destruct (h_col h) as [[? ?] ?]; flat; ring).
  split; [apply compose_all; rewrite W; lra|]. rewrite W, hdiv_1 by reflexivity. cbn [h_row]. rewrite M. unfold row_times. flat. apply vec_eq; ring.
Qed.
Print Assumptions C288_tiny_refuted.
(** "A shear keeps volumes": not when direction and normal are let through though not orthogonal. *)
Theorem C288_shear_refuted : exists angle d p n m, shear_matrix angle d p n = Some m /\ 1 < volume (lin m).
Proof.
  set (n := (8000000, 15999999999999, 0) : vec).
  assert (A : along n = (8000000 / 16000000000001, 15999999999999 / 16000000000001, 0)).
  { unfold along, len, dot, n. replace (8000000 * 8000000 + 15999999999999 * 15999999999999 + 0 * 0) with (16000000000001 * 16000000000001) by lra. rewrite sqrt_square by lra. apply vec_eq; lra. }
  assert (B : along (2, 0, 0) = (1, 0, 0)) by apply along_axis.
  exists (PI / 4), (2, 0, 0), (0, 0, 0), n. unfold shear_matrix. rewrite !unit_along, A, B. destruct (Rlt_dec _ _) as [X|X].
  - exfalso. unfold vdot in X. cbn [vx vy vz fst snd] in X. rewrite Rabs_pos_eq in X; lra.
  - eexists. split; [reflexivity|]. rewrite tan_PI4. unfold volume, madd, mscale, outer, lift2, identity, apply, cross, dot. cbn [lin]. flat. lra.
Qed.
Print Assumptions C288_shear_refuted.
