(** C315 and C316: the virtual trackball. *)
From Coq Require Import Reals Lra Psatz Nsatz List Bool.
From Verif Require Import FramesModel QuatModel QuatProps TransfModel TransfProps TransfQuatProps DecompModel BallModel.
Import ListNotations.
Open Scope R_scope.

(** ** What is meant *)

Definition on_sphere (v : vec) : Prop := vx v * vx v + vy v * vy v + vz v * vz v = 1.
Definition across (a v : vec) : Prop := vx a * vx v + vy a * vy v + vz a * vz v = 0.

Ltac vsimp := cbn [vx vy vz fst snd] in *.

(** ** The sphere *)

Theorem C315_sphere : forall p c r,
  (map_to_sphere p c r = None <-> r = 0) /\
  forall v, map_to_sphere p c r = Some v ->
  let x := (fst p - fst c) / r in let y := - (snd p - snd c) / r in
  on_sphere v /\ 0 <= vz v /\
  (x * x + y * y <= 1 -> vx v = x /\ vy v = y) /\
  (1 < x * x + y * y -> vz v = 0 /\ exists k, 0 < k /\ vx v = k * x /\ vy v = k * y).
Proof.
  intros p c r. unfold map_to_sphere. destruct (Req_EM_T r 0) as [E | E].
  { split; [tauto |]. intros v H. discriminate. }
  assert ((snd c - snd p) / r = - (snd p - snd c) / r) as Y by (field; exact E). rewrite Y. clear Y.
  split. { destruct (Rlt_dec _ _); split; intro H; try discriminate; contradiction. }
  intros v H. cbv zeta. set (x := (fst p - fst c) / r) in *. set (y := - (snd p - snd c) / r) in *. cbv zeta in H. destruct (Rlt_dec 1 (x * x + y * y)) as [L | L].
  - injection H as <-. unfold on_sphere. vsimp.
    assert (0 < sqrt (x * x + y * y)) as S by (apply sqrt_lt_R0; lra).
    assert (sqrt (x * x + y * y) * sqrt (x * x + y * y) = x * x + y * y) as Q by (apply sqrt_sqrt; lra).
    set (s := sqrt (x * x + y * y)) in *. clearbody s.
    split.
    { replace (x / s * (x / s) + y / s * (y / s) + 0 * 0) with ((x * x + y * y) / (s * s)) by (field; lra).
      rewrite Q. field. lra. }
    split; [lra |]. split; [lra |]. intros _. split; [reflexivity |].
    exists (/ s). split; [now apply Rinv_0_lt_compat |]. split; unfold Rdiv; ring.
  - injection H as <-. unfold on_sphere. vsimp.
    rewrite sqrt_sqrt by lra. split; [ring |]. split; [apply sqrt_pos |]. split; [tauto | lra].
Qed.

(** ** A point constrained to the plane across an axis *)

Lemma sq3 : forall a b c : R, 0 <= a * a + b * b + c * c.
Proof. intros a b c. pose proof (Rle_0_sqr a). pose proof (Rle_0_sqr b). pose proof (Rle_0_sqr c). unfold Rsqr in *. lra. Qed.

Lemma sq_sum_pos : forall v, 0 <= vdot v v.
Proof. intros [[a b] c]. apply sq3. Qed.

Lemma norm_sq : forall v, vector_norm v * vector_norm v = vdot v v.
Proof. intro v. unfold vector_norm. apply sqrt_sqrt, sq_sum_pos. Qed.

Lemma unit_of_some : forall v w, unit_of v = Some w ->
  on_sphere w /\ exists k, 0 < k /\ w = vscale k v.
Proof.
  intros v w H. unfold unit_of in H. destruct (Req_EM_T (vdot v v) 0) as [E | E]; [discriminate |].
  injection H as <-. unfold unit_vector. pose proof (sq_sum_pos v) as P.
  assert (0 < sqrt (vdot v v)) as S by (apply sqrt_lt_R0; lra).
  assert (sqrt (vdot v v) * sqrt (vdot v v) = vdot v v) as Q by (apply sqrt_sqrt; lra).
  set (s := sqrt (vdot v v)) in *. clearbody s. split.
  - unfold on_sphere. vsimp. unfold vdot in Q.
    transitivity ((vx v * vx v + vy v * vy v + vz v * vz v) / (s * s)); [field; lra |].
    rewrite <- Q. field. lra.
  - exists (/ s). split; [now apply Rinv_0_lt_compat |]. unfold vscale. f_equal; [f_equal |]; field; lra.
Qed.

Lemma plane_across : forall p a, on_sphere a -> across a (vsub p (vscale (vdot a p) a)).
Proof.
  intros [[p1 p2] p3] [[a1 a2] a3] H. unfold on_sphere, across, vsub, vscale, vdot in *. vsimp.
  transitivity ((a1 * p1 + a2 * p2 + a3 * p3) * (1 - (a1 * a1 + a2 * a2 + a3 * a3))); [ring |].
  rewrite H. ring.
Qed.

Lemma plane_dot : forall p a u, across a u -> vdot u (vsub p (vscale (vdot a p) a)) = vdot u p.
Proof.
  intros [[p1 p2] p3] [[a1 a2] a3] [[u1 u2] u3] H. unfold across, vsub, vscale, vdot in *. vsimp.
  transitivity (u1 * p1 + u2 * p2 + u3 * p3 - (a1 * p1 + a2 * p2 + a3 * p3) * (a1 * u1 + a2 * u2 + a3 * u3)); [ring |].
  rewrite H. ring.
Qed.

Lemma schwarz : forall u v, on_sphere u -> Rabs (vdot u v) <= vector_norm v.
Proof.
  intros u v H. assert (0 <= vector_norm v) as N by apply sqrt_pos.
  apply Rsqr_incr_0; [| apply Rabs_pos | exact N].
  rewrite <- Rsqr_abs. unfold Rsqr. rewrite norm_sq.
  destruct u as [[u1 u2] u3], v as [[v1 v2] v3]. unfold on_sphere, vdot in *. vsimp.
  assert (0 <= (u1 * v2 - u2 * v1) * (u1 * v2 - u2 * v1) + (u1 * v3 - u3 * v1) * (u1 * v3 - u3 * v1)
            + (u2 * v3 - u3 * v2) * (u2 * v3 - u3 * v2)) as K by apply sq3.
  replace (v1 * v1 + v2 * v2 + v3 * v3)
    with ((u1 * u1 + u2 * u2 + u3 * u3) * (v1 * v1 + v2 * v2 + v3 * v3)) by (rewrite H; ring).
  lra.
Qed.

(** It is on the sphere, on the near side, across the axis, and nearest to the point among those
    across the axis, but for the side and rounding. *)
Theorem C315_constrain : forall p a w, on_sphere a -> constrain_to_axis p a = Some w ->
  on_sphere w /\ across a w /\ 0 <= vz w /\
  forall u, on_sphere u -> across a u -> Rabs (vdot u p) <= Rabs (vdot w p) + 4 / 4503599627370496.
Proof.
  intros p a w A H. unfold constrain_to_axis in H.
  pose proof (plane_across p a A) as PA. pose proof (plane_dot p a) as PD. pose proof eps_pos as EP.
  change (4 / 4503599627370496) with eps.
  set (v := vsub p (vscale (vdot a p) a)) in *.
  pose proof (norm_sq v) as N. set (n := vector_norm v) in *.
  assert (forall u, on_sphere u -> across a u -> Rabs (vdot u p) <= n) as UB.
  { intros u U1 U2. rewrite <- (PD u U2). now apply schwarz. }
  destruct (Rlt_dec eps n) as [L | L].
  - assert (exists s, (s = 1 \/ s = -1) /\ 0 <= s * vz v /\ w = (s * vx v / n, s * vy v / n, s * vz v / n)) as (s & S1 & S2 & ->).
    { destruct (Rlt_dec (vz v) 0) as [K | K]; injection H as <-.
      - exists (-1). split; [tauto |]. split; [lra | reflexivity].
      - exists 1. split; [tauto |]. split; [lra |]. rewrite !Rmult_1_l. reflexivity. }
    clear H. assert (s * s = 1) as SS by (destruct S1 as [-> | ->]; ring).
    assert (on_sphere (s * vx v / n, s * vy v / n, s * vz v / n)) as O.
    { unfold on_sphere. vsimp. unfold vdot in N.
      transitivity (s * s * (vx v * vx v + vy v * vy v + vz v * vz v) / (n * n)); [field; lra |].
      rewrite SS, <- N. field. lra. }
    assert (across a (s * vx v / n, s * vy v / n, s * vz v / n)) as C.
    { unfold across in *. vsimp.
      transitivity (s / n * (vx a * vx v + vy a * vy v + vz a * vz v)); [field; lra |]. rewrite PA. ring. }
    split; [exact O |]. split; [exact C |]. split.
    { vsimp. apply Rmult_le_pos; [exact S2 | left; apply Rinv_0_lt_compat; lra]. }
    intros u U1 U2. specialize (UB u U1 U2). rewrite <- (PD _ C).
    assert (vdot (s * vx v / n, s * vy v / n, s * vz v / n) v = s * n) as ->.
    { unfold vdot in *. vsimp. transitivity (s * (vx v * vx v + vy v * vy v + vz v * vz v) / n); [field; lra |].
      rewrite <- N. field. lra. }
    rewrite Rabs_mult, (Rabs_pos_eq n) by lra.
    assert (Rabs s = 1) as -> by (destruct S1 as [-> | ->]; [rewrite Rabs_pos_eq; lra | rewrite Rabs_left; lra]).
    lra.
  - assert (forall u, on_sphere u -> across a u -> Rabs (vdot u p) <= Rabs (vdot w p) + eps) as G.
    { intros u U1 U2. specialize (UB u U1 U2). pose proof (Rabs_pos (vdot w p)). lra. }
    destruct (Req_EM_T (vz a) 1) as [E | E].
    + injection H as <-. unfold on_sphere, across in *. vsimp. rewrite E in A.
      assert (vx a = 0) by nra. split; [ring |]. split; [lra |]. split; [lra | exact G].
    + apply unit_of_some in H. destruct H as (O & k & K & ->). unfold across, vscale in *. vsimp.
      split; [exact O |]. split; [ring |]. split; [lra | exact G].
Qed.

(** It is undefined only for the axis straight down and a point practically on it. *)
Theorem C315_constrain_none : forall p a, on_sphere a ->
  (constrain_to_axis p a = None -> a = (0, 0, -1)) /\
  (constrain_to_axis p (0, 0, -1) = None <-> sqrt (vx p * vx p + vy p * vy p) <= 4 / 4503599627370496).
Proof.
  intros p a A. change (4 / 4503599627370496) with eps. split.
  - unfold constrain_to_axis. destruct (Rlt_dec _ _) as [L | L]; [destruct (Rlt_dec _ _); discriminate |].
    destruct (Req_EM_T (vz a) 1) as [E | E]; [discriminate |].
    unfold unit_of. destruct (Req_EM_T _ 0) as [F | F]; [| discriminate]. intros _.
    destruct a as [[a1 a2] a3]. unfold on_sphere, vdot in *. vsimp.
    assert (a1 = 0) by nra. assert (a2 = 0) by nra. subst.
    assert ((a3 - 1) * (a3 + 1) = 0) as Z by lra. apply Rmult_integral in Z.
    replace a3 with (-1) by lra. reflexivity.
  - unfold constrain_to_axis.
    assert (vector_norm (vsub p (vscale (vdot (0, 0, -1) p) (0, 0, -1))) = sqrt (vx p * vx p + vy p * vy p)) as ->.
    { unfold vector_norm, vsub, vscale, vdot. vsimp. f_equal. ring. }
    destruct (Rlt_dec _ _) as [L | L].
    + split; intro H; [destruct (Rlt_dec _ _); discriminate | lra].
    + vsimp. destruct (Req_EM_T (-1) 1) as [E | E]; [lra |].
      unfold unit_of, vdot. vsimp. destruct (Req_EM_T _ 0) as [F | F]; [| exfalso; apply F; ring].
      split; [lra | reflexivity].
Qed.

(** ** The nearest axis *)

Definition sound_axis (a : vec) : Prop := on_sphere a /\ a <> (0, 0, -1).

Lemma constrain_some : forall p a, sound_axis a -> exists w, constrain_to_axis p a = Some w.
Proof.
  intros p a (A & B). destruct (constrain_to_axis p a) as [w |] eqn:E; [eexists; reflexivity |].
  now apply (C315_constrain_none p a A) in E.
Qed.

(** The constrained point is never opposite to the point. *)
Lemma constrain_above : forall p a w, on_sphere p -> 0 <= vz p -> on_sphere a ->
  constrain_to_axis p a = Some w -> -1 < vdot w p.
Proof.
  intros p a w P PZ A H. pose proof (C315_constrain p a w A H) as (O & C & Z & _).
  destruct (Rlt_le_dec (-1) (vdot w p)) as [L | L]; [exact L | exfalso].
  (* then w = - p, both with z = 0, and p is across a *)
  assert (forall x y z : R, x * x + y * y + z * z <= 0 -> x = 0 /\ y = 0 /\ z = 0) as SQ by (intros; repeat split; nra).
  assert (vx w + vx p = 0 /\ vy w + vy p = 0 /\ vz w + vz p = 0) as (E1 & E2 & E3).
  { apply SQ. unfold on_sphere, vdot in *. lra. }
  assert (vz p = 0) as PZ0 by lra.
  assert (vdot a p = 0) as AP.
  { unfold across in C. unfold vdot. replace (vx p) with (- vx w) by lra. replace (vy p) with (- vy w) by lra.
    replace (vz p) with (- vz w) by lra. lra. }
  unfold constrain_to_axis in H. rewrite AP in H.
  assert (vsub p (vscale 0 a) = p) as V.
  { destruct p as [[p1 p2] p3]. unfold vsub, vscale. vsimp. f_equal; [f_equal |]; ring. }
  rewrite V in H. assert (vector_norm p = 1) as N by (unfold vector_norm, vdot; unfold on_sphere in P; rewrite P; apply sqrt_1).
  rewrite N in H. pose proof eps_small. destruct (Rlt_dec eps 1) as [_ | K]; [| lra].
  rewrite PZ0 in H. destruct (Rlt_dec 0 0) as [K | _]; [lra |]. injection H as <-. vsimp.
  rewrite PZ0 in *. unfold on_sphere in P. assert (vx p = 0) by lra. assert (vy p = 0) by lra. nra.
Qed.

Definition reaches (p a : vec) (d : R) : Prop := exists w, constrain_to_axis p a = Some w /\ vdot w p = d.

Lemma nearest_from_spec : forall p axes near mx, Forall sound_axis axes ->
  match nearest_from p axes near mx with
  | Some a => (near = Some a /\ forall a' d, In a' axes -> reaches p a' d -> d <= mx) \/
              (In a axes /\ exists d, reaches p a d /\ mx < d /\ forall a' d', In a' axes -> reaches p a' d' -> d' <= d)
  | None => near = None /\ forall a' d, In a' axes -> reaches p a' d -> d <= mx
  end.
Proof.
  intros p axes. induction axes as [| a axes IH]; intros near mx F; cbn.
  { destruct near; [left |]; split; try reflexivity; intros ? ? []. }
  inversion F as [| x y FA FR]; subst x y. destruct (constrain_some p a FA) as (c & C). rewrite C.
  assert (forall d, reaches p a d -> d = vdot c p) as U by (intros d (w & W1 & W2); congruence).
  destruct (Rlt_dec mx (vdot c p)) as [L | L].
  - specialize (IH (Some a) (vdot c p) FR). destruct (nearest_from p axes (Some a) (vdot c p)) as [b |].
    + destruct IH as [(E & B) | (I & d & D1 & D2 & D3)].
      * injection E as <-. right. split; [now left |]. exists (vdot c p). split; [now exists c |]. split; [exact L |].
        intros a' d' [<- | I] R; [rewrite (U d' R); lra | now apply (B a')].
      * right. split; [now right |]. exists d. split; [exact D1 |]. split; [lra |].
        intros a' d' [<- | I'] R; [rewrite (U d' R); lra | now apply (D3 a')].
    + destruct IH as [E _]. discriminate.
  - specialize (IH near mx FR). destruct (nearest_from p axes near mx) as [b |].
    + destruct IH as [(E & B) | (I & d & D1 & D2 & D3)].
      * left. split; [exact E |]. intros a' d' [<- | I] R; [rewrite (U d' R); lra | now apply (B a')].
      * right. split; [now right |]. exists d. split; [exact D1 |]. split; [exact D2 |].
        intros a' d' [<- | I'] R; [rewrite (U d' R); lra | now apply (D3 a')].
    + destruct IH as (E & B). split; [exact E |].
      intros a' d' [<- | I] R; [rewrite (U d' R); lra | now apply (B a')].
Qed.

Theorem C315_nearest : forall p axes, on_sphere p -> 0 <= vz p -> axes <> [] ->
  (forall a, In a axes -> on_sphere a /\ a <> (0, 0, -1)) ->
  exists a w, nearest_axis p axes = Some a /\ In a axes /\ constrain_to_axis p a = Some w /\
  forall a' w', In a' axes -> constrain_to_axis p a' = Some w' -> vdot w' p <= vdot w p.
Proof.
  intros p axes P Z NE S. assert (Forall sound_axis axes) as F by (apply Forall_forall; exact S).
  pose proof (nearest_from_spec p axes None (-1) F) as N. fold (nearest_axis p axes) in N.
  destruct (nearest_axis p axes) as [a |].
  - destruct N as [(E & _) | (I & d & (w & W & D) & _ & B)]; [discriminate |].
    exists a, w. split; [reflexivity |]. split; [exact I |]. split; [exact W |].
    intros a' w' I' W'. rewrite D. apply (B a'); [exact I' |]. now exists w'.
  - destruct N as (_ & B). destruct axes as [| a axes]; [congruence |].
    inversion F as [| x y FA FR]; subst x y. destruct (constrain_some p a FA) as (c & C).
    specialize (B a (vdot c p) (or_introl eq_refl) (ex_intro _ c (conj C eq_refl))).
    pose proof (constrain_above p a c P Z (proj1 FA) C). lra.
Qed.

(** ** Orientations keep their length *)

Lemma slerp_unit : forall a b f, norm2 a = 1 -> norm2 b = 1 -> norm2 (quaternion_slerp a b f 0 true) = 1.
Proof.
  intros a b f A B. pose proof eps_pos as EP. pose proof eps_small as ES.
  unfold quaternion_slerp. rewrite (qunit_id a A), (qunit_id b B).
  destruct (Req_EM_T f 0); [exact A |]. destruct (Req_EM_T f 1); [exact B |].
  destruct (Rlt_dec (Rabs (Rabs (qdot a b) - 1)) eps) as [L | L]; [exact A |].
  assert (Rabs (qdot a b) <= 1) as CS.
  { unfold norm2, qdot in *. apply Rabs_le. 
    assert (0 <= (qx a - qx b) * (qx a - qx b) + (qy a - qy b) * (qy a - qy b) + (qz a - qz b) * (qz a - qz b) + (qw a - qw b) * (qw a - qw b)) by (apply Rplus_le_le_0_compat; [apply sq3 | apply Rle_0_sqr]).
    assert (0 <= (qx a + qx b) * (qx a + qx b) + (qy a + qy b) * (qy a + qy b) + (qz a + qz b) * (qz a + qz b) + (qw a + qw b) * (qw a + qw b)) by (apply Rplus_le_le_0_compat; [apply sq3 | apply Rle_0_sqr]).
    lra. }
  assert (Rabs (qdot a b) <= 1 - eps) as CL by (rewrite Rabs_left1 in L by lra; lra).
  set (s := if Rlt_dec (qdot a b) 0 then -1 else 1).
  assert ((if Rlt_dec (qdot a b) 0 then (- qdot a b, qscale (- 1) b) else (qdot a b, b)) = (Rabs (qdot a b), qscale s b)) as ->.
  { unfold s. destruct (Rlt_dec (qdot a b) 0).
    - rewrite Rabs_left by lra. reflexivity.
    - rewrite Rabs_pos_eq by lra. f_equal. destruct b. unfold qscale. qfields. f_equal; ring. }
  assert (norm2 (qscale s b) = 1 /\ qdot a (qscale s b) = Rabs (qdot a b)) as (NB & DB).
  { split.
    - transitivity (s * s * norm2 b); [unfold norm2, qscale; qfields; ring |]. rewrite B. unfold s. destruct (Rlt_dec _ _); ring.
    - transitivity (s * qdot a b); [unfold qdot, qscale; qfields; ring |]. unfold s.
      destruct (Rlt_dec _ _); [rewrite Rabs_left by lra | rewrite Rabs_pos_eq by lra]; ring. }
  pose proof (Rabs_pos (qdot a b)) as AP.
  rewrite Rmult_0_l, Rplus_0_r.
  assert (cos (acos (Rabs (qdot a b))) = Rabs (qdot a b)) as CA by (apply cos_acos; lra).
  destruct (Rlt_dec (Rabs (acos (Rabs (qdot a b)))) eps); [exact A |].
  apply slerp_core; [exact A | exact NB | congruence |].
  intro Z. pose proof (sin2_cos2 (acos (Rabs (qdot a b)))) as T. rewrite Z, CA in T. unfold Rsqr in T. nra.
Qed.

Definition inv (b : ball) : Prop :=
  on_sphere (vdown b) /\ norm2 (qdown b) = 1 /\ norm2 (qnow b) = 1 /\ norm2 (qpre b) = 1 /\
  (forall l, axes_ b = Some l -> Forall on_sphere l) /\
  (forall a, axis_ b = Some a -> on_sphere a /\ across a (vdown b)).

Lemma nearest_in : forall p axes near mx a, nearest_from p axes near mx = Some a -> near = Some a \/ In a axes.
Proof.
  intros p axes. induction axes as [| c axes IH]; intros near mx a H; cbn in *; [now left |].
  destruct (constrain_to_axis p c) as [w |]; [destruct (Rlt_dec _ _) |]; apply IH in H; destruct H as [H | H];
    try (left; exact H); try (right; right; exact H). injection H as <-. right. now left.
Qed.

Lemma units_unit : forall l us, units l = Some us -> Forall on_sphere us.
Proof.
  induction l as [| v l IH]; intros us H; cbn in H; [injection H as <-; constructor |].
  destruct (unit_of v) as [u |] eqn:E; [| discriminate]. destruct (units l) as [us' |]; [| discriminate].
  injection H as <-. constructor; [now apply unit_of_some in E | now apply IH].
Qed.

Lemma cross_dot : forall u v, on_sphere u -> on_sphere v ->
  let t := vcross u v in norm2 (mkquat (vx t) (vy t) (vz t) (vdot u v)) = 1.
Proof.
  intros [[a b] c] [[d e] f] U V. unfold on_sphere, vcross, vdot, norm2 in *. vsimp. qfields.
  transitivity ((a * a + b * b + c * c) * (d * d + e * e + f * f)); [ring |]. rewrite U, V. ring.
Qed.

Lemma mult_norm : forall a b, norm2 (quaternion_multiply a b) = norm2 a * norm2 b.
Proof. intros [x y z w] [x' y' z' w']. unfold quaternion_multiply, norm2. qfields. ring. Qed.

Lemma down_cases : forall b p b', down b p = Some b' ->
  exists v, map_to_sphere p (center_ b) (radius_ b) = Some v /\
  ((axis_ b' = None /\ vdown b' = v) \/
   (exists l a, axes_ b = Some l /\ In a l /\ axis_ b' = Some a /\ constrain_to_axis v a = Some (vdown b'))) /\
  axes_ b' = axes_ b /\ radius_ b' = radius_ b /\ center_ b' = center_ b /\
  qdown b' = qnow b /\ qnow b' = qnow b /\ qpre b' = qnow b.
Proof.
  intros b p b' H. unfold down in H. destruct (map_to_sphere p (center_ b) (radius_ b)) as [v |]; [| discriminate].
  exists v. split; [reflexivity |].
  destruct (constrain_ b); [destruct (axes_ b) as [l |] eqn:EL |].
  - destruct (nearest_axis v l) as [a |] eqn:E; [| discriminate].
    destruct (constrain_to_axis v a) as [w |] eqn:C; [| discriminate]. injection H as <-. cbn.
    split; [right | repeat split]. exists l, a. apply nearest_in in E. destruct E as [E | E]; [discriminate |]. tauto.
  - injection H as <-. cbn. split; [left; tauto | repeat split].
  - injection H as <-. cbn. split; [left; tauto | repeat split].
Qed.

Lemma drag_cases : forall b p b', drag b p = Some b' ->
  exists v vnow, map_to_sphere p (center_ b) (radius_ b) = Some v /\
  match axis_ b with Some a => constrain_to_axis v a = Some vnow | None => vnow = v end /\
  b' = mkball (axis_ b) (axes_ b) (radius_ b) (center_ b) (vdown b) (constrain_ b) (qdown b) (qnow b') (qnow b) /\
  let t := vcross (vdown b) vnow in
  (vdot t t < eps /\ qnow b' = qdown b \/
   eps <= vdot t t /\ qnow b' = quaternion_multiply (mkquat (vx t) (vy t) (vz t) (vdot (vdown b) vnow)) (qdown b)).
Proof.
  intros b p b' H. unfold drag in H. destruct (map_to_sphere p (center_ b) (radius_ b)) as [v |]; [| discriminate].
  destruct (match axis_ b with Some a => constrain_to_axis v a | None => Some v end) as [vnow |] eqn:E; [| discriminate].
  injection H as <-. cbn. exists v, vnow. split; [reflexivity |]. split; [destruct (axis_ b); congruence |]. split; [reflexivity |].
  destruct (Rlt_dec _ _); [left | right]; split; try reflexivity; lra.
Qed.

Lemma sphere_of : forall p c r v, map_to_sphere p c r = Some v -> on_sphere v.
Proof. intros p c r v H. now apply C315_sphere in H. Qed.

Lemma drag_now : forall b p v vnow, inv b -> map_to_sphere p (center_ b) (radius_ b) = Some v ->
  match axis_ b with Some a => constrain_to_axis v a = Some vnow | None => vnow = v end ->
  on_sphere vnow /\ forall a, axis_ b = Some a -> across a vnow.
Proof.
  intros b p v vnow (I1 & _ & _ & _ & _ & I6) V N. apply sphere_of in V.
  destruct (axis_ b) as [a |]; [| subst; split; [exact V | discriminate]].
  destruct (I6 a eq_refl) as (A & _). destruct (C315_constrain v a vnow A N) as (O & C & _).
  split; [exact O |]. intros a' [= <-]. exact C.
Qed.

Lemma inv_step : forall b o b', inv b -> step b o = Some b' -> inv b'.
Proof.
  intros b o b' I H. pose proof I as (I1 & I2 & I3 & I4 & I5 & I6).
  destruct o as [c r | l | c | p | p | a]; cbn in H.
  - injection H as <-. exact I.
  - unfold setaxes in H. destruct (units l) as [us |] eqn:U; [| discriminate]. injection H as <-.
    unfold inv. cbn. repeat (split; [assumption |]). split; [| exact I6].
    intros l' [= <-]. now apply units_unit in U.
  - injection H as <-. exact I.
  - apply down_cases in H. destruct H as (v & V & K & E1 & _ & _ & E2 & E3 & E4). apply sphere_of in V.
    unfold inv. rewrite E1, E2, E3, E4.
    destruct K as [(K1 & K2) | (l & a & L & IL & K1 & K2)].
    + rewrite K1, K2. repeat (split; [assumption |]). discriminate.
    + specialize (I5 l L). rewrite Forall_forall in I5. specialize (I5 a IL).
      destruct (C315_constrain v a _ I5 K2) as (O & C & _). rewrite K1.
      repeat (split; [assumption |]). split.
      { intros l' L'. rewrite L in L'. injection L' as <-. destruct I as (_ & _ & _ & _ & I5' & _). now apply I5'. }
      intros a' [= <-]. split; assumption.
  - apply drag_cases in H. destruct H as (v & vnow & V & N & E & Q).
    destruct (drag_now b p v vnow I V N) as (O & _).
    assert (norm2 (qnow b') = 1) as NQ.
    { destruct Q as [(_ & ->) | (_ & ->)]; [exact I2 |]. rewrite mult_norm, I2, (cross_dot _ _ I1 O). ring. }
    rewrite E. unfold inv. cbn. repeat (split; [assumption |]). exact I6.
  - injection H as <-. unfold inv. cbn. pose proof (slerp_unit _ _ (2 + a) I4 I3).
    repeat (split; [assumption |]). exact I6.
Qed.

Lemma inv_run : forall l b b', inv b -> run b l = Some b' -> inv b'.
Proof.
  induction l as [| o l IH]; intros b b' I H; cbn in H; [congruence |].
  destruct (step b o) as [c |] eqn:E; [| discriminate]. apply (IH c); [now apply (inv_step b o) | exact H].
Qed.

Lemma inv_new : forall q, norm2 q = 1 -> inv (new_ball q).
Proof.
  intros q H. unfold inv, new_ball, on_sphere. cbn. repeat split; try assumption; try discriminate. ring.
Qed.

(** Whatever is done with the ball, its orientation stays a rotation. *)
Theorem C315_unit : forall q ops b, norm2 q = 1 -> run (new_ball q) ops = Some b -> norm2 (qnow b) = 1.
Proof. intros q ops b Q H. exact (proj1 (proj2 (proj2 (inv_run ops _ _ (inv_new q Q) H)))). Qed.

(** ** Sequences that never fail *)

Definition fair (o : op) : Prop :=
  match o with
  | Place _ r => r <> 0
  | SetAxes l => l <> [] /\ forall v, In v l -> v <> (0, 0, 0) /\ forall k, 0 < k -> v <> (0, 0, - k)
  | _ => True
  end.

Definition ready (b : ball) : Prop :=
  radius_ b <> 0 /\ (forall l, axes_ b = Some l -> l <> [] /\ Forall sound_axis l) /\
  (forall a, axis_ b = Some a -> sound_axis a).

Lemma unit_sound : forall v, v <> (0, 0, 0) -> (forall k, 0 < k -> v <> (0, 0, - k)) ->
  exists u, unit_of v = Some u /\ sound_axis u.
Proof.
  intros [[x y] z] N K. destruct (unit_of (x, y, z)) as [u |] eqn:E.
  - exists u. split; [reflexivity |]. apply unit_of_some in E. destruct E as (O & k & KP & E). split; [exact O |].
    intro U. rewrite E in U. unfold vscale in U. vsimp. injection U as U1 U2 U3.
    assert (x = 0) by nra. assert (y = 0) by nra. subst x y.
    apply (K (- z)); [nra | f_equal; ring].
  - exfalso. unfold unit_of in E. destruct (Req_EM_T _ 0) as [Z | Z]; [| discriminate].
    unfold vdot in Z. vsimp. apply N. assert (x = 0) by nra. assert (y = 0) by nra. assert (z = 0) by nra. now subst.
Qed.

Lemma units_sound : forall l, (forall v, In v l -> v <> (0, 0, 0) /\ forall k, 0 < k -> v <> (0, 0, - k)) ->
  exists us, units l = Some us /\ Forall sound_axis us /\ length us = length l.
Proof.
  induction l as [| v l IH]; intro H; cbn; [exists []; repeat split; constructor |].
  destruct IH as (us & U & F & L); [intros w W; apply H; now right |].
  destruct (unit_sound v) as (u & E & S); [apply H; now left | apply H; now left |].
  rewrite E, U. exists (u :: us). cbn. repeat split; [now constructor | congruence].
Qed.

Lemma ready_step : forall b o, ready b -> fair o -> exists b', step b o = Some b' /\ ready b'.
Proof.
  intros b o R F. pose proof R as (R1 & R2 & R3). destruct o as [c r | l | c | p | p | a]; cbn in *.
  - eexists. split; [reflexivity |]. unfold ready. cbn. tauto.
  - destruct F as (NE & F). destruct (units_sound l F) as (us & U & S & L). unfold setaxes. rewrite U.
    eexists. split; [reflexivity |]. unfold ready. cbn. split; [exact R1 |]. split; [| exact R3].
    intros l' [= <-]. split; [| exact S]. intro Z. subst us. destruct l; [congruence | discriminate].
  - eexists. split; [reflexivity |]. exact R.
  - assert (exists v, map_to_sphere p (center_ b) (radius_ b) = Some v) as (v & V).
    { destruct (map_to_sphere p (center_ b) (radius_ b)) as [v |] eqn:E; [now exists v |]. apply C315_sphere in E. contradiction. }
    pose proof V as V'. apply C315_sphere in V'. destruct V' as (O & Z & _).
    assert (exists b', down b p = Some b') as (b' & D).
    { unfold down. rewrite V. destruct (constrain_ b); [destruct (axes_ b) as [l |] eqn:EL |]; try (eexists; reflexivity).
      destruct (R2 l eq_refl) as (NE & S). rewrite Forall_forall in S.
      destruct (C315_nearest v l O Z NE S) as (a & w & N & _ & C & _). rewrite N, C. eexists; reflexivity. }
    exists b'. split; [exact D |]. apply down_cases in D. destruct D as (v' & _ & K & E1 & E2 & _).
    unfold ready. rewrite E1, E2. split; [exact R1 |]. split; [exact R2 |].
    intros a A. destruct K as [(K & _) | (l & a' & L & IL & K & _)]; [congruence |].
    rewrite K in A. injection A as <-. destruct (R2 l L) as (_ & S). rewrite Forall_forall in S. now apply S.
  - assert (exists v, map_to_sphere p (center_ b) (radius_ b) = Some v) as (v & V).
    { destruct (map_to_sphere p (center_ b) (radius_ b)) as [v |] eqn:E; [now exists v |]. apply C315_sphere in E. contradiction. }
    unfold drag. rewrite V. destruct (axis_ b) as [a |] eqn:EA.
    + destruct (constrain_some v a (R3 a eq_refl)) as (w & W). rewrite W. eexists. split; [reflexivity |]. unfold ready. cbn. tauto.
    + eexists. split; [reflexivity |]. unfold ready. cbn. split; [exact R1 |]. split; [exact R2 | discriminate].
  - eexists. split; [reflexivity |]. exact R.
Qed.

(** With no zero radius, and axes that are given, not zero and not straight down, nothing fails. *)
Theorem C315_runs : forall q ops, Forall fair ops -> exists b, run (new_ball q) ops = Some b.
Proof.
  intros q ops F. assert (ready (new_ball q)) as R.
  { unfold ready, new_ball. cbn. split; [lra |]. split; discriminate. }
  revert R. generalize (new_ball q). induction F as [| o ops FO FR IH]; intros b R; cbn; [eexists; reflexivity |].
  destruct (ready_step b o R FO) as (b' & S & R'). rewrite S. now apply IH.
Qed.

(** ** Dragging *)

(** Back where the button was pressed the orientation is that before. *)
Theorem C315_back : forall b p b1 b2, down b p = Some b1 -> drag b1 p = Some b2 -> qnow b2 = qnow b.
Proof.
  intros b p b1 b2 D G. apply down_cases in D. destruct D as (v & V & K & _ & E2 & E3 & E4 & _).
  apply drag_cases in G. destruct G as (v' & vnow & V' & N & _ & Q). rewrite E2, E3, V in V'. injection V' as <-.
  assert (vnow = vdown b1) as ->.
  { destruct K as [(K1 & K2) | (l & a & _ & _ & K1 & K2)]; rewrite K1 in N; congruence. }
  assert (vdot (vcross (vdown b1) (vdown b1)) (vcross (vdown b1) (vdown b1)) = 0) as Z.
  { unfold vdot, vcross. vsimp. ring. }
  pose proof eps_pos. destruct Q as [(_ & ->) | (L & _)]; [exact E4 | rewrite Z in L; lra].
Qed.

(** A constrained drag turns about the axis picked. *)
Theorem C315_axis : forall q ops b p b1 a p' b2, norm2 q = 1 -> run (new_ball q) ops = Some b ->
  down b p = Some b1 -> axis_ b1 = Some a -> drag b1 p' = Some b2 ->
  on_sphere a /\ exists k c, k * k + c * c = 1 /\
  qnow b2 = quaternion_multiply (mkquat (k * vx a) (k * vy a) (k * vz a) c) (qnow b).
Proof.
  intros q ops b p b1 a p' b2 Q0 R D A G. pose proof (inv_run ops _ _ (inv_new q Q0) R) as I.
  pose proof (inv_step b (Down p) b1 I D) as I1.
  assert (qdown b1 = qnow b) as QD by (apply down_cases in D; destruct D as (? & _ & _ & _ & _ & _ & E & _); exact E).
  pose proof I1 as (J1 & _ & _ & _ & _ & J6). destruct (J6 a A) as (SA & AC). split; [exact SA |].
  apply drag_cases in G. destruct G as (v & vnow & V & N & _ & Q).
  destruct (drag_now b1 p' v vnow I1 V N) as (O & C). specialize (C a A). rewrite QD in Q.
  destruct Q as [(_ & ->) | (_ & ->)].
  - exists 0, 1. split; [ring |]. destruct (qnow b). unfold quaternion_multiply. f_equal; ring.
  - set (t := vcross (vdown b1) vnow). set (k := vx a * vx t + vy a * vy t + vz a * vz t).
    assert (vx t = k * vx a /\ vy t = k * vy a /\ vz t = k * vz a) as (T1 & T2 & T3).
    { unfold k, t. clear - SA AC C. destruct a as [[a1 a2] a3], (vdown b1) as [[u1 u2] u3], vnow as [[w1 w2] w3].
      unfold on_sphere, across, vcross in *. vsimp.
      assert (forall x, x = (a1 * a1 + a2 * a2 + a3 * a3) * x) as M by (intro x; rewrite SA; ring).
      set (f := a1 * u1 + a2 * u2 + a3 * u3) in *. set (g := a1 * w1 + a2 * w2 + a3 * w3) in *.
      repeat split; (etransitivity; [apply M |]).
      - transitivity ((a1 * (u2 * w3 - u3 * w2) + a2 * (u3 * w1 - u1 * w3) + a3 * (u1 * w2 - u2 * w1)) * a1
          - (a2 * (u3 * g - w3 * f) - a3 * (u2 * g - w2 * f))); [unfold f, g; ring | rewrite AC, C; ring].
      - transitivity ((a1 * (u2 * w3 - u3 * w2) + a2 * (u3 * w1 - u1 * w3) + a3 * (u1 * w2 - u2 * w1)) * a2
          - (a3 * (u1 * g - w1 * f) - a1 * (u3 * g - w3 * f))); [unfold f, g; ring | rewrite AC, C; ring].
      - transitivity ((a1 * (u2 * w3 - u3 * w2) + a2 * (u3 * w1 - u1 * w3) + a3 * (u1 * w2 - u2 * w1)) * a3
          - (a1 * (u2 * g - w2 * f) - a2 * (u1 * g - w1 * f))); [unfold f, g; ring | rewrite AC, C; ring]. }
    exists k, (vdot (vdown b1) vnow). pose proof (cross_dot _ _ J1 O) as U. cbn zeta in U. fold t in U.
    rewrite T1, T2, T3 in U |- *. split; [| reflexivity].
    unfold norm2 in U. qfields. rewrite <- U. unfold on_sphere in SA.
    replace (k * k) with (k * k * (vx a * vx a + vy a * vy a + vz a * vz a)) by (rewrite SA; ring). ring.
Qed.

(** Which axis is picked when the button is pressed. *)
Theorem C315_pick : forall b p b1, down b p = Some b1 ->
  exists v, map_to_sphere p (center_ b) (radius_ b) = Some v /\
  axis_ b1 = (if constrain_ b then match axes_ b with Some l => nearest_axis v l | None => None end else None) /\
  qnow b1 = qnow b.
Proof.
  intros b p b1 H. unfold down in H. destruct (map_to_sphere p (center_ b) (radius_ b)) as [v |]; [| discriminate].
  exists v. split; [reflexivity |].
  destruct (constrain_ b); [destruct (axes_ b) as [l |] |]; try (injection H as <-; split; reflexivity).
  destruct (nearest_axis v l) as [a |]; [| discriminate].
  destruct (constrain_to_axis v a); [| discriminate]. injection H as <-. split; reflexivity.
Qed.

(** A free drag from u to v turns u to the point beyond v, as far again: v is half-way. *)
Theorem C315_drag : forall q ops b p b1 p' b2, norm2 q = 1 -> run (new_ball q) ops = Some b ->
  down b p = Some b1 -> axis_ b1 = None -> drag b1 p' = Some b2 ->
  exists u v, map_to_sphere p (center_ b) (radius_ b) = Some u /\ map_to_sphere p' (center_ b) (radius_ b) = Some v /\
  (qnow b2 = qnow b /\ vdot (vcross u v) (vcross u v) < 4 / 4503599627370496 \/
   exists r, norm2 r = 1 /\ qnow b2 = quaternion_multiply r (qnow b) /\
   apply (quaternion_matrix r) u = vsub (vscale (2 * vdot u v) v) u).
Proof.
  intros q ops b p b1 p' b2 Q0 R D A G. change (4 / 4503599627370496) with eps.
  apply down_cases in D. destruct D as (u & U & K & _ & E2 & E3 & E4 & _).
  destruct K as [(_ & K) | (l & a & _ & _ & K & _)]; [| congruence].
  apply drag_cases in G. destruct G as (v & vnow & V & N & _ & Q). rewrite E2, E3 in V. rewrite A in N. subst vnow.
  rewrite K, E4 in Q. exists u, v. split; [exact U |]. split; [exact V |].
  destruct Q as [(L & ->) | (_ & ->)]; [left; split; [reflexivity | exact L] | right].
  apply sphere_of in U. apply sphere_of in V. eexists. split; [apply (cross_dot u v U V) |]. split; [reflexivity |].
  rewrite (matrix_unit _ (cross_dot u v U V)). clear - U V. destruct u as [[u1 u2] u3], v as [[v1 v2] v3].
  unfold on_sphere, apply, vsub, vscale, vcross, vdot in *. vsimp. fields. qfields.
  apply (f_equal2 pair); [apply (f_equal2 pair) |]; nsatz.
Qed.

(** The window, the axes and the mode are those last set; they start as the unit circle about the
    origin, no axes, free. *)
Definition settings : Type := ((R * R) * R * option (list vec) * bool)%type.
Definition last_set (s : settings) (o : op) : settings :=
  let '(c, r, l, m) := s in
  match o with
  | Place c' r' => (c', r', l, m)
  | SetAxes l' => (c, r, Some l', m)
  | SetConstrain m' => (c, r, l, m')
  | _ => s
  end.

Lemma units_scaled : forall l us, units l = Some us ->
  Forall2 (fun v u => on_sphere u /\ exists k, 0 < k /\ u = vscale k v) l us.
Proof.
  induction l as [| v l IH]; intros us H; cbn in H; [injection H as <-; constructor |].
  destruct (unit_of v) as [u |] eqn:E; [| discriminate]. destruct (units l) as [us' |]; [| discriminate].
  injection H as <-. constructor; [now apply unit_of_some | now apply IH].
Qed.

Theorem C315_settings : forall q ops b, run (new_ball q) ops = Some b ->
  let '(c, r, l, m) := fold_left last_set ops ((0, 0), 1, None, false) in
  center_ b = c /\ radius_ b = r /\ constrain_ b = m /\
  match l, axes_ b with
  | None, None => True
  | Some vs, Some us => Forall2 (fun v u => on_sphere u /\ exists k, 0 < k /\ u = vscale k v) vs us
  | _, _ => False
  end.
Proof.
  intros q ops b.
  assert (forall c r l m b0, center_ b0 = c -> radius_ b0 = r -> constrain_ b0 = m ->
    match l, axes_ b0 with None, None => True
    | Some vs, Some us => Forall2 (fun v u => on_sphere u /\ exists k, 0 < k /\ u = vscale k v) vs us
    | _, _ => False end ->
    run b0 ops = Some b ->
    let '(c, r, l, m) := fold_left last_set ops (c, r, l, m) in
    center_ b = c /\ radius_ b = r /\ constrain_ b = m /\
    match l, axes_ b with None, None => True
    | Some vs, Some us => Forall2 (fun v u => on_sphere u /\ exists k, 0 < k /\ u = vscale k v) vs us
    | _, _ => False end) as G.
  { induction ops as [| o ops IH]; intros c r l m b0 E1 E2 E3 E4 H.
    { injection H as <-. cbn. tauto. }
    cbn [run] in H. destruct (step b0 o) as [b1 |] eqn:S; [| discriminate]. cbn [fold_left].
    destruct o as [c' r' | l' | m' | p | p | x]; cbn [step last_set] in *.
    - injection S as <-. now apply (IH c' r' l m (place b0 c' r')).
    - unfold setaxes in S. destruct (units l') as [us |] eqn:U; [| discriminate]. injection S as <-.
      eapply IH; [| | | | exact H]; try assumption. cbn. now apply units_scaled.
    - injection S as <-. now apply (IH c r l m' (setconstrain b0 m')).
    - assert (constrain_ b1 = constrain_ b0) as M.
      { unfold down in S. destruct (map_to_sphere p _ _); [| discriminate].
        destruct (constrain_ b0); [destruct (axes_ b0); [destruct (nearest_axis _ _) as [a |]; [destruct (constrain_to_axis _ a) |] |] |];
          try discriminate; injection S as <-; reflexivity. }
      apply down_cases in S. destruct S as (v & _ & _ & F1 & F2 & F3 & _).
      apply (IH c r l m b1); try congruence. now rewrite F1.
    - apply drag_cases in S. destruct S as (v & vnow & _ & _ & F & _).
      apply (IH c r l m b1); try exact H; rewrite F; assumption.
    - injection S as <-. now apply (IH c r l m (next b0 x)). }
  intro H. now apply (G (0, 0) 1 None false (new_ball q)).
Qed.

(** Going on after a drag: on the great circle through the last two orientations, as far again times
    one plus the acceleration. *)
Theorem C315_next : forall q ops b x, norm2 q = 1 -> run (new_ball q) ops = Some b ->
  0 <= qdot (qpre b) (qnow b) <= 1 - limit ->
  let t := acos (qdot (qpre b) (qnow b)) in
  exists b', step b (Next x) = Some b' /\ qpre b' = qnow b /\
  qdot (qnow b') (qnow b) = cos ((1 + x) * t) /\ qdot (qnow b') (qpre b) = cos ((2 + x) * t).
Proof.
  intros q ops b x Q R D t. destruct (inv_run ops _ _ (inv_new q Q) R) as (_ & _ & N & P & _).
  eexists. split; [reflexivity |]. unfold next. cbn [qpre qnow]. split; [reflexivity |].
  set (p := qpre b) in *. set (n := qnow b) in *. change limit with eps in D. pose proof eps_pos as EP. pose proof eps_small as ES.
  assert (cos t = qdot p n) as CT by (apply cos_acos; lra). assert (0 <= t <= PI) as TB by apply acos_bound.
  assert (t <= PI / 2) as T2.
  { destruct (Rle_lt_dec t (PI / 2)) as [H | H]; [exact H |]. pose proof PI_RGT_0. pose proof (cos_lt_0 t H ltac:(lra)). lra. }
  assert (t <> 0) as T0 by (intro Z; rewrite Z, cos_0 in CT; lra).
  assert (0 < sin t) as ST by (pose proof PI_RGT_0; apply sin_gt_0; lra).
  assert (eps < t) as TE.
  { destruct (Rlt_le_dec eps t) as [H | H]; [exact H |]. exfalso. assert (sin t < t) as SL by (apply sin_lt_x; lra).
    pose proof (sin2_cos2 t) as S. unfold Rsqr in S. rewrite CT in S. assert (sin t * sin t <= eps * eps) by nra. nra. }
  assert (qdot n p = qdot p n) as SY by (unfold qdot; ring).
  unfold quaternion_slerp. rewrite (qunit_id p P), (qunit_id n N).
  destruct (Req_EM_T (2 + x) 0) as [Z | Z].
  { replace ((1 + x) * t) with (- t) by (replace x with (-2) by lra; ring). rewrite Z, Rmult_0_l, cos_0, cos_neg, CT.
    split; [reflexivity | exact P]. }
  destruct (Req_EM_T (2 + x) 1) as [Z1 | Z1].
  { replace ((1 + x) * t) with 0 by (replace x with (-1) by lra; ring). rewrite Z1, Rmult_1_l, cos_0, CT.
    split; [exact N | exact SY]. }
  rewrite (Rabs_pos_eq (qdot p n)) by lra.
  destruct (Rlt_dec (Rabs (qdot p n - 1)) eps) as [L | _]; [rewrite Rabs_left1 in L by lra; lra |].
  destruct (Rlt_dec (qdot p n) 0) as [L | _]; [lra |]. fold t. rewrite Rmult_0_l, Rplus_0_r.
  destruct (Rlt_dec (Rabs t) eps) as [L | _]; [rewrite Rabs_pos_eq in L by lra; lra |].
  destruct (slerp_core p n t (2 + x) P N (eq_sym CT) ltac:(lra)) as (_ & X & Y).
  split; [rewrite Y | exact X]. rewrite <- cos_neg. f_equal. ring.
Qed.

(** ** An example: a quarter of the way round, from the middle of the window to its right edge. *)
Lemma mid_sphere : map_to_sphere (0, 0) (0, 0) 1 = Some (0, 0, 1).
Proof.
  unfold map_to_sphere. destruct (Req_EM_T 1 0); [lra |]. vsimp.
  replace ((0 - 0) / 1) with 0 by field. destruct (Rlt_dec _ _) as [L | _]; [lra |].
  replace (1 - (0 * 0 + 0 * 0)) with 1 by ring. now rewrite sqrt_1.
Qed.
Lemma edge_sphere : map_to_sphere (1, 0) (0, 0) 1 = Some (1, 0, 0).
Proof.
  unfold map_to_sphere. destruct (Req_EM_T 1 0); [lra |]. vsimp.
  replace ((1 - 0) / 1) with 1 by field. replace ((0 - 0) / 1) with 0 by field.
  destruct (Rlt_dec _ _) as [L | _]; [lra |].
  replace (1 - (1 * 1 + 0 * 0)) with 0 by ring. now rewrite sqrt_0.
Qed.

Example C315_ex : option_map qnow (run (new_ball (mkquat 0 0 0 1)) [Down (0, 0); Drag (1, 0)]) = Some (mkquat 0 1 0 0).
Proof.
  cbn [run step]. unfold down, new_ball. cbn [center_ radius_ constrain_ axes_ qnow]. rewrite mid_sphere. cbn [step run].
  unfold drag. cbn [center_ radius_ axis_ vdown qdown]. rewrite edge_sphere. cbv zeta.
  unfold vdot, vcross. vsimp. pose proof eps_small. destruct (Rlt_dec _ _) as [L | _]; [lra |].
  cbn. f_equal. f_equal; ring.
Qed.

(** The two orientations that [next] then goes on from. *)
Example C315_ex_next : exists b, run (new_ball (mkquat 0 0 0 1)) [Down (0, 0); Drag (1, 0)] = Some b /\
  0 <= qdot (qpre b) (qnow b) <= 1 - limit /\ qdot (qnow (next b 0)) (qpre b) = -1.
Proof.
  destruct (C315_runs (mkquat 0 0 0 1) [Down (0, 0); Drag (1, 0)]) as (b & B); [repeat constructor |].
  exists b. split; [exact B |]. pose proof C315_ex as X. rewrite B in X. cbn [option_map] in X. injection X as X.
  assert (qpre b = mkquat 0 0 0 1) as P.
  { cbn [run step] in B. unfold down, new_ball in B. cbn [center_ radius_ constrain_ axes_ qnow] in B. rewrite mid_sphere in B.
    destruct (drag _ _) as [c |] eqn:D in B; [| discriminate]. injection B as <-. apply drag_cases in D.
    destruct D as (? & ? & _ & _ & D & _). rewrite D. reflexivity. }
  assert (qdot (qpre b) (qnow b) = 0) as Z by (rewrite P, X; unfold qdot; qfields; ring).
  pose proof eps_small. assert (0 <= qdot (qpre b) (qnow b) <= 1 - limit) as L by (rewrite Z; change limit with eps; lra).
  split; [exact L |].
  destruct (C315_next (mkquat 0 0 0 1) _ b 0 ltac:(unfold norm2; qfields; ring) B L) as (b' & S & _ & _ & E).
  injection S as <-. rewrite E, Z, acos_0. replace ((2 + 0) * (PI / 2)) with PI by lra. apply cos_PI.
Qed.

Lemma fair_axis : forall x y z : R, x <> 0 \/ 0 < z ->
  (x, y, z) <> (0, 0, 0) /\ forall k, 0 < k -> (x, y, z) <> (0, 0, - k).
Proof. intros x y z H. split; [| intros k K]; intros E; injection E as E1 E2 E3; lra. Qed.

Example C315_ex_fair : Forall fair [Place (320, 320) 320; SetAxes [(1, 1, 0); (-1, 1, 0)]; SetConstrain true; Down (400, 200); Drag (200, 400); Next 0].
Proof.
  repeat apply Forall_cons; cbn; try exact I; try apply Forall_nil; [lra |].
  split; [discriminate |]. intros v [<- | [<- | []]]; apply fair_axis; lra.
Qed.

(** ** C316: radii and axes that are not zero are not enough *)

(** The axis straight down, and the button pressed in the middle of the window. *)
Theorem C316_down_refuted : exists q a p, norm2 q = 1 /\ on_sphere a /\
  run (new_ball q) [SetAxes [a]; SetConstrain true; Down p] = None /\
  run (new_ball q) [SetAxes [vscale (-1) a]; SetConstrain true; Down p] <> None.
Proof.
  exists (mkquat 0 0 0 1), (0, 0, -1), (0, 0).
  assert (forall z, z = 1 \/ z = -1 -> unit_of (0, 0, z) = Some (0, 0, z)) as U.
  { intros z Z. assert (z * z = 1) as ZZ by (destruct Z as [-> | ->]; ring).
    unfold unit_of, unit_vector, vdot. vsimp. replace (0 * 0 + 0 * 0 + z * z) with 1 by lra.
    destruct (Req_EM_T 1 0); [lra |]. rewrite sqrt_1. f_equal. f_equal; [f_equal |]; field. }
  split; [unfold norm2; qfields; ring |]. split; [unfold on_sphere; vsimp; ring |].
  assert (sqrt (vx (0, 0, 1) * vx (0, 0, 1) + vy (0, 0, 1) * vy (0, 0, 1)) <= eps) as S.
  { vsimp. replace (0 * 0 + 0 * 0) with 0 by ring. rewrite sqrt_0. left. apply eps_pos. }
  split.
  - cbn [run step]. unfold setaxes, new_ball. cbn [units]. rewrite (U (-1)) by tauto. cbn [step run setconstrain].
    unfold down, setconstrain. cbn [center_ radius_ constrain_ axes_]. rewrite mid_sphere.
    unfold nearest_axis. cbn [nearest_from].
    assert (constrain_to_axis (0, 0, 1) (0, 0, -1) = None) as -> by
      (apply (C315_constrain_none _ (0, 0, -1)); [unfold on_sphere; vsimp; ring | exact S]).
    reflexivity.
  - replace (vscale (-1) (0, 0, -1)) with ((0, 0, 1) : vec) by (unfold vscale; vsimp; apply (f_equal2 pair); [apply (f_equal2 pair) |]; ring).
    assert (Forall fair [SetAxes [(0, 0, 1)]; SetConstrain true; Down (0, 0)]) as F.
    { repeat apply Forall_cons; cbn; try exact I; try apply Forall_nil.
      split; [discriminate |]. intros v [<- | []]; apply fair_axis; lra. }
    destruct (C315_runs (mkquat 0 0 0 1) _ F) as (b & E). intro Z. discriminate (eq_trans (eq_sym E) Z).
Qed.

(** setaxes without arguments does not lift the constraint, although the method provides for it: the
    next press fails. *)
Theorem C316_clear_refuted : exists q p, norm2 q = 1 /\
  run (new_ball q) [SetConstrain true; SetAxes []; Down p] = None /\
  run (new_ball q) [SetConstrain true; Down p] <> None.
Proof.
  exists (mkquat 0 0 0 1), (0, 0). split; [unfold norm2; qfields; ring |]. split.
  - cbn [run step]. unfold setaxes, setconstrain, new_ball. cbn [units]. cbn [step run].
    unfold down. cbn [center_ radius_ constrain_ axes_]. now rewrite mid_sphere.
  - assert (Forall fair [SetConstrain true; Down (0, 0)]) as F by (repeat constructor).
    destruct (C315_runs (mkquat 0 0 0 1) _ F) as (b & E). intro Z. discriminate (eq_trans (eq_sym E) Z).
Qed.

Print Assumptions C315_sphere.
Print Assumptions C315_constrain.
Print Assumptions C315_constrain_none.
Print Assumptions C315_nearest.
Print Assumptions C315_unit.
Print Assumptions C315_runs.
Print Assumptions C315_back.
Print Assumptions C315_axis.
Print Assumptions C315_pick.
Print Assumptions C315_drag.
Print Assumptions C315_settings.
Print Assumptions C315_next.
Print Assumptions C316_down_refuted.
Print Assumptions C316_clear_refuted.
