(** C313 and C314: the normalized device coordinates of a frustrum. *)
From Verif Require Import PyBase ClipModel.
Open Scope Q_scope.

(** ** What is meant, without the matrices *)

Definition between (a x b : Q) : Prop := a <= x /\ x <= b.

Definition in_range (v : Q * Q * Q) : Prop :=
  let '(x, y, z) := v in between (-1) x 1 /\ between (-1) y 1 /\ between (-1) z 1.

(** A truncated pyramid: the points seen from the origin through a point (x0, y0) of the rectangle
    at the near distance, up to the far distance. *)
Definition in_pyramid (l r b t n f x y z : Q) : Prop :=
  between n z f /\
  exists x0 y0, between l x0 r /\ between b y0 t /\ x * n == x0 * z /\ y * n == y0 * z.

(** ** Quotients *)

Lemma quot_le1 : forall p d, 0 < d -> (p / d <= 1 <-> p <= d).
Proof.
  intros p d H. split; intro K.
  - assert (E : p == p / d * d) by (field; lra). rewrite E.
    setoid_replace d with (1 * d) at 3 by ring. apply Qmult_le_compat_r; lra.
  - apply Qle_shift_div_r; lra.
Qed.

Lemma quot_ge1 : forall p d, 0 < d -> (-1 <= p / d <-> - d <= p).
Proof.
  intros p d H. split; intro K.
  - assert (E : p == p / d * d) by (field; lra). rewrite E.
    setoid_replace (- d) with (-1 * d) by ring. apply Qmult_le_compat_r; lra.
  - apply Qle_shift_div_l; lra.
Qed.

Lemma quot_between : forall p d v, 0 < d -> v == p / d -> (between (-1) v 1 <-> - d <= p /\ p <= d).
Proof.
  intros p d v H E. unfold between. rewrite E, quot_le1, quot_ge1 by exact H. reflexivity.
Qed.

Lemma neg_le : forall a b, Qle_bool a b = false <-> b < a.
Proof.
  intros a b. split; intro H.
  - destruct (Qlt_le_dec b a) as [K | K]; [exact K |].
    apply Qle_bool_iff in K. congruence.
  - destruct (Qle_bool a b) eqn:E; [| reflexivity]. apply Qle_bool_iff in E. lra.
Qed.

(** ** Which frustrums are taken *)

Theorem C313_taken : forall l r b t n f p,
  (exists m, clip_matrix l r b t n f p = Some m) <->
  l < r /\ b < t /\ n < f /\ (p = true -> 1 # 1125899906842624 < n).
Proof.
  intros l r b t n f p. unfold clip_matrix. split.
  - intros [m H].
    destruct (Qle_bool r l) eqn:E1; [discriminate |].
    destruct (Qle_bool t b) eqn:E2; [discriminate |].
    destruct (Qle_bool f n) eqn:E3; [discriminate |]. cbn in H.
    apply neg_le in E1. apply neg_le in E2. apply neg_le in E3.
    repeat split; try assumption.
    intros ->. destruct (Qle_bool n clip_eps) eqn:E4; [discriminate |].
    apply neg_le in E4. exact E4.
  - intros (H1 & H2 & H3 & H4).
    apply neg_le in H1. apply neg_le in H2. apply neg_le in H3. rewrite H1, H2, H3. cbn.
    destruct p; [| eexists; reflexivity].
    specialize (H4 eq_refl). apply neg_le in H4. unfold clip_eps. rewrite H4. eexists; reflexivity.
Qed.
Print Assumptions C313_taken.

Lemma taken_false : forall l r b t n f m, clip_matrix l r b t n f false = Some m ->
  m = clip_box l r b t n f /\ l < r /\ b < t /\ n < f.
Proof.
  intros l r b t n f m H.
  assert (K : exists m, clip_matrix l r b t n f false = Some m) by (exists m; exact H).
  apply C313_taken in K. destruct K as (K1 & K2 & K3 & _).
  split; [| repeat split; assumption].
  unfold clip_matrix in H.
  destruct (Qle_bool r l || Qle_bool t b || Qle_bool f n); congruence.
Qed.

Lemma taken_true : forall l r b t n f m, clip_matrix l r b t n f true = Some m ->
  m = clip_pyramid l r b t n f /\ l < r /\ b < t /\ n < f /\ 0 < n.
Proof.
  intros l r b t n f m H.
  assert (K : exists m, clip_matrix l r b t n f true = Some m) by (exists m; exact H).
  apply C313_taken in K. destruct K as (K1 & K2 & K3 & K4). specialize (K4 eq_refl).
  assert (0 < n) by lra.
  split; [| repeat split; assumption].
  unfold clip_matrix in H.
  destruct (Qle_bool r l || Qle_bool t b || Qle_bool f n); [discriminate |].
  destruct (Qle_bool n clip_eps); congruence.
Qed.

(** ** The box *)

Theorem C313_box : forall l r b t n f m x y z, clip_matrix l r b t n f false = Some m ->
  (in_range (dehomog (mat_dot m x y z)) <-> between l x r /\ between b y t /\ between n z f).
Proof.
  intros l r b t n f m x y z H. apply taken_false in H. destruct H as (-> & H1 & H2 & H3).
  cbn -[Qplus Qmult Qdiv Qminus Qopp].
  rewrite (quot_between (2 * x - (r + l)) (r - l)) by (try field; lra).
  rewrite (quot_between (2 * y - (t + b)) (t - b)) by (try field; lra).
  rewrite (quot_between (2 * z - (f + n)) (f - n)) by (try field; lra).
  unfold between. split; intros ((A1 & A2) & (A3 & A4) & (A5 & A6)); repeat split; lra.
Qed.
Print Assumptions C313_box.

(** The corners go to the corners, and the last coordinate stays 1. *)
Theorem C313_box_corners : forall l r b t n f m, clip_matrix l r b t n f false = Some m ->
  forall (i j k : bool),
  let pick (s : bool) a c := if s then c else a in
  let '(x', y', z', w') := mat_dot m (pick i l r) (pick j b t) (pick k n f) in
  x' == pick i (-1) 1 /\ y' == pick j (-1) 1 /\ z' == pick k (-1) 1 /\ w' == 1.
Proof.
  intros l r b t n f m H i j k pick. apply taken_false in H. destruct H as (-> & H1 & H2 & H3).
  cbn -[Qplus Qmult Qdiv Qminus Qopp].
  repeat split; destruct i, j, k; cbn -[Qplus Qmult Qdiv Qminus Qopp]; field; repeat split; lra.
Qed.
Print Assumptions C313_box_corners.

(** ** The pyramid *)

Lemma pyramid_side : forall l r n x z, 0 < n -> 0 < z ->
  ((exists x0, between l x0 r /\ x * n == x0 * z) <-> l * z <= x * n /\ x * n <= r * z).
Proof.
  intros l r n x z Hn Hz. unfold between. split.
  - intros (x0 & (A & B) & E). rewrite E. split; apply Qmult_le_compat_r; lra.
  - intros (A & B). exists (x * n / z). split; [split |].
    + apply Qle_shift_div_l; assumption.
    + apply Qle_shift_div_r; assumption.
    + field. lra.
Qed.

Theorem C313_pyramid : forall l r b t n f m x y z, clip_matrix l r b t n f true = Some m ->
  ~ z == 0 ->
  (in_range (dehomog (mat_dot m x y z)) <-> in_pyramid l r b t n f x y z).
Proof.
  intros l r b t n f m x y z H Hz. apply taken_true in H. destruct H as (-> & H1 & H2 & H3 & H4).
  assert (S : in_pyramid l r b t n f x y z <->
    between n z f /\ (l * z <= x * n /\ x * n <= r * z) /\ (b * z <= y * n /\ y * n <= t * z)).
  { unfold in_pyramid. split.
    - intros (A & x0 & y0 & B & C & D & E).
      assert (0 < z) by (destruct A; lra).
      split; [exact A |]. split; apply pyramid_side; try assumption.
      + exists x0. tauto.
      + exists y0. tauto.
    - intros (A & B & C). assert (0 < z) by (destruct A; lra).
      split; [exact A |].
      apply pyramid_side in B; try assumption. apply pyramid_side in C; try assumption.
      destruct B as (x0 & B1 & B2). destruct C as (y0 & C1 & C2).
      exists x0, y0. tauto. }
  rewrite S. clear S.
  assert (P : 0 < n * f) by (apply Qmult_lt_0_compat; lra).
  cbn -[Qplus Qmult Qdiv Qminus Qopp].
  destruct (Qlt_le_dec 0 z) as [K | K].
  - assert (D1 : 0 < (r - l) * z) by (apply Qmult_lt_0_compat; lra).
    assert (D2 : 0 < (t - b) * z) by (apply Qmult_lt_0_compat; lra).
    assert (D3 : 0 < (f - n) * z) by (apply Qmult_lt_0_compat; lra).
    rewrite (quot_between (2 * (x * n) - (r + l) * z) ((r - l) * z)) by (try (field; repeat split); lra).
    rewrite (quot_between (2 * (y * n) - (t + b) * z) ((t - b) * z)) by (try (field; repeat split); lra).
    rewrite (quot_between ((f + n) * z - 2 * (n * f)) ((f - n) * z)) by (try (field; repeat split); lra).
    assert (G : (- ((f - n) * z) <= (f + n) * z - 2 * (n * f) /\
                 (f + n) * z - 2 * (n * f) <= (f - n) * z) <-> between n z f).
    { unfold between. split; intros (A & B).
      - split; [apply (Qmult_le_l _ _ f) | apply (Qmult_le_l _ _ n)]; lra.
      - split.
        + assert (f * n <= f * z) by (apply Qmult_le_l; lra). lra.
        + assert (n * z <= n * f) by (apply Qmult_le_l; lra). lra. }
    rewrite G. split.
    + intros ((A1 & A2) & (A3 & A4) & A5). repeat split; try apply A5; lra.
    + intros (A5 & (A1 & A2) & (A3 & A4)). repeat split; try apply A5; lra.
  - assert (N : 0 < - z) by lra.
    assert (D3 : 0 < (f - n) * - z) by (apply Qmult_lt_0_compat; lra).
    split.
    + intros (_ & _ & A). exfalso.
      rewrite (quot_between ((f + n) * - z + 2 * (n * f)) ((f - n) * - z)) in A
        by (try (field; repeat split); lra).
      destruct A as (_ & A).
      assert (0 < n * - z) by (apply Qmult_lt_0_compat; lra). lra.
    + intros ((A & _) & _). lra.
Qed.
Print Assumptions C313_pyramid.

(** On the near plane both matrices agree, and the far plane goes to 1. *)
Theorem C313_planes : forall l r b t n f m m' x y,
  clip_matrix l r b t n f true = Some m -> clip_matrix l r b t n f false = Some m' ->
  (let '(u, v, w) := dehomog (mat_dot m x y n) in
   let '(u', v', w') := dehomog (mat_dot m' x y n) in
   u == u' /\ v == v' /\ w == w' /\ w == -1) /\
  (let '(_, _, w) := dehomog (mat_dot m x y f) in
   let '(_, _, w') := dehomog (mat_dot m' x y f) in w == 1 /\ w' == 1).
Proof.
  intros l r b t n f m m' x y H H'.
  apply taken_true in H. destruct H as (-> & H1 & H2 & H3 & H4).
  apply taken_false in H'. destruct H' as (-> & _).
  cbn -[Qplus Qmult Qdiv Qminus Qopp].
  repeat split; field; repeat split; lra.
Qed.
Print Assumptions C313_planes.

(** A frustrum off the axis: a point beside the pyramid, and one in the box. *)
Example C313_ex_taken : exists m, clip_matrix (-1) 3 (-2) 1 2 8 true = Some m.
Proof. eexists. reflexivity. Qed.

Example C313_ex :
  option_map (fun m => (let '(x, y, z) := dehomog (mat_dot m 8 (-2) 4) in
                        (Qred x, Qred y, Qred z))) (clip_matrix (-1) 3 (-2) 1 2 8 true)
    = Some (3 # 2, -1 # 3, 1 # 3) /\
  option_map (fun m => (let '(x, y, z) := dehomog (mat_dot m 2 (-2) 5) in
                        (Qred x, Qred y, Qred z))) (clip_matrix (-1) 3 (-2) 1 2 8 false)
    = Some (1 # 2, - (1), 0).
Proof. split; vm_compute; reflexivity. Qed.

Example C313_ex_in : in_pyramid (-1) 3 (-2) 1 2 8 6 2 4 /\ ~ in_pyramid (-1) 3 (-2) 1 2 8 (-1) 0 (-2).
Proof.
  split.
  - split; [unfold between; lra |]. exists 3, 1. unfold between. repeat split; lra.
  - intros ((A & _) & _). lra.
Qed.

Example C313_ex_raise : clip_matrix 1 1 0 1 0 1 false = None /\ clip_matrix 0 1 0 1 0 1 true = None /\
  clip_matrix 0 1 0 1 (-5) 1 false <> None.
Proof. repeat split; try reflexivity. discriminate. Qed.

(** ** C314: the full claim, that every pyramid in front of the eye is taken, is false: the message
    says near <= 0, the comparison is with a positive number. *)
Theorem C314_refuted : exists l r b t n f, l < r /\ b < t /\ n < f /\ 0 < n /\
  clip_matrix l r b t n f true = None.
Proof.
  exists (-1), 1, (-1), 1, (1 # 10000000000000000), 1. repeat split; reflexivity.
Qed.
Print Assumptions C314_refuted.

(** A point of that pyramid, which the matrix not built takes into the range. *)
Example C314_ex : in_pyramid (-1) 1 (-1) 1 (1 # 10000000000000000) 1 0 0 (1 # 2) /\
  in_range (dehomog (mat_dot (clip_pyramid (-1) 1 (-1) 1 (1 # 10000000000000000) 1) 0 0 (1 # 2))).
Proof.
  split.
  - split; [unfold between; split; vm_compute; discriminate |].
    exists 0, 0. unfold between. repeat split; try lra; reflexivity.
  - cbn -[Qplus Qmult Qdiv Qminus Qopp]. unfold between. repeat split; vm_compute; discriminate.
Qed.
