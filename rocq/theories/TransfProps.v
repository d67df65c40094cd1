(** C267, C268: Euler angles, rotation matrices and quaternions. *)
From Coq Require Import Ascii String Reals Lra Psatz List Bool Arith.
From Verif Require Import FramesModel FramesProps EulerModel EulerProps QuatModel QuatProps TransfModel.
Import ListNotations.
Open Scope R_scope.

(** ** Specification *)
Inductive letter := AX | AY | AZ.
Inductive frame := Static | Rotating.
(** A right-handed turn about a coordinate axis. *)
Definition turn (l : letter) (a : R) (v : vec) : vec := let '(x, y, z) := v in match l with
  | AX => (x, cos a * y - sin a * z, sin a * y + cos a * z)
  | AY => (cos a * x + sin a * z, y, cos a * z - sin a * x)
  | AZ => (cos a * x - sin a * y, sin a * x + cos a * y, z) end.
(** Three turns, about axes that stay or about axes that turn along. *)
Definition turns (f : frame) (a b c : letter) (x y z : R) (v : vec) : vec := match f with
  | Static => turn c z (turn b y (turn a x v))
  | Rotating => turn a x (turn b y (turn c z v)) end.
Definition letter_ascii (l : letter) : ascii := match l with AX => "x" | AY => "y" | AZ => "z" end.
Definition frame_ascii (f : frame) : ascii := match f with Static => "s" | Rotating => "r" end.
Definition name (f : frame) (a b c : letter) : string :=
  String (frame_ascii f) (String (letter_ascii a) (String (letter_ascii b) (String (letter_ascii c) EmptyString))).
(** A rotation keeps inner and vector products. *)
Definition dot (a b : vec) : R := let '(x, y, z) := a in let '(u, v, w) := b in x * u + y * v + z * w.
Definition cross (a b : vec) : vec := let '(x, y, z) := a in let '(u, v, w) := b in (y * w - z * v, z * u - x * w, x * v - y * u).
Definition is_rotation (m : mat) : Prop :=
  (forall u v, dot (apply m u) (apply m v) = dot u v) /\ (forall u v, apply m (cross u v) = cross (apply m u) (apply m v)).
(** Two matrices that differ by at most [e] everywhere. *)
Definition near (e : R) (a b : mat) : Prop := forall i j, (i < 3)%nat -> (j < 3)%nat -> Rabs (get a i j - get b i j) <= e.

(** ** Names *)
Ltac flats := cbv [flag axis_j axis_k next_axis Nat.eqb negb nth Nat.add Nat.sub set_at get andb qset qget fst snd r00 r01 r02 r10 r11 r12 r20 r21 r22 identity qx qy qz qw] in *.
Ltac allnames f a b c := destruct f; destruct a; destruct b; destruct c; try congruence.
Lemma decode_name : forall f a b c, a <> b -> b <> c -> exists t, decode (Named (name f a b c)) = Some t /\ decode_lower (Named (name f a b c)) = Some t.
Proof. intros f a b c A B. allnames f a b c; eexists; split; reflexivity. Qed.
Lemma mat_ext : forall a b, (forall v, apply a v = apply b v) -> a = b.
Proof.
  intros [a b c d e f g h i] [a' b' c' d' e' f' g' h' i'] H. pose proof (H (1, 0, 0)) as X. pose proof (H (0, 1, 0)) as Y. pose proof (H (0, 0, 1)) as Z.
  unfold apply in X, Y, Z. cbn [r00 r01 r02 r10 r11 r12 r20 r21 r22] in *. injection X as ? ? ?. injection Y as ? ? ?. injection Z as ? ? ?. f_equal; lra.
Qed.
Theorem C267_euler : forall f a b c x y z, a <> b -> b <> c ->
  exists m, euler_matrix (Named (name f a b c)) x y z = Some m /\ forall v, apply m v = turns f a b c x y z v.
Proof.
  intros f a b c x y z A B. allnames f a b c; (eexists; split; [reflexivity|]); intros [[u v] w]; unfold turns, turn, apply; flats; cbn [r00 r01 r02 r10 r11 r12 r20 r21 r22];
    rewrite ?sin_neg, ?cos_neg; (f_equal; [f_equal|]); ring.
Qed.
Theorem C267_names : forall s, (forall x y z, euler_matrix (Named s) x y z = None) <-> ~ exists f a b c, a <> b /\ b <> c /\ s = name f a b c.
Proof.
  intros s. split.
  - intros N (f & a & b & c & A & B & ->). destruct (C267_euler f a b c 0 0 0 A B) as (m & E & _). rewrite N in E. discriminate.
  - intros N x y z. unfold euler_matrix. destruct (decode (Named s)) as [t|] eqn:D; [|reflexivity]. exfalso. apply N. clear N. unfold decode in D.
    assert (forall l, (forall k t, In (k, t) l -> exists f a b c, a <> b /\ b <> c /\ k = name f a b c) -> find_axes l s = Some t -> exists f a b c, a <> b /\ b <> c /\ s = name f a b c) as G.
    { induction l as [|[k t'] l IH]; intros H F; [discriminate|]. cbn in F. destruct (String.eqb k s) eqn:Q; [apply String.eqb_eq in Q; subst; apply (H s t'); now left|].
      apply IH; [|exact F]. intros k' t'' I. apply (H k' t''). now right. }
    apply (G axes2tuple); [|exact D]. clear. intros k t I.
    assert (exists f a b c, (a <> b /\ b <> c) /\ k = name f a b c) as (f & a & b & c & [A B] & E); [|now exists f, a, b, c].
    repeat (destruct I as [I|I]; [injection I as <- _;
      once ((exists Static + exists Rotating); (exists AX + exists AY + exists AZ); (exists AX + exists AY + exists AZ); (exists AX + exists AY + exists AZ);
        (split; [split; discriminate|reflexivity]))|]). destruct I.
Qed.
(** A tuple means the same as its name. *)
Theorem C267_tuples : forall s t, In (s, t) axes2tuple -> forall x y z, euler_matrix (Coded t) x y z = euler_matrix (Named s) x y z.
Proof. intros s t I x y z. repeat (destruct I as [I|I]; [injection I as <- <-; reflexivity|]). destruct I. Qed.

(** ** Rotation matrices *)
Definition full (m : mat) : Prop :=
  (r00 m = r11 m * r22 m - r12 m * r21 m /\ r01 m = r12 m * r20 m - r10 m * r22 m /\ r02 m = r10 m * r21 m - r11 m * r20 m /\
   r10 m = r21 m * r02 m - r22 m * r01 m /\ r11 m = r22 m * r00 m - r20 m * r02 m /\ r12 m = r20 m * r01 m - r21 m * r00 m /\
   r20 m = r01 m * r12 m - r02 m * r11 m /\ r21 m = r02 m * r10 m - r00 m * r12 m /\ r22 m = r00 m * r11 m - r01 m * r10 m) /\
  (r00 m * r00 m + r10 m * r10 m + r20 m * r20 m = 1 /\ r01 m * r01 m + r11 m * r11 m + r21 m * r21 m = 1 /\ r02 m * r02 m + r12 m * r12 m + r22 m * r22 m = 1 /\
   r00 m * r01 m + r10 m * r11 m + r20 m * r21 m = 0 /\ r00 m * r02 m + r10 m * r12 m + r20 m * r22 m = 0 /\ r01 m * r02 m + r11 m * r12 m + r21 m * r22 m = 0) /\
  (r00 m * r00 m + r01 m * r01 m + r02 m * r02 m = 1 /\ r10 m * r10 m + r11 m * r11 m + r12 m * r12 m = 1 /\ r20 m * r20 m + r21 m * r21 m + r22 m * r22 m = 1 /\
   r00 m * r10 m + r01 m * r11 m + r02 m * r12 m = 0 /\ r00 m * r20 m + r01 m * r21 m + r02 m * r22 m = 0 /\ r10 m * r20 m + r11 m * r21 m + r12 m * r22 m = 0).
Lemma rotation_full : forall m, is_rotation m -> full m.
Proof.
  intros [a b c d e f g h i] [D C]. pose proof (C (0, 1, 0) (0, 0, 1)) as X. pose proof (C (0, 0, 1) (1, 0, 0)) as Y. pose proof (C (1, 0, 0) (0, 1, 0)) as Z.
  pose proof (D (1, 0, 0) (1, 0, 0)) as D1. pose proof (D (0, 1, 0) (0, 1, 0)) as D2. pose proof (D (0, 0, 1) (0, 0, 1)) as D3.
  pose proof (D (1, 0, 0) (0, 1, 0)) as D4. pose proof (D (1, 0, 0) (0, 0, 1)) as D5. pose proof (D (0, 1, 0) (0, 0, 1)) as D6. clear D C.
  unfold apply, cross, dot in *. cbn [r00 r01 r02 r10 r11 r12 r20 r21 r22] in *. injection X as X1 X2 X3. injection Y as Y1 Y2 Y3. injection Z as Z1 Z2 Z3.
  assert (a = e * i - f * h) as A by lra. assert (b = f * g - d * i) as B by lra. assert (c = d * h - e * g) as Cc by lra.
  assert (d = h * c - i * b) as Dd by lra. assert (e = i * a - g * c) as Ee by lra. assert (f = g * b - h * a) as Ff by lra.
  assert (g = b * f - c * e) as Gg by lra. assert (h = c * d - a * f) as Hh by lra. assert (i = a * e - b * d) as Ii by lra.
  clear X1 X2 X3 Y1 Y2 Y3 Z1 Z2 Z3. assert (a * a + d * d + g * g = 1) as N1 by lra. assert (b * b + e * e + h * h = 1) as N2 by lra. assert (c * c + f * f + i * i = 1) as N3 by lra.
  assert (a * b + d * e + g * h = 0) as P1 by lra. assert (a * c + d * f + g * i = 0) as P2 by lra. assert (b * c + e * f + h * i = 0) as P3 by lra. clear D1 D2 D3 D4 D5 D6.
  assert (a * (e * i - f * h) + b * (f * g - d * i) + c * (d * h - e * g) = 1) as DET.
  { transitivity (a * (e * i - f * h) + d * (h * c - i * b) + g * (b * f - c * e)); [ring|]. rewrite <- A, <- Dd, <- Gg. lra. }
  unfold full. cbn [r00 r01 r02 r10 r11 r12 r20 r21 r22]. split; [tauto|]. split; [tauto|].
  repeat apply conj.
  - transitivity (a * (e * i - f * h) + b * (f * g - d * i) + c * (d * h - e * g)); [rewrite <- A, <- B, <- Cc; ring|exact DET].
  - transitivity (d * (h * c - i * b) + e * (i * a - g * c) + f * (g * b - h * a)); [rewrite <- Dd, <- Ee, <- Ff; ring|rewrite <- DET; ring].
  - transitivity (g * (b * f - c * e) + h * (c * d - a * f) + i * (a * e - b * d)); [rewrite <- Gg, <- Hh, <- Ii; ring|rewrite <- DET; ring].
  - transitivity (a * (h * c - i * b) + b * (i * a - g * c) + c * (g * b - h * a)); [rewrite <- Dd, <- Ee, <- Ff; ring|ring].
  - transitivity (a * (b * f - c * e) + b * (c * d - a * f) + c * (a * e - b * d)); [rewrite <- Gg, <- Hh, <- Ii; ring|ring].
  - transitivity (d * (b * f - c * e) + e * (c * d - a * f) + f * (a * e - b * d)); [rewrite <- Gg, <- Hh, <- Ii; ring|ring].
Qed.
Lemma full_special : forall m, full m -> special m.
Proof. intros m ((? & ? & ? & ? & ? & ? & ? & ? & ?) & (? & ? & ? & ? & ? & ?) & (? & ? & ? & ? & ? & ?)). unfold special. repeat split; lra. Qed.
Lemma full_rotation : forall m, full m -> is_rotation m.
Proof.
  intros [a b c d e f g h i] ((A & B & C & D & E & F & G & H & I) & (N1 & N2 & N3 & P1 & P2 & P3) & _). cbn [r00 r01 r02 r10 r11 r12 r20 r21 r22] in *. split; intros [[x y] z] [[u v] w]; unfold apply, dot, cross; cbn [r00 r01 r02 r10 r11 r12 r20 r21 r22].
  - transitivity ((a * a + d * d + g * g) * (x * u) + (b * b + e * e + h * h) * (y * v) + (c * c + f * f + i * i) * (z * w) + (a * b + d * e + g * h) * (x * v + y * u) + (a * c + d * f + g * i) * (x * w + z * u) + (b * c + e * f + h * i) * (y * w + z * v)); [ring|].
    rewrite N1, N2, N3, P1, P2, P3. ring.
  - f_equal; [f_equal|].
    + transitivity ((e * i - f * h) * (y * w - z * v) + (f * g - d * i) * (z * u - x * w) + (d * h - e * g) * (x * v - y * u)); [rewrite <- A, <- B, <- C; ring|ring].
    + transitivity ((h * c - i * b) * (y * w - z * v) + (i * a - g * c) * (z * u - x * w) + (g * b - h * a) * (x * v - y * u)); [rewrite <- D, <- E, <- F; ring|ring].
    + transitivity ((b * f - c * e) * (y * w - z * v) + (c * d - a * f) * (z * u - x * w) + (a * e - b * d) * (x * v - y * u)); [rewrite <- G, <- H, <- I; ring|ring].
Qed.
Ltac mfields := cbn [r00 r01 r02 r10 r11 r12 r20 r21 r22] in *.
(** The matrix with its axes renamed. *)
Definition renamed (i j k : nat) (m : mat) : mat :=
  mkmat (get m i i) (get m i j) (get m i k) (get m j i) (get m j j) (get m j k) (get m k i) (get m k j) (get m k k).
Definition permutes (i j k : nat) : Prop := In (i, j, k) [(0, 1, 2); (1, 2, 0); (2, 0, 1); (0, 2, 1); (2, 1, 0); (1, 0, 2)]%nat.
Lemma full_cycled : forall m, full m -> full (renamed 1 2 0 m).
Proof.
  intros m ((? & ? & ? & ? & ? & ? & ? & ? & ?) & (? & ? & ? & ? & ? & ?) & (? & ? & ? & ? & ? & ?)).
  unfold full, renamed; cbn [get r00 r01 r02 r10 r11 r12 r20 r21 r22]; repeat split; lra.
Qed.
Lemma full_swapped : forall m, full m -> full (renamed 1 0 2 m).
Proof.
  intros m ((? & ? & ? & ? & ? & ? & ? & ? & ?) & (? & ? & ? & ? & ? & ?) & (? & ? & ? & ? & ? & ?)).
  unfold full, renamed; cbn [get r00 r01 r02 r10 r11 r12 r20 r21 r22]; repeat split; lra.
Qed.
Lemma full_renamed : forall i j k m, permutes i j k -> full m -> full (renamed i j k m).
Proof.
  intros i j k m P F. repeat (destruct P as [P|P]; [injection P as <- <- <-|]); [..|destruct P].
  - now destruct m.
  - now apply full_cycled.
  - change (full (renamed 1 2 0 (renamed 1 2 0 m))). now apply full_cycled, full_cycled.
  - change (full (renamed 1 2 0 (renamed 1 0 2 m))) || change (full (renamed 1 0 2 (renamed 1 2 0 m))). first [now apply full_cycled, full_swapped | now apply full_swapped, full_cycled].
  - change (full (renamed 1 2 0 (renamed 1 0 2 m))) || change (full (renamed 1 0 2 (renamed 1 2 0 m))). first [now apply full_cycled, full_swapped | now apply full_swapped, full_cycled].
  - now apply full_swapped.
Qed.
Definition repeated (x y z : R) : mat :=
  mkmat (cos y) (sin y * sin x) (sin y * cos x)
        (sin y * sin z) (- cos y * (sin x * sin z) + cos x * cos z) (- cos y * (cos x * sin z) - sin x * cos z)
        (- sin y * cos z) (cos y * (sin x * cos z) + cos x * sin z) (cos y * (cos x * cos z) - sin x * sin z).
Definition read_repeated (m : mat) : R * R * R :=
  let sy := sqrt (r01 m * r01 m + r02 m * r02 m) in
  if Rlt_dec eps sy then (atan2 (r01 m) (r02 m), atan2 sy (r00 m), atan2 (r10 m) (- r20 m))
  else (atan2 (- r12 m) (r11 m), atan2 sy (r00 m), 0).
Lemma tilt_exact : forall m, full m -> let sy := sqrt (r01 m * r01 m + r02 m * r02 m) in
  0 <= sy /\ sy * sy = r01 m * r01 m + r02 m * r02 m /\ cos (atan2 sy (r00 m)) = r00 m /\ sin (atan2 sy (r00 m)) = sy.
Proof.
  intros m (_ & _ & (R0 & _)) sy. assert (sy * sy = r01 m * r01 m + r02 m * r02 m) as C by (apply sqrt_sqrt; nra). split; [apply sqrt_pos|]. split; [exact C|].
  apply atan2_unit. rewrite C. lra.
Qed.
Lemma repeated_exact : forall m, full m -> let sy := sqrt (r01 m * r01 m + r02 m * r02 m) in 0 < sy ->
  m = repeated (atan2 (r01 m) (r02 m)) (atan2 sy (r00 m)) (atan2 (r10 m) (- r20 m)).
Proof.
  intros m P sy C. destruct (tilt_exact m P) as (_ & CC & CP & SP). fold sy in CC, CP, SP.
  destruct P as ((E00 & E01 & E02 & E10 & E11 & E12 & E20 & E21 & E22) & (C0 & _) & (R0 & _)).
  destruct (atan2_dir (r02 m) (r01 m) sy C) as [CR SR]; [lra|]. destruct (atan2_dir (- r20 m) (r10 m) sy C) as [CY SY]; [lra|].
  unfold repeated. rewrite CP, SP, CR, SR, CY, SY. set (k := sy) in *. clearbody k. destruct m as [a b c d e f g h i]. mfields.
  assert (k <> 0) as N by lra. assert (forall x y, x * (k * k) = y -> x = y / (k * k)) as D by (intros x y <-; field; exact N).
  assert (k * k = 1 - a * a) as K by lra. f_equal; try (field; exact N); try reflexivity.
  - replace (_ + _) with ((- a * b * d - c * g) / (k * k)) by (field; exact N). apply D. rewrite K. pose proof (f_equal (Rmult a) E22). lra.
  - replace (_ - _) with ((- a * c * d + b * g) / (k * k)) by (field; exact N). apply D. rewrite K. pose proof (f_equal (Rmult a) E21). lra.
  - replace (_ + _) with ((- a * b * g + c * d) / (k * k)) by (field; exact N). apply D. rewrite K. pose proof (f_equal (Rmult a) E12). lra.
  - replace (_ - _) with ((- a * c * g - b * d) / (k * k)) by (field; exact N). apply D. rewrite K. pose proof (f_equal (Rmult a) E11). lra.
Qed.
Lemma repeated_gimbal : forall m, full m -> let sy := sqrt (r01 m * r01 m + r02 m * r02 m) in sy = 0 ->
  m = repeated (atan2 (- r12 m) (r11 m)) (atan2 sy (r00 m)) 0.
Proof.
  intros m P sy C. destruct (tilt_exact m P) as (_ & CC & CP & SP). fold sy in CC, CP, SP.
  destruct P as ((E00 & E01 & E02 & E10 & E11 & E12 & E20 & E21 & E22) & (C0 & _) & (R0 & R1 & _)). rewrite C in CC.
  assert (r01 m = 0) as Z1 by nra. assert (r02 m = 0) as Z2 by nra. assert (r00 m * r00 m = 1) as U by (rewrite Z1, Z2 in R0; lra).
  assert (r10 m = 0) as Z3 by nra. assert (r20 m = 0) as Z4 by nra. destruct (atan2_unit (r11 m) (- r12 m)) as [A B]; [rewrite Z3 in R1; lra|].
  unfold repeated. rewrite CP, SP, A, B, cos_0, sin_0, C. destruct m as [a b c d e f g h i]. mfields. subst b c d g. f_equal; try ring; lra.
Qed.
Lemma repeated_near : forall m, full m -> let '(x, y, z) := read_repeated m in forall i, Rabs (entry (repeated x y z) i - entry m i) <= 2 * eps.
Proof.
  intros m P. pose proof eps_pos as EP. pose proof eps_small as ES. destruct (tilt_exact m P) as (C0 & CC & CP & SP). unfold read_repeated. set (sy := sqrt _) in *. destruct (Rlt_dec eps sy) as [L|L].
  { intros i. unfold sy. rewrite <- (repeated_exact m P) by (fold sy; lra). rewrite Rminus_diag_eq by reflexivity. rewrite Rabs_R0. lra. }
  destruct (Req_dec sy 0) as [Z|Z].
  { intros i. unfold sy. rewrite <- (repeated_gimbal m P) by exact Z. rewrite Rminus_diag_eq by reflexivity. rewrite Rabs_R0. lra. }
  pose proof (repeated_exact m P) as E. cbv zeta in E. fold sy in E. specialize (E ltac:(lra)). set (p := atan2 (r01 m) (r02 m)) in E. set (f := atan2 (r10 m) (- r20 m)) in E. set (t := atan2 sy (r00 m)) in *.
  clearbody p f t. intros i.
  assert (r12 m = - cos t * (cos p * sin f) - sin p * cos f /\ r11 m = - cos t * (sin p * sin f) + cos p * cos f) as [M12 M11] by (rewrite E; split; reflexivity).
  rewrite M12, M11. rewrite E. clearbody sy. clear E M12 M11 P CP CC. unfold repeated. rewrite SP, cos_0, sin_0.
  pose proof (sin2_cos2 t) as T. pose proof (sin2_cos2 p) as P. pose proof (sin2_cos2 f) as F. unfold Rsqr in *. rewrite SP in T.
  set (x := - cos t * (sin p * sin f) + cos p * cos f) in *. set (y := - cos t * (cos p * sin f) - sin p * cos f) in *.
  assert (x * x + - y * - y = 1 - sy * sy * (sin f * sin f)) as E.
  { unfold x, y. replace (_ + _) with ((sin p * sin p + cos p * cos p) * ((cos t * cos t) * (sin f * sin f) + cos f * cos f)) by ring. rewrite P.
    replace (cos t * cos t) with (1 - sy * sy) by lra. replace (cos f * cos f) with (1 - sin f * sin f) by lra. ring. }
  assert (0 < sy <= eps) as CE by lra. assert (0 <= sy * sy <= eps * (1 / 1000000)) as C2 by nra. assert (0 <= sin f * sin f <= 1) as SF by nra.
  assert (0 <= sy * sy * (sin f * sin f) <= eps * (1 / 1000000)) as C3 by nra.
  assert (exists n, 0 < n <= 1 /\ x * x + - y * - y = n * n /\ 1 - n <= eps / 2) as (n & N & EN & N1).
  { exists (sqrt (x * x + - y * - y)). assert (sqrt (x * x + - y * - y) * sqrt (x * x + - y * - y) = x * x + - y * - y) as Q by (apply sqrt_sqrt; lra).
    assert (0 < sqrt (x * x + - y * - y)) as Q0 by (apply sqrt_lt_R0; lra). set (n := sqrt _) in *. split; [split; nra|]. split; [lra|]. nra. }
  destruct (atan2_dir x (- y) n (proj1 N) EN) as [A1 A2]. rewrite A1, A2. clear A1 A2.
  pose proof (normalise x n N (comp_bound x (- y) n (proj1 N) EN)) as NX. pose proof (normalise (- y) n N (comp_bound (- y) x n (proj1 N) ltac:(lra))) as NY.
  assert (-1 <= x / n <= 1) as BX by (pose proof (comp_bound x (- y) n (proj1 N) EN); assert (x / n * n = x) by (field; lra); split; nra).
  assert (-1 <= - y / n <= 1) as BY by (pose proof (comp_bound (- y) x n (proj1 N) ltac:(lra)); assert (- y / n * n = - y) by (field; lra); split; nra).
  pose proof (COS_bound t) as ST. pose proof (SIN_bound p) as Sp. pose proof (COS_bound p) as Cp. pose proof (SIN_bound f) as Sf. pose proof (COS_bound f) as Cf.
  assert (- eps <= sy <= eps) as CE' by lra.
  pose proof (abs_prod _ _ _ Cf CE') as K1. pose proof (abs_prod _ _ _ Sf CE') as K2. pose proof (abs_prod _ _ _ Sp CE') as K3. pose proof (abs_prod _ _ _ Cp CE') as K4. pose proof (abs_prod _ _ _ BX CE') as K5. pose proof (abs_prod _ _ _ BY CE') as K6.
  assert (- (eps / 2) <= (x / n - x) * cos t <= eps / 2) as G1 by (apply abs_prod; lra). assert (- (eps / 2) <= (- y / n - - y) * cos t <= eps / 2) as G2 by (apply abs_prod; lra).
  assert (- eps <= x * cos t - (cos t * (cos p * cos f) - sin p * sin f) <= eps) as H1.
  { replace (_ - _) with ((sy * sy) * sin p * sin f) by (replace (sy * sy) with (1 - cos t * cos t) by lra; unfold x; ring). apply abs_prod; [lra|]. apply abs_prod; [lra|]. nra. }
  assert (- eps <= - y * cos t - (cos t * (sin p * cos f) + cos p * sin f) <= eps) as H2.
  { replace (_ - _) with (- (sy * sy) * cos p * sin f) by (replace (sy * sy) with (1 - cos t * cos t) by lra; unfold y; ring). apply abs_prod; [lra|]. apply abs_prod; [lra|]. nra. }
  apply Rabs_le. destruct i as [|[|[|[|[|[|[|[|i]]]]]]]]; cbn [entry r00 r01 r02 r10 r11 r12 r20 r21 r22]; lra.
Qed.

(** ** Reading angles from a matrix *)
Definition core_read (rep : bool) (m : mat) : R * R * R := if rep then read_repeated m else QuatModel.euler_from_matrix m.
Definition core_make (rep : bool) (t : R * R * R) : mat := let '(x, y, z) := t in if rep then repeated x y z else rotation x y z.
Definition swapped (fr : bool) (t : R * R * R) : R * R * R := let '(x, y, z) := t in if fr then (z, y, x) else t.
Definition negated (p : bool) (t : R * R * R) : R * R * R := let '(x, y, z) := t in if p then (- x, - y, - z) else t.
Definition known (t : code) : Prop := let '(i, p, r, f) := t in (i < 3 /\ p < 2 /\ r < 2 /\ f < 2)%nat.
Lemma table_known : forall s t, In (s, t) axes2tuple -> known t.
Proof. intros s t I. repeat (destruct I as [I|I]; [injection I as <- <-; unfold known; repeat split; auto with arith|]). destruct I. Qed.
Lemma find_in : forall l s t, find_axes l s = Some t -> In (s, t) l.
Proof. induction l as [|[k u] l IH]; intros s t H; [discriminate|]. cbn in H. destruct (String.eqb k s) eqn:Q; [apply String.eqb_eq in Q; injection H as <-; subst; now left|right; now apply IH]. Qed.
Lemma code_eqb_eq : forall a b, code_eqb a b = true -> a = b.
Proof.
  intros [[[a b] c] d] [[[a' b'] c'] d'] H. unfold code_eqb in H. apply andb_true_iff in H as [H D]. apply andb_true_iff in H as [H C]. apply andb_true_iff in H as [A B].
  apply Nat.eqb_eq in A, B, C, D. now subst.
Qed.
Lemma decode_known : forall ax t, decode ax = Some t -> exists s, In (s, t) axes2tuple.
Proof.
  intros [s|u] t H; [exists s; now apply find_in|]. unfold decode in H. destruct (existsb _ _) eqn:E; [|discriminate]. injection H as <-. apply existsb_exists in E as ([s t] & I & Q).
  apply code_eqb_eq in Q. cbn in Q. subst. now exists s.
Qed.
Lemma decode_both : forall ax t, decode ax = Some t -> decode_lower ax = Some t.
Proof.
  intros [s|u] t H; [|exact H]. apply find_in in H. unfold decode_lower. repeat (destruct H as [H|H]; [injection H as <- <-; reflexivity|]). destruct H.
Qed.
Lemma known_permutes : forall i p, (i < 3)%nat -> (p < 2)%nat -> permutes i (axis_j i p) (axis_k i p).
Proof. intros [|[|[|i]]] [|[|p]] I P; try lia; unfold permutes; cbn; tauto. Qed.
Lemma read_code : forall m ax i p r f, decode_lower ax = Some (i, p, r, f) ->
  TransfModel.euler_from_matrix m ax = Some (swapped (flag f) (negated (flag p) (core_read (flag r) (renamed i (axis_j i p) (axis_k i p) m)))).
Proof.
  intros m ax i p r f H. unfold TransfModel.euler_from_matrix. rewrite H. set (j := axis_j i p). set (k := axis_k i p).
  unfold core_read, read_repeated, QuatModel.euler_from_matrix, renamed. mfields. destruct (flag r); destruct (Rlt_dec _ _); destruct (flag p); destruct (flag f); reflexivity.
Qed.
Lemma make_code : forall ax i p r f x y z, decode ax = Some (i, p, r, f) ->
  exists m, euler_matrix ax x y z = Some m /\ renamed i (axis_j i p) (axis_k i p) m = core_make (flag r) (negated (flag p) (swapped (flag f) (x, y, z))).
Proof.
  intros ax i p r f x y z H. destruct (decode_known _ _ H) as (s & I). apply table_known in I. unfold known in I. destruct I as (I & P & _).
  unfold euler_matrix. rewrite H.
  destruct i as [|[|[|i]]]; try lia; destruct p as [|[|p]]; try lia; destruct (flag r); destruct (flag f); (eexists; split; [reflexivity|]); unfold renamed, core_make, swapped, negated; cbv beta iota; unfold repeated; rewrite ?rotation_entries;
    flats; rewrite ?rotation_entries; first [reflexivity | f_equal; ring].
Qed.
Lemma renamed_get : forall i j k m a b, permutes i j k -> (a < 3)%nat -> (b < 3)%nat -> exists n, get m a b = entry (renamed i j k m) n /\ forall m', get m' a b = entry (renamed i j k m') n.
Proof.
  intros i j k m a b P A B.
  set (pos c := if Nat.eqb c i then 0%nat else if Nat.eqb c j then 1%nat else 2%nat). exists (3 * pos a + pos b)%nat.
  assert (forall m', get m' a b = entry (renamed i j k m') (3 * pos a + pos b)) as N; [|split; [apply N|exact N]]. intros m'. unfold pos. clear pos.
  assert (a = 0 \/ a = 1 \/ a = 2)%nat as A' by lia. assert (b = 0 \/ b = 1 \/ b = 2)%nat as B' by lia. clear A B.
  repeat (destruct P as [P|P]; [injection P as <- <- <-; destruct A' as [ -> | [ -> | -> ] ]; destruct B' as [ -> | [ -> | -> ] ]; reflexivity|]). destruct P.
Qed.
Lemma get_ext : forall a b, (forall i j, (i < 3)%nat -> (j < 3)%nat -> get a i j = get b i j) -> a = b.
Proof.
  intros [a b c d e f g h i] [a' b' c' d' e' f' g' h' i'] H.
  f_equal; [apply (H 0%nat 0%nat)|apply (H 0%nat 1%nat)|apply (H 0%nat 2%nat)|apply (H 1%nat 0%nat)|apply (H 1%nat 1%nat)|apply (H 1%nat 2%nat)|apply (H 2%nat 0%nat)|apply (H 2%nat 1%nat)|apply (H 2%nat 2%nat)]; lia.
Qed.
Lemma renamed_inj : forall i j k a b, permutes i j k -> renamed i j k a = renamed i j k b -> a = b.
Proof. intros i j k a b P E. apply get_ext. intros u v U V. destruct (renamed_get i j k a u v P U V) as (n & _ & N). rewrite (N a), (N b), E. reflexivity. Qed.
Lemma unadjust : forall p f t, negated p (swapped f (swapped f (negated p t))) = t.
Proof. intros [] [] [[x y] z]; cbn; rewrite ?Ropp_involutive; reflexivity. Qed.
Lemma core_near : forall r m, full m -> forall i, Rabs (entry (core_make r (core_read r m)) i - entry m i) <= 2 * eps.
Proof.
  intros [|] m F i; unfold core_make, core_read.
  - pose proof (repeated_near m F) as N. destruct (read_repeated m) as [[x y] z]. apply N.
  - pose proof (special_near m i (full_special m F)) as N. unfold remade in N. destruct (QuatModel.euler_from_matrix m) as [[x y] z]. exact N.
Qed.
Theorem C267_angles : forall m ax, is_rotation m -> (exists x y z, euler_matrix ax x y z <> None) ->
  exists x y z m', TransfModel.euler_from_matrix m ax = Some (x, y, z) /\ euler_matrix ax x y z = Some m' /\ near (2 * limit) m' m.
Proof.
  intros m ax RM (x0 & y0 & z0 & OK). unfold euler_matrix in OK. destruct (decode ax) as [[[[i p] r] f]|] eqn:D; [|congruence]. clear x0 y0 z0 OK.
  pose proof (read_code m ax i p r f (decode_both _ _ D)) as E. destruct (decode_known _ _ D) as (s & I). apply table_known in I. unfold known in I. destruct I as (I & P & _).
  pose proof (known_permutes i p I P) as PM. pose proof (core_near (flag r) _ (full_renamed _ _ _ m PM (rotation_full m RM))) as N.
  remember (swapped (flag f) (negated (flag p) (core_read (flag r) (renamed i (axis_j i p) (axis_k i p) m)))) as t eqn:T. destruct t as [[x y] z]. exists x, y, z.
  destruct (make_code ax i p r f x y z D) as (m' & M & R). exists m'. split; [exact E|]. split; [exact M|]. rewrite T, unadjust in R. rewrite <- R in N.
  intros a b A B. destruct (renamed_get _ _ _ m a b PM A B) as (n & _ & G). rewrite (G m'), (G m). apply N.
Qed.
(** ** Angles given back *)
Lemma turn_same : forall a b, cos a = cos b -> sin a = sin b -> - (2 * PI) < a - b < 2 * PI -> a = b.
Proof.
  intros a b C S B. assert (cos (a - b) = 1) as K. { rewrite cos_minus, C, S. pose proof (sin2_cos2 b) as T. unfold Rsqr in T. lra. }
  set (h := (a - b) / 2). replace (a - b) with (2 * h) in K by (unfold h; lra). rewrite cos_2a_sin in K. assert (sin h = 0) as Z by nra.
  assert (- PI < h < PI) as H by (unfold h; lra). destruct (Rtotal_order h 0) as [L|[E|L]]; [|unfold h in E; lra|].
  - pose proof (sin_gt_0 (- h) ltac:(lra) ltac:(lra)) as P. rewrite sin_neg in P. lra.
  - pose proof (sin_gt_0 h ltac:(lra) ltac:(lra)). lra.
Qed.
Lemma atan2_back : forall k t, 0 < k -> - PI < t < PI -> atan2 (k * sin t) (k * cos t) = t.
Proof.
  intros k t K T. destruct (atan2_dir (k * cos t) (k * sin t) k K) as [C S].
  { pose proof (sin2_cos2 t) as Q. unfold Rsqr in Q. replace (_ + _) with (k * k * (sin t * sin t + cos t * cos t)) by ring. rewrite Q. ring. }
  apply turn_same; [rewrite C; field; lra|rewrite S; field; lra|]. pose proof (atan2_range (k * sin t) (k * cos t)). lra.
Qed.
Definition letter_dec : forall a b : letter, {a = b} + {a <> b}. Proof. decide equality. Defined.
(** y follows x, z follows y and x follows z. *)
Definition follows (b a : letter) : Prop := match a, b with AX, AY | AY, AZ | AZ, AX => True | _, _ => False end.
(** How far from the attitudes where the first and the third turn are about the same line. *)
Definition gap (a c : letter) (y : R) : R := if letter_dec a c then Rabs (sin y) else Rabs (cos y).
Lemma name_code : forall f a b c, a <> b -> b <> c -> exists i p r fr, decode (Named (name f a b c)) = Some (i, p, r, fr) /\
  (flag r = if letter_dec a c then true else false) /\ (a = c -> follows b a -> flag p = false) /\ (a = c -> ~ follows b a -> flag p = true) /\ (i < 3)%nat /\ (p < 2)%nat.
Proof.
  intros f a b c A B. allnames f a b c; (do 4 eexists; split; [reflexivity|]); (split; [reflexivity|]); (split; [intros E; try discriminate E; cbn; tauto|]);
    (split; [intros E; try discriminate E; cbn; tauto|]); split; lia.
Qed.
Lemma rotation_is_full : forall x y z, full (rotation x y z).
Proof.
  intros x y z. rewrite rotation_entries. pose proof (sin2_cos2 x) as X. pose proof (sin2_cos2 y) as Y. pose proof (sin2_cos2 z) as Z. unfold Rsqr in *.
  assert (cos x * cos x = 1 - sin x * sin x) as X' by lra. assert (cos y * cos y = 1 - sin y * sin y) as Y' by lra. assert (cos z * cos z = 1 - sin z * sin z) as Z' by lra.
  unfold full. cbn [r00 r01 r02 r10 r11 r12 r20 r21 r22]. repeat split; ring [X' Y' Z'].
Qed.
Lemma repeated_is_full : forall x y z, full (repeated x y z).
Proof.
  intros x y z. unfold repeated. pose proof (sin2_cos2 x) as X. pose proof (sin2_cos2 y) as Y. pose proof (sin2_cos2 z) as Z. unfold Rsqr in *.
  assert (cos x * cos x = 1 - sin x * sin x) as X' by lra. assert (cos y * cos y = 1 - sin y * sin y) as Y' by lra. assert (cos z * cos z = 1 - sin z * sin z) as Z' by lra.
  unfold full. cbn [r00 r01 r02 r10 r11 r12 r20 r21 r22]. repeat split; ring [X' Y' Z'].
Qed.
Lemma core_is_full : forall r t, full (core_make r t).
Proof. intros [|] [[x y] z]; [apply repeated_is_full|apply rotation_is_full]. Qed.
(** Every matrix of angles is a rotation. *)
Theorem C267_rotation : forall ax x y z m, euler_matrix ax x y z = Some m -> is_rotation m.
Proof.
  intros ax x y z m E. unfold euler_matrix in E. destruct (decode ax) as [[[[i p] r] f]|] eqn:D; [|discriminate]. fold (euler_matrix ax x y z) in E.
  destruct (decode_known _ _ D) as (s & I). apply table_known in I. unfold known in I. destruct I as (I & P & _). destruct (make_code ax i p r f x y z D) as (m' & M & R).
  unfold euler_matrix in M. rewrite D in M. rewrite M in E. injection E as ->. clear M. apply full_rotation.
  pose proof (core_is_full (flag r) (negated (flag p) (swapped (flag f) (x, y, z)))) as F. rewrite <- R in F.
  destruct i as [|[|[|i]]]; try lia; destruct p as [|[|p]]; try lia; flats.
  - now destruct m.
  - apply (full_renamed 0 2 1) in F; [|unfold permutes; cbn; tauto]. now destruct m.
  - apply (full_renamed 2 0 1) in F; [|unfold permutes; cbn; tauto]. now destruct m.
  - apply (full_renamed 1 0 2) in F; [|unfold permutes; cbn; tauto]. now destruct m.
  - apply (full_renamed 1 2 0) in F; [|unfold permutes; cbn; tauto]. now destruct m.
  - apply (full_renamed 2 1 0) in F; [|unfold permutes; cbn; tauto]. now destruct m.
Qed.
Lemma cy_rotation : forall x y z, sqrt (r00 (rotation x y z) * r00 (rotation x y z) + r10 (rotation x y z) * r10 (rotation x y z)) = Rabs (cos y).
Proof.
  intros x y z. rewrite rotation_entries. cbn [r00 r10]. pose proof (sin2_cos2 z) as Z. unfold Rsqr in Z. replace (_ + _) with (cos y * cos y * (sin z * sin z + cos z * cos z)) by ring. rewrite Z, Rmult_1_r. apply sqrt_Rsqr_abs.
Qed.
Lemma sy_repeated : forall x y z, sqrt (r01 (repeated x y z) * r01 (repeated x y z) + r02 (repeated x y z) * r02 (repeated x y z)) = Rabs (sin y).
Proof.
  intros x y z. unfold repeated. cbn [r01 r02]. pose proof (sin2_cos2 x) as Z. unfold Rsqr in Z. replace (_ + _) with (sin y * sin y * (sin x * sin x + cos x * cos x)) by ring. rewrite Z, Rmult_1_r. apply sqrt_Rsqr_abs.
Qed.
Lemma core_exact : forall (r : bool) x y z, (let g := if r then Rabs (sin y) else Rabs (cos y) in g = 0 \/ eps < g) -> core_make r (core_read r (core_make r (x, y, z))) = core_make r (x, y, z).
Proof.
  intros [|] x y z G; unfold core_make, core_read; pose proof eps_pos.
  - pose proof (repeated_is_full x y z) as F. pose proof (sy_repeated x y z) as S. unfold read_repeated. rewrite S. destruct (Rlt_dec eps (Rabs (sin y))) as [L|L].
    + pose proof (repeated_exact _ F) as E. cbv zeta in E. rewrite S in E. symmetry. apply E. lra.
    + pose proof (repeated_gimbal _ F) as E. cbv zeta in E. rewrite S in E. symmetry. apply E. destruct G; lra.
  - pose proof (full_special _ (rotation_is_full x y z)) as F. pose proof (cy_rotation x y z) as S. unfold QuatModel.euler_from_matrix. rewrite S. destruct (Rlt_dec eps (Rabs (cos y))) as [L|L].
    + pose proof (special_rotation _ F) as E. cbv zeta in E. rewrite S in E. symmetry. apply E. lra.
    + pose proof (special_gimbal _ F) as E. cbv zeta in E. rewrite S in E. symmetry. apply E. destruct G; lra.
Qed.
Lemma gap_core : forall p f x y z, let '(_, y', _) := negated p (swapped f (x, y, z)) in Rabs (sin y') = Rabs (sin y) /\ Rabs (cos y') = Rabs (cos y).
Proof. intros [] [] x y z; cbn; rewrite ?sin_neg, ?cos_neg, ?Rabs_Ropp; auto. Qed.
Theorem C267_exact : forall f a b c x y z m, a <> b -> b <> c -> euler_matrix (Named (name f a b c)) x y z = Some m ->
  gap a c y = 0 \/ limit < gap a c y ->
  exists x' y' z', TransfModel.euler_from_matrix m (Named (name f a b c)) = Some (x', y', z') /\ euler_matrix (Named (name f a b c)) x' y' z' = Some m.
Proof.
  intros f a b c x y z m A B E G. destruct (name_code f a b c A B) as (i & p & r & fr & D & FR & _ & _ & I & P). set (ax := Named (name f a b c)) in *. clearbody ax.
  destruct (make_code ax i p r fr x y z D) as (m' & M & R). rewrite E in M. injection M as <-. pose proof (read_code m ax i p r fr (decode_both _ _ D)) as Q. rewrite R in Q.
  pose proof (gap_core (flag p) (flag fr) x y z) as GC. destruct (negated (flag p) (swapped (flag fr) (x, y, z))) as [[x1 y1] z1] eqn:T.
  assert (core_make (flag r) (core_read (flag r) (core_make (flag r) (x1, y1, z1))) = core_make (flag r) (x1, y1, z1)) as X.
  { apply core_exact. unfold gap in G. change eps with limit. rewrite FR. destruct GC as [G1 G2]. rewrite G1, G2. destruct (letter_dec a c); exact G. }
  destruct (swapped (flag fr) _) as [[x' y'] z'] eqn:T' in Q. exists x', y', z'. split; [exact Q|]. destruct (make_code ax i p r fr x' y' z' D) as (m' & M & R'). rewrite M. f_equal.
  apply (renamed_inj _ _ _ _ _ (known_permutes i p I P)). rewrite R', R, <- T', unadjust. exact X.
Qed.
Lemma core_back_plain : forall x y z, - PI < x < PI -> - PI < z < PI -> - (PI / 2) < y < PI / 2 -> eps < cos y -> QuatModel.euler_from_matrix (rotation x y z) = (x, y, z).
Proof.
  intros x y z X Z Y C. pose proof eps_pos. pose proof PI_RGT_0. unfold QuatModel.euler_from_matrix. rewrite (cy_rotation x y z), Rabs_pos_eq by lra. destruct (Rlt_dec eps (cos y)); [|lra].
  rewrite rotation_entries. cbn [r00 r10 r20 r21 r22]. f_equal; [f_equal|].
  - replace (sin x * cos y) with (cos y * sin x) by ring. replace (cos x * cos y) with (cos y * cos x) by ring. apply atan2_back; lra.
  - replace (- - sin y) with (1 * sin y) by ring. replace (cos y) with (1 * cos y) at 1 by ring. apply atan2_back; lra.
  - replace (cos y * sin z) with (cos y * sin z) by ring. apply atan2_back; lra.
Qed.
Lemma core_back_repeated : forall x y z, - PI < x < PI -> - PI < z < PI -> 0 < y < PI -> eps < sin y -> read_repeated (repeated x y z) = (x, y, z).
Proof.
  intros x y z X Z Y C. pose proof eps_pos. unfold read_repeated. rewrite (sy_repeated x y z), Rabs_pos_eq by lra. destruct (Rlt_dec eps (sin y)); [|lra].
  unfold repeated. cbn [r00 r01 r02 r10 r20]. f_equal; [f_equal|].
  - apply atan2_back; lra.
  - replace (sin y) with (1 * sin y) by ring. replace (cos y) with (1 * cos y) at 1 by ring. apply atan2_back; lra.
  - replace (- (- sin y * cos z)) with (sin y * cos z) by ring. apply atan2_back; lra.
Qed.
Theorem C267_same : forall f a b c x y z m, a <> b -> b <> c -> euler_matrix (Named (name f a b c)) x y z = Some m ->
  - PI < x < PI -> - PI < z < PI -> limit < gap a c y ->
  (a <> c -> - (PI / 2) < y < PI / 2) -> (a = c -> follows b a -> 0 < y < PI) -> (a = c -> ~ follows b a -> - PI < y < 0) ->
  TransfModel.euler_from_matrix m (Named (name f a b c)) = Some (x, y, z).
Proof.
  intros f a b c x y z m A B E X Z G Y1 Y2 Y3. destruct (name_code f a b c A B) as (i & p & r & fr & D & FR & FP & FQ & I & P). set (ax := Named (name f a b c)) in *. clearbody ax.
  destruct (make_code ax i p r fr x y z D) as (m' & M & R). rewrite E in M. injection M as <-. rewrite (read_code m ax i p r fr (decode_both _ _ D)), R. f_equal.
  assert (core_read (flag r) (core_make (flag r) (negated (flag p) (swapped (flag fr) (x, y, z)))) = negated (flag p) (swapped (flag fr) (x, y, z))) as ->.
  2:{ destruct (flag p), (flag fr); cbn; rewrite ?Ropp_involutive; reflexivity. }
  unfold gap in G. change eps with limit in *. rewrite FR. destruct (letter_dec a c) as [AC|AC].
  - assert (follows b a \/ ~ follows b a) as [W|W] by (destruct a, b; cbn; tauto).
    + rewrite (FP AC W). specialize (Y2 AC W). pose proof (sin_gt_0 y ltac:(lra) ltac:(lra)). rewrite Rabs_pos_eq in G by lra. unfold core_read, core_make. destruct (flag fr); cbn; apply core_back_repeated; assumption.
    + rewrite (FQ AC W). specialize (Y3 AC W). pose proof (sin_gt_0 (- y) ltac:(lra) ltac:(lra)) as S. assert (limit < sin (- y)) as G' by (rewrite sin_neg in *; rewrite Rabs_left in G by lra; exact G).
      unfold core_read, core_make. destruct (flag fr); cbn; apply core_back_repeated; try exact G'; lra.
  - specialize (Y1 AC). pose proof (cos_gt_0 y ltac:(lra) ltac:(lra)). rewrite Rabs_pos_eq in G by lra. unfold core_read, core_make. destruct (flag p), (flag fr); cbn; apply core_back_plain; rewrite ?cos_neg; try exact G; lra.
Qed.

(** ** Quaternions *)
Lemma matrix_unit : forall q, norm2 q = 1 -> quaternion_matrix q = mkmat
  (1 - 2 * (qy q * qy q + qz q * qz q)) (2 * (qx q * qy q - qz q * qw q)) (2 * (qx q * qz q + qy q * qw q))
  (2 * (qx q * qy q + qz q * qw q)) (1 - 2 * (qx q * qx q + qz q * qz q)) (2 * (qy q * qz q - qx q * qw q))
  (2 * (qx q * qz q - qy q * qw q)) (2 * (qy q * qz q + qx q * qw q)) (1 - 2 * (qx q * qx q + qy q * qy q)).
Proof. intros q N. rewrite matrix_homog by (rewrite N; pose proof eps_small; lra). rewrite N. f_equal; field. Qed.
Theorem C267_quaternion : forall ax x y z m, euler_matrix ax x y z = Some m ->
  exists q, quaternion_from_euler ax x y z = Some q /\ norm2 q = 1 /\ quaternion_matrix q = m.
Proof.
  intros ax x y z m E. pose proof E as E0. unfold euler_matrix in E0. destruct (decode ax) as [[[[i p] r] fr]|] eqn:D; [|discriminate]. clear E0.
  destruct (decode_known _ _ D) as (s & I). apply table_known in I. unfold known in I. destruct I as (I & P & _). pose proof (known_permutes i p I P) as PM.
  destruct (make_code ax i p r fr x y z D) as (m' & M & RN). rewrite E in M. injection M as <-. clear E. unfold quaternion_from_euler. rewrite (decode_both _ _ D).
  assert (exists a, x = 2 * a) as (a & ->) by (exists (x / 2); lra). assert (exists b, y = 2 * b) as (b & ->) by (exists (y / 2); lra). assert (exists c, z = 2 * c) as (c & ->) by (exists (z / 2); lra).
  assert (forall h, 2 * h / 2 = h) as H2 by (intros; field). assert (forall h, - (2 * h) / 2 = - h) as H3 by (intros; field).
  pose proof (sin2_cos2 a) as A. pose proof (sin2_cos2 b) as B. pose proof (sin2_cos2 c) as C. unfold Rsqr in *.
  assert (cos a * cos a = 1 - sin a * sin a) as A' by lra. assert (cos b * cos b = 1 - sin b * sin b) as B' by lra. assert (cos c * cos c = 1 - sin c * sin c) as C' by lra. clear A B C.
  destruct (flag fr); destruct (flag r); (destruct i as [|[|[|i]]]; [| | |lia]); (destruct p as [|[|p]]; [| |lia]); unfold flag; cbn [Nat.eqb negb];
    (eexists; split; [reflexivity|]); rewrite ?H2, ?H3;
    match goal with |- norm2 ?q = 1 /\ _ => assert (norm2 q = 1) as N by (unfold norm2; flats; rewrite ?sin_neg, ?cos_neg; ring [A' B' C']) end;
    (split; [exact N|]); rewrite (matrix_unit _ N); apply (renamed_inj _ _ _ _ _ PM); rewrite RN; clear N RN PM D;
    unfold core_make, negated, swapped, renamed; cbv beta iota; unfold repeated; flats; rewrite ?rotation_entries;
    rewrite ?sin_neg, ?cos_neg, ?sin_2a, ?cos_2a_sin; f_equal; ring [A' B' C'].
Qed.
