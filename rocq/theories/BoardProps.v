(** Property C225 and its refuted sibling C226: boards in images and images of the wrong size. *)
From Coq Require Import Permutation.
From Verif Require Import PyBase.
From Coq Require Import Qround Reals Lra.
From Verif Require Import CalibModel BoardModel.
Open Scope R_scope.

(** * Outside corners *)
(** The corners of a board row by row *)
Definition grid (b : board) (l : list point) (g : nat -> nat -> point) : Prop :=
  length l = (n_cols b * n_rows b)%nat /\ forall r c, (r < n_rows b)%nat -> (c < n_cols b)%nat -> nth (r * n_cols b + c) l origin = g r c.
Theorem C225_outside : forall b l g, (0 < n_cols b)%nat -> (0 < n_rows b)%nat -> grid b l g ->
  outside l b = Some (g 0%nat 0%nat, g 0%nat (n_cols b - 1)%nat, g (n_rows b - 1)%nat (n_cols b - 1)%nat, g (n_rows b - 1)%nat 0%nat) /\
  forall l', length l' <> (n_cols b * n_rows b)%nat -> outside l' b = None.
Proof.
  intros b l g C W [L G]. split; [|intros l' N; unfold outside; now rewrite (proj2 (Nat.eqb_neq _ _) N)]. unfold outside. rewrite L, Nat.eqb_refl.
  repeat f_equal; rewrite <- G by lia; f_equal; try reflexivity; try lia; destruct (n_rows b) as [|k]; try lia; rewrite ?Nat.sub_0_r; cbn [Nat.sub]; rewrite ?Nat.sub_0_r; lia.
Qed.
Print Assumptions C225_outside.

(** * Area *)
Definition cross (p q : point) : R := fst p * snd q - fst q * snd p.
(** The area of a quadrilateral by the shoelace formula *)
Definition shoelace (a b c d : point) : R := Rabs (cross a b + cross b c + cross c d + cross d a) / 2.
Lemma area_shoelace : forall l b ul ur dr dl, outside l b = Some (ul, ur, dr, dl) -> area l b = Some (shoelace ul ur dr dl).
Proof.
  intros l b ul ur dr dl E. unfold area. rewrite E. f_equal. unfold shoelace, minus, plus, cross. cbn [fst snd]. f_equal. rewrite <- Rabs_Ropp. f_equal. ring.
Qed.
Lemma Rabs_prod : forall a b w h, Rabs a <= w -> Rabs b <= h -> Rabs (a * b) <= w * h.
Proof. intros a b w h A B. rewrite Rabs_mult. apply Rmult_le_compat; try apply Rabs_pos; assumption. Qed.
(** The area is that of the quadrilateral of the outside corners: for a parallelogram the determinant of its sides.  It does
    not depend on the direction of the corners and does not exceed that of an upright rectangle around the board. *)
Theorem C225_area : forall b l g, (0 < n_cols b)%nat -> (0 < n_rows b)%nat -> grid b l g ->
  let ul := g 0%nat 0%nat in let ur := g 0%nat (n_cols b - 1)%nat in let dr := g (n_rows b - 1)%nat (n_cols b - 1)%nat in let dl := g (n_rows b - 1)%nat 0%nat in
  exists a, area l b = Some a /\ a = shoelace ul ur dr dl /\ 0 <= a /\
  (forall u v, ur = plus ul u -> dl = plus ul v -> dr = plus (plus ul u) v -> a = Rabs (cross u v)) /\
  area (rev l) b = Some a /\
  (forall x0 y0 w h, (forall p, In p l -> x0 <= fst p <= x0 + w /\ y0 <= snd p <= y0 + h) -> a <= w * h).
Proof.
  intros b l g C W G ul ur dr dl. destruct (C225_outside b l g C W G) as [O _]. fold ul ur dr dl in O. exists (shoelace ul ur dr dl). split; [now apply area_shoelace|]. split; [reflexivity|].
  split; [unfold shoelace; pose proof (Rabs_pos (cross ul ur + cross ur dr + cross dr dl + cross dl ul)); Lra.lra|]. split; [|split].
  - intros u v -> -> ->. unfold shoelace, cross, plus. cbn [fst snd]. match goal with |- Rabs ?x / 2 = Rabs ?y => replace x with (2 * y) by ring end. rewrite Rabs_mult, (Rabs_right 2) by Lra.lra. field.
  - destruct G as [L G]. assert (P : (0 < n_cols b * n_rows b)%nat) by now apply Nat.mul_pos_pos.
    assert (outside (rev l) b = Some (dr, dl, ul, ur)) as E.
    { assert (n_cols b <= n_cols b * n_rows b)%nat by (destruct (n_rows b); [lia|rewrite Nat.mul_succ_r; lia]).
      unfold outside. rewrite rev_length, L, Nat.eqb_refl. rewrite !rev_nth by (rewrite ?rev_length, ?L; lia). rewrite !L. unfold ul, ur, dr, dl. rewrite <- !G by lia.
      assert (((n_rows b - 1) * n_cols b = n_cols b * n_rows b - n_cols b)%nat) as K by (rewrite Nat.mul_sub_distr_r, Nat.mul_comm; lia). rewrite K. apply (f_equal Some). repeat apply (f_equal2 pair); apply (f_equal (fun k => nth k l origin)); lia. }
    rewrite (area_shoelace _ _ _ _ _ _ E). f_equal. unfold shoelace. f_equal. f_equal. ring.
  - intros x0 y0 w h B. destruct G as [L G]. assert (P : (0 < n_cols b * n_rows b)%nat) by now apply Nat.mul_pos_pos.
    assert (I : forall r c, (r < n_rows b)%nat -> (c < n_cols b)%nat -> x0 <= fst (g r c) <= x0 + w /\ y0 <= snd (g r c) <= y0 + h).
    { intros r c R1 C1. rewrite <- G by assumption. apply B, nth_In. rewrite L. apply Nat.lt_le_trans with (S r * n_cols b)%nat; [cbn; lia|]. rewrite Nat.mul_comm. apply Nat.mul_le_mono_l. lia. }
    assert (B1 := I 0%nat 0%nat ltac:(lia) ltac:(lia)). assert (B2 := I 0%nat (n_cols b - 1)%nat ltac:(lia) ltac:(lia)). assert (B3 := I (n_rows b - 1)%nat (n_cols b - 1)%nat ltac:(lia) ltac:(lia)). assert (B4 := I (n_rows b - 1)%nat 0%nat ltac:(lia) ltac:(lia)).
    fold ul in B1. fold ur in B2. fold dr in B3. fold dl in B4. unfold shoelace, cross.
    match goal with |- Rabs ?x / 2 <= _ => replace x with ((fst dr - fst ul) * (snd dl - snd ur) + - ((fst dl - fst ur) * (snd dr - snd ul))) by ring end.
    assert (A : forall x y z : R, z <= x <= z + w -> z <= y <= z + w -> Rabs (x - y) <= w) by (intros; apply Rabs_le; Lra.lra).
    assert (A' : forall x y z : R, z <= x <= z + h -> z <= y <= z + h -> Rabs (x - y) <= h) by (intros; apply Rabs_le; Lra.lra).
    pose proof (Rabs_triang ((fst dr - fst ul) * (snd dl - snd ur)) (- ((fst dl - fst ur) * (snd dr - snd ul)))) as T. rewrite Rabs_Ropp in T.
    assert (T1 := Rabs_prod (fst dr - fst ul) (snd dl - snd ur) w h (A _ _ x0 ltac:(apply B3) ltac:(apply B1)) (A' _ _ y0 ltac:(apply B4) ltac:(apply B2))).
    assert (T2 := Rabs_prod (fst dl - fst ur) (snd dr - snd ul) w h (A _ _ x0 ltac:(apply B4) ltac:(apply B2)) (A' _ _ y0 ltac:(apply B3) ltac:(apply B1))). Lra.lra.
Qed.
Print Assumptions C225_area.

(** * Skew *)
Lemma norm_pos : forall a b, a <> b -> 0 < norm (minus a b).
Proof.
  intros [x y] [x' y'] N. unfold norm, minus, dot. cbn [fst snd]. apply sqrt_lt_R0. pose proof (Rle_0_sqr (x - x')) as X. pose proof (Rle_0_sqr (y - y')) as Y. unfold Rsqr in *.
  destruct (Req_dec x x') as [->|D]; [|pose proof (Rlt_0_sqr (x - x') ltac:(Lra.lra)); unfold Rsqr in *; Lra.lra].
  destruct (Req_dec y y') as [->|D]; [now destruct N|pose proof (Rlt_0_sqr (y - y') ltac:(Lra.lra)); unfold Rsqr in *; Lra.lra].
Qed.
Lemma acos_half : forall x, acos x = PI / 2 -> x = 0.
Proof.
  intros x H. pose proof PI_RGT_0 as P. destruct (Rle_dec x (-1)) as [A|A]; [unfold acos in H; destruct (Rle_dec x (-1)); [Lra.lra|contradiction]|].
  destruct (Rle_dec 1 x) as [B|B]; [unfold acos in H; destruct (Rle_dec x (-1)); [contradiction|]; destruct (Rle_dec 1 x); [Lra.lra|contradiction]|].
  rewrite <- (cos_acos x) by Lra.lra. rewrite H. apply cos_PI2.
Qed.
(** The skew is twice the deviation of the corner between two sides from a right angle, in radians, but at most one. *)
Theorem C225_skew : forall b l ul ur dr dl, outside l b = Some (ul, ur, dr, dl) -> ul <> ur -> dr <> ur ->
  exists s, skew l b = Some s /\ 0 <= s <= 1 /\ (s = 0 <-> dot (minus ul ur) (minus dr ur) = 0) /\
  forall theta, 0 <= theta <= PI -> dot (minus ul ur) (minus dr ur) = norm (minus ul ur) * norm (minus dr ur) * cos theta -> s = Rmin 1 (2 * Rabs (PI / 2 - theta)).
Proof.
  intros b l ul ur dr dl O N1 N2. unfold skew. rewrite O. eexists. split; [reflexivity|]. pose proof (norm_pos _ _ N1) as P1. pose proof (norm_pos _ _ N2) as P2.
  split; [split; [apply Rmin_glb; [Lra.lra|pose proof (Rabs_pos (PI / 2 - angle ul ur dr)); Lra.lra]|apply Rmin_l]|]. split.
  - split.
    + intros H. assert (Rabs (PI / 2 - angle ul ur dr) = 0) as A by (unfold Rmin in H; destruct (Rle_dec _ _); Lra.lra).
      assert (angle ul ur dr = PI / 2) as E by (destruct (Req_dec (PI / 2 - angle ul ur dr) 0) as [K|K]; [Lra.lra|apply Rabs_no_R0 in K; contradiction]).
      apply acos_half in E. apply (f_equal (fun x => x * (norm (minus ul ur) * norm (minus dr ur)))) in E. unfold Rdiv in E. rewrite Rmult_assoc, Rinv_l, Rmult_1_r, Rmult_0_l in E; [exact E|]. apply Rgt_not_eq. now apply Rmult_lt_0_compat.
    + intros H. unfold angle. rewrite H. unfold Rdiv. rewrite Rmult_0_l, acos_0. unfold Rdiv. rewrite Rminus_diag_eq by reflexivity. rewrite Rabs_R0, Rmult_0_r. apply Rmin_right. Lra.lra.
  - intros theta T H. unfold angle. rewrite H. replace (norm (minus ul ur) * norm (minus dr ur) * cos theta / (norm (minus ul ur) * norm (minus dr ur))) with (cos theta) by (field; split; apply Rgt_not_eq; assumption).
    now rewrite acos_cos by exact T.
Qed.
Print Assumptions C225_skew.

(** * Parameters *)
Lemma clamp_range : forall x, 0 <= clamp x <= 1.
Proof. intros x. unfold clamp. split; [apply Rmin_glb; [Lra.lra|apply Rmax_l]|apply Rmin_l]. Qed.
Lemma clamp_mono : forall x y, x <= y -> clamp x <= clamp y.
Proof. intros x y H. unfold clamp. apply Rle_min_compat_l. now apply Rle_max_compat_l. Qed.
Lemma mean_shift : forall ps d, ps <> [] -> mean (map (fun x => x + d) ps) = mean ps + d.
Proof.
  intros ps d N. unfold mean. rewrite map_length. assert (S0 : sum (map (fun x => x + d) ps) = sum ps + INR (length ps) * d).
  { clear N. induction ps as [|x ps IH]; cbn [map sum fold_right length]; [cbn; ring|]. unfold sum in *. rewrite IH, S_INR. ring. }
  rewrite S0. field. apply not_0_INR. now destruct ps.
Qed.
Definition moved (dx dy : R) (p : point) : point := (fst p + dx, snd p + dy).
Lemma outside_moved : forall b l dx dy ul ur dr dl, (0 < n_cols b)%nat -> (0 < n_rows b)%nat -> outside l b = Some (ul, ur, dr, dl) ->
  outside (map (moved dx dy) l) b = Some (moved dx dy ul, moved dx dy ur, moved dx dy dr, moved dx dy dl).
Proof.
  intros b l dx dy ul ur dr dl C W. unfold outside. rewrite map_length. destruct (Nat.eqb_spec (length l) (n_cols b * n_rows b)) as [L|]; [|discriminate]. intros E. injection E as <- <- <- <-.
  assert (P : (0 < n_cols b * n_rows b)%nat) by now apply Nat.mul_pos_pos. assert (n_cols b <= n_cols b * n_rows b)%nat by (destruct (n_rows b); [lia|rewrite Nat.mul_succ_r; lia]).
  repeat f_equal; rewrite (nth_indep _ origin (moved dx dy origin)) by (rewrite map_length; lia); apply map_nth.
Qed.
(** Moving a board to the right or down does not lower its horizontal or vertical parameter, as long as it is smaller than the image, and changes neither
    size nor skew. *)
Theorem C225_move : forall b l width height dx dy px py size s, (0 < n_cols b)%nat -> (0 < n_rows b)%nat -> get_parameters l b width height = Some (px, py, size, s) -> 0 <= dx -> 0 <= dy ->
  (forall a, area l b = Some a -> sqrt a < width /\ sqrt a < height) -> exists px' py', get_parameters (map (moved dx dy) l) b width height = Some (px', py', size, s) /\ px <= px' /\ py <= py'.
Proof.
  intros b l width height dx dy px py size s C W H DX DY B. unfold get_parameters in *. unfold area, skew in *. destruct (outside l b) as [[[[ul ur] dr] dl]|] eqn:O; [|discriminate].
  rewrite (outside_moved b l dx dy ul ur dr dl C W O). assert (M : forall p q, minus (moved dx dy p) (moved dx dy q) = minus p q) by (intros p q; unfold minus, moved; cbn [fst snd]; f_equal; ring).
  unfold angle in *. rewrite !M. destruct (B _ eq_refl) as [B1 B2]. clear B. injection H as <- <- <- <-. eexists _, _. split; [reflexivity|].
  assert (N : l <> []) by (intros ->; unfold outside in O; cbn [length] in O; destruct (Nat.eqb_spec 0 (n_cols b * n_rows b)) as [K|]; [|discriminate]; pose proof (Nat.mul_pos_pos _ _ C W); lia).
  assert (E1 : map fst (map (moved dx dy) l) = map (fun x => x + dx) (map fst l)) by (rewrite !map_map; reflexivity).
  assert (E2 : map snd (map (moved dx dy) l) = map (fun x => x + dy) (map snd l)) by (rewrite !map_map; reflexivity).
  rewrite E1, E2. unfold place. rewrite !mean_shift by (destruct l; [contradiction|discriminate]).
  clear M. unfold plus, minus in *. cbn [fst snd] in *. split; apply clamp_mono; (apply Rmult_le_compat_r; [left; apply Rinv_0_lt_compat; Lra.lra|Lra.lra]).
Qed.
Print Assumptions C225_move.
(** The four parameters of a board within the image lie between 0 and 1; that of a board whose mean is in the middle and that is smaller
    than the image is one half. *)
Theorem C225_parameters : forall b l g width height, (0 < n_cols b)%nat -> (0 < n_rows b)%nat -> grid b l g -> g 0%nat 0%nat <> g 0%nat (n_cols b - 1)%nat -> g (n_rows b - 1)%nat (n_cols b - 1)%nat <> g 0%nat (n_cols b - 1)%nat ->
  0 < width -> 0 < height -> (forall p, In p l -> 0 <= fst p <= width /\ 0 <= snd p <= height) ->
  exists px py size s, get_parameters l b width height = Some (px, py, size, s) /\ 0 <= px <= 1 /\ 0 <= py <= 1 /\ 0 <= size <= 1 /\ 0 <= s <= 1 /\
  forall a, area l b = Some a -> size * size * (width * height) = a /\
    (sqrt a < width -> mean (map fst l) = width / 2 -> px = 1 / 2) /\ (sqrt a < height -> mean (map snd l) = height / 2 -> py = 1 / 2).
Proof.
  intros b l g width height C W G N1 N2 PW PH B. destruct (C225_area b l g C W G) as (a & A & _ & A0 & _ & _ & A1). destruct (C225_outside b l g C W G) as [O _].
  destruct (C225_skew _ _ _ _ _ _ O N1 N2) as (s & S0 & S1 & _). unfold get_parameters. rewrite A, S0. assert (P : 0 < width * height) by now apply Rmult_lt_0_compat.
  eexists _, _, _, _. split; [reflexivity|]. split; [apply clamp_range|]. split; [apply clamp_range|].
  assert (AB : a <= width * height) by (apply (A1 0 0); intros p I; destruct (B p I); Lra.lra).
  assert (Q0 : 0 <= a / (width * height)) by (apply Rmult_le_pos; [exact A0|left; now apply Rinv_0_lt_compat]).
  split; [split; [apply sqrt_pos|rewrite <- sqrt_1; apply sqrt_le_1_alt; apply Rmult_le_reg_r with (width * height); [exact P|]; unfold Rdiv; rewrite Rmult_assoc, Rinv_l by (apply Rgt_not_eq; exact P); Lra.lra]|].
  split; [exact S1|]. intros a' E. injection E as <-. split; [rewrite sqrt_sqrt by exact Q0; field; split; apply Rgt_not_eq; assumption|].
  assert (K : forall m, sqrt a < m -> place [m / 2] m (sqrt a) = 1 / 2 /\ clamp ((m / 2 - sqrt a / 2) / (m - sqrt a)) = 1 / 2).
  { intros m M. assert ((m / 2 - sqrt a / 2) / (m - sqrt a) = 1 / 2) as E by (field; apply Rgt_not_eq; Lra.lra). assert (clamp (1 / 2) = 1 / 2) as E' by (unfold clamp; rewrite Rmax_right by Lra.lra; apply Rmin_right; Lra.lra).
    split; [unfold place, mean, sum; cbn [fold_right length INR]; replace ((m / 2 + 0) / 1) with (m / 2) by field|]; rewrite E; exact E'. }
  split; intros M E; unfold place; rewrite E; now apply K.
Qed.
Print Assumptions C225_parameters.

(** * Order of the corners *)
Lemma ltb_true : forall a b, ltb a b = true <-> a < b.
Proof. intros a b. unfold ltb. destruct (Rlt_dec a b); split; try easy. Qed.
Lemma leb_true : forall a b, leb a b = true <-> a <= b.
Proof. intros a b. unfold leb. destruct (Rle_dec a b); split; try easy. Qed.
Lemma leb_false : forall a b, leb a b = false <-> b < a.
Proof. intros a b. unfold leb. destruct (Rle_dec a b); split; try easy; Lra.lra. Qed.
Definition first (l : list point) : point := nth 0 l origin.
Definition final (l : list point) : point := nth (length l - 1) l origin.
Lemma rev_ends : forall l, l <> [] -> first (rev l) = final l /\ final (rev l) = first l.
Proof.
  intros l N. assert (0 < length l)%nat by (destruct l; [contradiction|cbn; lia]). unfold first, final. rewrite rev_length, !rev_nth by lia. split; f_equal; lia.
Qed.
Definition turn (n k : nat) : nat := (k mod n * n + (n - 1 - k / n))%nat.
Definition turn3 (n k : nat) : nat := ((n - 1 - k mod n) * n + k / n)%nat.
Lemma digits : forall n a b c d, (b < n)%nat -> (d < n)%nat -> (a * n + b = c * n + d)%nat -> a = c /\ b = d.
Proof. intros n a b c d B D E. assert (a = c) by nia. subst. lia. Qed.
Lemma digit_lt : forall n a b, (a < n)%nat -> (b < n)%nat -> (a * n + b < n * n)%nat.
Proof. intros. nia. Qed.
Lemma div_lt : forall n k, (k < n * n)%nat -> (k / n < n)%nat /\ (k mod n < n)%nat /\ k = (k / n * n + k mod n)%nat.
Proof. intros n k K. assert (n <> 0)%nat by (intros ->; cbn in K; lia). split; [now apply Nat.div_lt_upper_bound|]. split; [now apply Nat.mod_upper_bound|]. rewrite (Nat.div_mod k n) at 1 by assumption. lia. Qed.
Lemma index_perm : forall n l f, length l = (n * n)%nat -> FinFun.bFun (n * n) f -> FinFun.bInjective (n * n) f -> Permutation l (map (fun k => nth (f k) l origin) (seq 0 (n * n))).
Proof.
  intros n l f L B I. apply (Permutation_nth _ _ origin). rewrite map_length, seq_length. split; [now symmetry|]. exists f. rewrite L. split; [exact B|]. split; [exact I|].
  intros x X. rewrite (nth_indep _ origin (nth (f 0%nat) l origin)) by (rewrite map_length, seq_length; exact X). rewrite (map_nth (fun k => nth (f k) l origin)). now rewrite seq_nth by exact X.
Qed.
Lemma turn_nth : forall n f l k, (k < n * n)%nat -> nth k (map (fun k => nth (f k) l origin) (seq 0 (n * n))) origin = nth (f k) l origin.
Proof. intros n f l k K. rewrite (nth_indep _ origin (nth (f 0%nat) l origin)) by (rewrite map_length, seq_length; exact K). rewrite (map_nth (fun k => nth (f k) l origin)). now rewrite seq_nth by exact K. Qed.
Lemma rot90_perm : forall n l, length l = (n * n)%nat -> Permutation l (rot90 n l).
Proof.
  intros n l L. apply (index_perm n l (turn n) L).
  - intros k K. destruct (div_lt n k K) as (A & B & _). unfold turn. apply digit_lt; lia.
  - intros x y X Y E. destruct (div_lt n x X) as (A & B & Ex). destruct (div_lt n y Y) as (A' & B' & Ey). unfold turn in E. apply digits in E; [|lia|lia]. destruct E as [E1 E2]. rewrite Ex, Ey, E1. f_equal. f_equal. lia.
Qed.
Lemma rot270_perm : forall n l, length l = (n * n)%nat -> Permutation l (rot270 n l).
Proof.
  intros n l L. apply (index_perm n l (turn3 n) L).
  - intros k K. destruct (div_lt n k K) as (A & B & _). unfold turn3. apply digit_lt; lia.
  - intros x y X Y E. destruct (div_lt n x X) as (A & B & Ex). destruct (div_lt n y Y) as (A' & B' & Ey). unfold turn3 in E. apply digits in E; [|lia|lia]. destruct E as [E1 E2]. rewrite Ex, Ey, E2. f_equal. lia.
Qed.
Lemma sq_last : forall n, (0 < n)%nat -> ((n * n - 1) mod n = n - 1 /\ (n * n - 1) / n = n - 1)%nat.
Proof.
  intros n N. assert (n * n - 1 = (n - 1) + (n - 1) * n)%nat as -> by nia. rewrite Nat.mod_add, Nat.div_add by lia. rewrite Nat.mod_small, Nat.div_small by lia. lia.
Qed.
Lemma rot90_ends : forall n l, (0 < n)%nat -> first (rot90 n l) = nth (n - 1) l origin /\ final (rot90 n l) = nth (n * n - n) l origin.
Proof.
  intros n l N. assert (P : (0 < n * n)%nat) by nia. unfold first, final. assert (length (rot90 n l) = n * n)%nat as -> by (unfold rot90; now rewrite map_length, seq_length). split.
  - unfold rot90. rewrite (turn_nth n (turn n)) by exact P. unfold turn. rewrite Nat.mod_0_l, Nat.div_0_l by lia. f_equal. lia.
  - unfold rot90. rewrite (turn_nth n (turn n)) by lia. unfold turn. destruct (sq_last n N) as [-> ->]. f_equal. nia.
Qed.
Lemma rot270_ends : forall n l, (0 < n)%nat -> first (rot270 n l) = nth (n * n - n) l origin /\ final (rot270 n l) = nth (n - 1) l origin.
Proof.
  intros n l N. assert (P : (0 < n * n)%nat) by nia. unfold first, final. assert (length (rot270 n l) = n * n)%nat as -> by (unfold rot270; now rewrite map_length, seq_length). split.
  - unfold rot270. rewrite (turn_nth n (turn3 n)) by exact P. unfold turn3. rewrite Nat.mod_0_l, Nat.div_0_l by lia. f_equal. nia.
  - unfold rot270. rewrite (turn_nth n (turn3 n)) by lia. unfold turn3. destruct (sq_last n N) as [-> ->]. f_equal. nia.
Qed.
(** A detection is kept if all corners are more than eight pixels inside; nothing but the order of the corners changes.  Those of a board
    with different numbers of rows and columns then go from top to bottom. *)
Theorem C225_corners : forall find subpix w h b l, (0 < n_cols b)%nat -> (0 < n_rows b)%nat -> find (n_cols b, n_rows b) = Some l -> length l = (n_cols b * n_rows b)%nat ->
  exists ok l', get_corners find subpix false w h b = Some (ok, l') /\ Permutation l l' /\
  (ok = true <-> forall p, In p l -> 8 < fst p < w - 8 /\ 8 < snd p < h - 8) /\
  (n_cols b <> n_rows b -> (l' = l \/ l' = rev l) /\ snd (first l') <= snd (final l')).
Proof.
  intros find subpix w h b l C W F L. assert (P : (0 < n_cols b * n_rows b)%nat) by now apply Nat.mul_pos_pos. unfold get_corners. rewrite F. cbn [andb]. eexists _, _. split; [reflexivity|].
  assert (NE : l <> []) by (intros ->; cbn in L; lia). destruct (rev_ends l NE) as [E1 E2]. split; [|split].
  - unfold oriented. destruct (Nat.eqb_spec (n_rows b) (n_cols b)) as [Q|Q].
    + rewrite Q in L. destruct (leb 0 _), (leb 0 _); cbn [andb orb negb]; [reflexivity|now apply rot90_perm|now apply rot270_perm|apply Permutation_rev].
    + destruct (ltb _ _); [apply Permutation_rev|reflexivity].
  - rewrite forallb_forall. assert (I : forall p, inside w h p = true <-> 8 < fst p < w - 8 /\ 8 < snd p < h - 8) by (intros p; unfold inside; rewrite !Bool.andb_true_iff, !ltb_true; tauto).
    split; intros H p IP; apply I; now apply H.
  - intros Q. unfold oriented. destruct (Nat.eqb_spec (n_rows b) (n_cols b)) as [K|_]; [congruence|]. fold (first l) (final l). destruct (ltb (snd (final l)) (snd (first l))) eqn:E.
    + apply ltb_true in E. split; [now right|]. rewrite E1, E2. Lra.lra.
    + split; [now left|]. apply Rnot_lt_le. intros K. apply ltb_true in K. congruence.
Qed.
Print Assumptions C225_corners.
(** A square board seen as a square, turned in any way but not mirrored, gets its corners from top left to bottom right. *)
Theorem C225_square : forall b l x y u v, (1 < n_cols b)%nat -> n_rows b = n_cols b -> grid b l (fun r c => (x + INR c * u - INR r * v, y + INR c * v + INR r * u)) ->
  fst (first (oriented b l)) <= fst (final (oriented b l)) /\ snd (first (oriented b l)) <= snd (final (oriented b l)).
Proof.
  intros b l x y u v C Q [L G]. set (n := n_cols b) in *. rewrite Q in *. fold n in L. assert (PN : (0 < n * n)%nat) by nia.
  assert (F : first l = (x, y)) by (unfold first; change (nth 0 l origin) with (nth (0 * n + 0)%nat l origin); rewrite (G 0%nat 0%nat) by lia; cbn [INR]; f_equal; ring).
  set (m := INR (n - 1)). assert (M : 0 < m) by (apply lt_0_INR; lia).
  assert (D : final l = (x + m * u - m * v, y + m * v + m * u)) by (unfold final; rewrite L; replace (n * n - 1)%nat with ((n - 1) * n + (n - 1))%nat by nia; now rewrite G by lia).
  assert (U : nth (n - 1) l origin = (x + m * u, y + m * v)) by (change (nth (n - 1)%nat l origin) with (nth (0 * n + (n - 1))%nat l origin); rewrite (G 0%nat (n - 1)%nat) by lia; cbn [INR]; fold m; f_equal; ring).
  assert (B : nth (n * n - n) l origin = (x - m * v, y + m * u)) by (replace (n * n - n)%nat with ((n - 1) * n + 0)%nat by nia; rewrite (G (n - 1)%nat 0%nat) by lia; cbn [INR]; fold m; f_equal; ring).
  assert (NE : l <> []) by (intros ->; cbn in L; lia). destruct (rev_ends l NE) as [E1 E2]. destruct (rot90_ends n l ltac:(lia)) as [R1 R2]. destruct (rot270_ends n l ltac:(lia)) as [T1 T2].
  unfold oriented. rewrite Q, Nat.eqb_refl. fold n. fold (first l) (final l). rewrite F, D. cbn [fst snd].
  destruct (leb 0 (x + m * u - m * v - x)) eqn:DX; destruct (leb 0 (y + m * v + m * u - y)) eqn:DY; cbn [andb orb negb];
    (apply leb_true in DX || apply leb_false in DX); (apply leb_true in DY || apply leb_false in DY); rewrite ?R1, ?R2, ?T1, ?T2, ?E1, ?E2, ?F, ?D, ?U, ?B; cbn [fst snd]; Lra.lra.
Qed.
Print Assumptions C225_square.

(** * Search radius *)
Definition neighbours (b : board) (i j : nat) : Prop :=
  exists r c, (r < n_rows b)%nat /\ (c < n_cols b)%nat /\ i = (r * n_cols b + c)%nat /\
  (j = i + 1 /\ (c + 1 < n_cols b) \/ j = i + n_cols b /\ (r + 1 < n_rows b))%nat.
Lemma pairs_in : forall b i j, In (i, j) (pairs b) <-> exists r c, (i = r * n_rows b + c /\ (j = i + 1 /\ r < n_rows b /\ c < n_cols b - 1 \/ j = i + n_cols b /\ r < n_rows b - 1 /\ c < n_cols b))%nat.
Proof.
  intros b i j. unfold pairs. rewrite in_app_iff, !in_flat_map. split.
  - intros [(r & R0 & H)|(r & R0 & H)]; apply in_map_iff in H; destruct H as (c & E & H); injection E as <- <-; apply in_seq in R0, H; exists r, c; (split; [reflexivity|]); [left|right]; (split; [reflexivity|lia]).
  - intros (r & c & -> & [(-> & R0 & H)|(-> & R0 & H)]); [left|right]; exists r; (split; [apply in_seq; lia|]); apply in_map_iff; exists c; (split; [reflexivity|apply in_seq; lia]).
Qed.
Lemma shortest_least : forall l ps best, (forall i j, In (i, j) ps -> (i < length l)%nat /\ (j < length l)%nat) ->
  exists d, shortest l ps best = Some d /\ (ps <> [] \/ best <> None -> exists m, d = Some m /\ (forall i j, In (i, j) ps -> m <= pdist (nth i l origin) (nth j l origin)) /\ (forall x, best = Some x -> m <= x) /\
    ((exists i j, In (i, j) ps /\ m = pdist (nth i l origin) (nth j l origin)) \/ best = Some m)).
Proof.
  intros l. induction ps as [|[i j] ps IH]; intros best H.
  - exists best. split; [reflexivity|]. intros [K|K]; [contradiction|]. destruct best as [m|]; [|contradiction]. exists m. split; [reflexivity|]. split; [intros ? ? []|]. split; [intros x E; injection E as <-; Lra.lra|now right].
  - destruct (H i j (or_introl eq_refl)) as [I J]. cbn [shortest]. rewrite (nth_error_nth' l origin I), (nth_error_nth' l origin J). set (p := pdist _ _).
    destruct (IH (Some (match best with None => p | Some d => Rmin d p end)) (fun i' j' K => H i' j' (or_intror K))) as (d & E & S0). exists d. split; [exact E|]. intros _.
    destruct S0 as (m & -> & S1 & S2 & S3); [right; discriminate|]. exists m. split; [reflexivity|]. specialize (S2 _ eq_refl).
    assert (P1 : m <= p) by (destruct best; [pose proof (Rmin_r r p); Lra.lra|exact S2]). split; [|split].
    + intros i' j' [K|K]; [injection K as <- <-; exact P1|now apply S1].
    + intros x ->. pose proof (Rmin_l x p). Lra.lra.
    + destruct S3 as [(i' & j' & K & M)|M]; [left; exists i', j'; split; [now right|exact M]|]. injection M as M. destruct best as [x|]; [|left; exists i, j; split; [now left|now rewrite <- M]].
      unfold Rmin in M. destruct (Rle_dec x p); [right; now rewrite M|left; exists i, j; split; [now left|now rewrite <- M]].
Qed.
Lemma ceil_spec : forall x, IZR (ceil x) - 1 < x <= IZR (ceil x).
Proof. intros x. unfold ceil. rewrite opp_IZR. destruct (base_Int_part (- x)). Lra.lra. Qed.
(** The radius is found for every chessboard of at least two columns and corners; for a square board it is half the least distance between neighbours, rounded up. *)
Theorem C225_radius : forall b l, (n_rows b <= n_cols b)%nat -> (1 < n_cols b)%nat -> (0 < n_rows b)%nat -> length l = (n_cols b * n_rows b)%nat -> exists r, radius b l = Some r /\
  (n_rows b = n_cols b -> exists m, IZR r - 1 < m / 2 <= IZR r /\ (forall i j, neighbours b i j -> m <= pdist (nth i l origin) (nth j l origin)) /\
    exists i j, neighbours b i j /\ m = pdist (nth i l origin) (nth j l origin)).
Proof.
  intros b l RC C W L. destruct (shortest_least l (pairs b) None) as (d & E & S0).
  { intros i j K. apply pairs_in in K. destruct K as (r & c & -> & [(-> & R0 & H)|(-> & R0 & H)]); rewrite L; nia. }
  destruct S0 as (m & -> & S1 & _ & S3); [left; intros K; assert (In (0, 1)%nat (pairs b)) as I by (apply pairs_in; exists 0%nat, 0%nat; split; [reflexivity|left; lia]); rewrite K in I; destruct I|].
  unfold radius. rewrite E. exists (ceil (m * (1 / 2))). split; [reflexivity|]. intros SQ. exists m. pose proof (ceil_spec (m * (1 / 2))) as K. split; [Lra.lra|].
  assert (N : forall i j, In (i, j) (pairs b) <-> neighbours b i j).
  { intros i j. rewrite pairs_in. unfold neighbours. rewrite SQ. split; intros (r & c & H); exists r, c; lia. }
  split; [intros i j I; apply S1; now apply N|]. destruct S3 as [(i & j & I & M)|M]; [|discriminate]. exists i, j. split; [now apply N|exact M].
Qed.
Print Assumptions C225_radius.

(** * Boards and points *)
Theorem C225_boards : forall b p, (n_cols (board_of p b) * n_rows (board_of p b) = n_cols b * n_rows b)%nat /\ dim (board_of p b) = dim b /\
  (p = Chessboard -> (n_rows (board_of p b) <= n_cols (board_of p b))%nat) /\ (p = ACircles -> (n_cols (board_of p b) <= n_rows (board_of p b))%nat) /\
  (p <> Circles -> board_of p (mkboard (n_rows b) (n_cols b) (dim b)) = board_of p b) /\ board_of p (board_of p b) = board_of p b.
Proof.
  intros [c r d] p. destruct p; cbn [board_of n_cols n_rows dim]; repeat split; try discriminate; try contradiction; intros; try lia; try (f_equal; lia).
Qed.
Print Assumptions C225_boards.
Lemma flat_nth : forall {A} (f : nat -> nat -> A) d m k i j, (i < k)%nat -> (j < m)%nat -> forall s, nth (i * m + j) (flat_map (fun i => map (f i) (seq 0 m)) (seq s k)) d = f (s + i)%nat j.
Proof.
  intros A f d m. induction k as [|k IH]; intros i j I J s; [lia|]. cbn [seq flat_map]. destruct i as [|i].
  - rewrite app_nth1 by (rewrite map_length, seq_length; lia). rewrite (nth_indep _ d (f s 0%nat)) by (rewrite map_length, seq_length; lia). rewrite map_nth, seq_nth by lia. f_equal. lia.
  - rewrite app_nth2 by (rewrite map_length, seq_length; nia). rewrite map_length, seq_length. replace (S i * m + j - m)%nat with (i * m + j)%nat by nia. rewrite IH by lia. f_equal. lia.
Qed.
Lemma flat_length : forall {A} (f : nat -> nat -> A) m k s, length (flat_map (fun i => map (f i) (seq 0 m)) (seq s k)) = (k * m)%nat.
Proof. intros A f m. induction k as [|k IH]; intros s; [reflexivity|]. cbn [seq flat_map]. rewrite app_length, IH, map_length, seq_length. reflexivity. Qed.
(** The points of the board, row by row: spaced evenly in a plane, the odd rows of asymmetric circles moved by half a spacing.  No two
    coincide. *)
Theorem C225_points : forall p b, length (object_points p b) = (n_rows b * n_cols b)%nat /\ (forall i j, (i < n_rows b)%nat -> (j < n_cols b)%nat ->
  nth (i * n_cols b + j) (object_points p b) (0, 0, 0) =
    match p with ACircles => ((2 * INR j + INR (if Nat.even i then 0 else 1)) * dim b, INR i * dim b, 0) | _ => (INR j * dim b, INR i * dim b, 0) end) /\ (0 < dim b -> NoDup (object_points p b)).
Proof.
  intros p b. assert (L : length (object_points p b) = (n_rows b * n_cols b)%nat).
  { unfold object_points. apply flat_length. }
  assert (K : forall i j, (i < n_rows b)%nat -> (j < n_cols b)%nat -> nth (i * n_cols b + j) (object_points p b) (0, 0, 0) =
    match p with ACircles => ((2 * INR j + INR (if Nat.even i then 0 else 1)) * dim b, INR i * dim b, 0) | _ => (INR j * dim b, INR i * dim b, 0) end).
  { intros i j I J. unfold object_points. rewrite (flat_nth (fun i j => (match p with ACircles => INR (2 * j + i mod 2) * dim b | _ => INR j * dim b end, INR i * dim b, 0))) by assumption. rewrite Nat.add_0_l.
    destruct p; try reflexivity. rewrite plus_INR, mult_INR. repeat f_equal. rewrite <- Nat.bit0_mod, Nat.bit0_odd, <- Nat.negb_even. destruct (Nat.even i); reflexivity. }
  split; [exact L|]. split; [exact K|]. intros D. apply (NoDup_nth _ (0, 0, 0)). intros x y X Y E. rewrite L in X, Y.
  assert (C : (n_cols b <> 0)%nat) by nia.
  assert (DX : (x / n_cols b < n_rows b)%nat) by (apply Nat.div_lt_upper_bound; lia). assert (DY : (y / n_cols b < n_rows b)%nat) by (apply Nat.div_lt_upper_bound; lia).
  assert (MX := Nat.mod_upper_bound x (n_cols b) C). assert (MY := Nat.mod_upper_bound y (n_cols b) C).
  assert (EX : x = (x / n_cols b * n_cols b + x mod n_cols b)%nat) by (rewrite (Nat.div_mod x (n_cols b) C) at 1; lia). assert (EY : y = (y / n_cols b * n_cols b + y mod n_cols b)%nat) by (rewrite (Nat.div_mod y (n_cols b) C) at 1; lia).
  rewrite EX, EY in E. rewrite !K in E by assumption. rewrite EX, EY.
  assert (R0 : forall i i', INR i * dim b = INR i' * dim b -> i = i') by (intros i i' H; apply INR_eq; apply Rmult_eq_reg_r in H; [exact H|Lra.lra]).
  destruct p; injection E as E1 E2; apply R0 in E2; rewrite E2 in *; f_equal; try (now apply R0).
  apply INR_eq. apply Rmult_eq_reg_r in E1; [|Lra.lra]. Lra.lra.
Qed.
Print Assumptions C225_points.

(** * Padding *)
Open Scope Z_scope.
Lemma floor_half : forall n d : Z, 0 < d -> forall q, (q == inject_Z n / inject_Z d)%Q -> 0 <= n -> let f := Qfloor q in 0 <= f /\ f * d <= n < (f + 1) * d.
Proof.
  intros n d D q E N f. assert (DQ : (0 < inject_Z d)%Q) by (change 0%Q with (inject_Z 0); rewrite <- Zlt_Qlt; exact D).
  assert (F1 := Qfloor_le q). assert (F2 := Qlt_floor q). fold f in F1, F2. rewrite E in F1, F2.
  apply (Qmult_le_compat_r _ _ (inject_Z d)) in F1; [|now apply Qlt_le_weak]. apply (Qmult_lt_compat_r _ _ (inject_Z d) DQ) in F2.
  assert (X : (inject_Z n / inject_Z d * inject_Z d == inject_Z n)%Q) by (field; intros K; rewrite K in DQ; discriminate).
  rewrite X in F1, F2. rewrite <- inject_Z_mult in F1, F2. rewrite <- Zle_Qle in F1. rewrite <- Zlt_Qlt in F2. split; [|lia]. nia.
Qed.
Lemma ratio_lt : forall a b c d, 0 < b -> 0 < d -> Qltb (inject_Z a / inject_Z b) (inject_Z c / inject_Z d) = true <-> a * d < c * b.
Proof.
  intros a b c d B D. rewrite Qltb_lt. assert (BQ : (0 < inject_Z b)%Q) by (change 0%Q with (inject_Z 0); now rewrite <- Zlt_Qlt). assert (DQ : (0 < inject_Z d)%Q) by (change 0%Q with (inject_Z 0); now rewrite <- Zlt_Qlt).
  assert (BN : ~ (inject_Z b == 0)%Q) by (intros K; rewrite K in BQ; discriminate). assert (DN : ~ (inject_Z d == 0)%Q) by (intros K; rewrite K in DQ; discriminate).
  rewrite Zlt_Qlt, !inject_Z_mult. rewrite <- (Qmult_lt_r _ _ (inject_Z b * inject_Z d)) by (rewrite <- inject_Z_mult; change 0%Q with (inject_Z 0); rewrite <- Zlt_Qlt; now apply Z.mul_pos_pos).
  assert ((inject_Z a / inject_Z b * (inject_Z b * inject_Z d) == inject_Z a * inject_Z d)%Q) as -> by (field; exact BN).
  assert ((inject_Z c / inject_Z d * (inject_Z b * inject_Z d) == inject_Z c * inject_Z b)%Q) as -> by (field; exact DN). reflexivity.
Qed.
(** An image is padded along one axis, as much on either side, to the proportions of the requested size up to less than two pixels, and
    then has the requested height; it has the requested size if it was scaled, or was in proportion. *)
Theorem C225_padding : forall width height ow oh, 0 < width -> 0 < height -> 0 < ow -> 0 < oh -> exists v h, padding width height ow oh = (v, h) /\ 0 <= v /\ 0 <= h /\ (v = 0 \/ h = 0) /\
  (height * ow > width * oh -> h = 0 /\ width * (oh + 2 * v) <= height * ow < width * (oh + 2 * v + 2)) /\
  (height * ow < width * oh -> v = 0 /\ height * (ow + 2 * h) <= width * oh < height * (ow + 2 * h + 2)) /\
  (height * ow = width * oh -> v = 0 /\ h = 0) /\
  snd (resized width height ow oh) = height /\ (oh + 2 * v = height -> fst (resized width height ow oh) = ow + 2 * h) /\ (oh + 2 * v <> height \/ height * ow = width * oh -> resized width height ow oh = (width, height)).
Proof.
  intros width height ow oh W H OW OH. assert (exists v h, padding width height ow oh = (v, h) /\ 0 <= v /\ 0 <= h /\ (v = 0 \/ h = 0) /\
    (height * ow > width * oh -> h = 0 /\ width * (oh + 2 * v) <= height * ow < width * (oh + 2 * v + 2)) /\ (height * ow < width * oh -> v = 0 /\ height * (ow + 2 * h) <= width * oh < height * (ow + 2 * h + 2)) /\ (height * ow = width * oh -> v = 0 /\ h = 0)) as (v & h & E & K).
  { unfold padding. set (ar := (inject_Z width / inject_Z height)%Q). set (oar := (inject_Z ow / inject_Z oh)%Q).
    assert (WN : ~ (inject_Z width == 0)%Q) by (intros K; change 0%Q with (inject_Z 0) in K; apply (proj1 (inject_Z_injective _ _)) in K; lia).
    assert (HN : ~ (inject_Z height == 0)%Q) by (intros K; change 0%Q with (inject_Z 0) in K; apply (proj1 (inject_Z_injective _ _)) in K; lia).
    assert (Z2 : (inject_Z 2 == 2)%Q) by reflexivity.
    destruct (Qltb ar oar) eqn:A.
    - apply ratio_lt in A; try assumption. eexists _, _. split; [reflexivity|].
      destruct (floor_half (ow * height - oh * width) (2 * width) ltac:(lia) ((inject_Z ow / ar - inject_Z oh) / 2)%Q) as [F1 F2]; [|lia|].
      { unfold ar. unfold Z.sub. rewrite inject_Z_plus, inject_Z_opp, !inject_Z_mult, Z2. field. split; assumption. }
      set (f := Qfloor _) in *. repeat split; try lia; nia.
    - destruct (Qltb oar ar) eqn:B.
      + apply ratio_lt in B; try assumption. eexists _, _. split; [reflexivity|].
        destruct (floor_half (oh * width - ow * height) (2 * height) ltac:(lia) ((ar * inject_Z oh - inject_Z ow) / 2)%Q) as [F1 F2]; [|lia|].
        { unfold ar. unfold Z.sub. rewrite inject_Z_plus, inject_Z_opp, !inject_Z_mult, Z2. field. assumption. }
        set (f := Qfloor _) in *. repeat split; try lia; nia.
      + exists 0, 0. split; [reflexivity|]. assert (~ width * oh < ow * height) by (intros K; apply (ratio_lt width height ow oh) in K; try assumption; unfold ar, oar in A; congruence).
        assert (~ ow * height < width * oh) by (intros K; apply (ratio_lt ow oh width height) in K; try assumption; unfold ar, oar in B; congruence). repeat split; try lia. }
  destruct K as (V & HH & Z0 & K1 & K2 & K3). exists v, h. split; [exact E|]. repeat (split; [assumption|]). unfold resized. rewrite E. destruct (Z.eqb_spec (oh + 2 * v) height) as [Q|Q]; (split; [cbn [snd]; congruence|]); (split; [intros KK; cbn [fst]; congruence|]).
  - intros [K|K]; [contradiction|]. destruct (K3 K) as [-> ->]. f_equal; [|exact Q]. nia.
  - reflexivity.
Qed.
Print Assumptions C225_padding.

(** * Examples *)
Example padding_example : padding 640 480 1000 500 = (125, 0) /\ resized 640 480 1000 500 = (640, 480) /\ padding 640 480 300 500 = (0, 183) /\ resized 640 480 300 500 = (640, 480).
Proof. repeat split. Qed.
Open Scope R_scope.
Definition three_two : board := mkboard 3 2 1.
Definition view : list point := [(10, 10); (20, 10); (30, 10); (10, 20); (20, 20); (30, 20)].
Example area_example : area view three_two = Some 200.
Proof. unfold area, outside. cbn [length view three_two n_cols n_rows Nat.mul Nat.add Nat.eqb Nat.sub nth]. f_equal. unfold minus, plus. cbn [fst snd]. match goal with |- Rabs ?x / 2 = _ => replace x with (- 400) by ring end. rewrite Rabs_left by Lra.lra. Lra.lra. Qed.
Example points_example : object_points ACircles three_two = [(INR 0 * 1, INR 0 * 1, 0); (INR 2 * 1, INR 0 * 1, 0); (INR 4 * 1, INR 0 * 1, 0); (INR 1 * 1, INR 1 * 1, 0); (INR 3 * 1, INR 1 * 1, 0); (INR 5 * 1, INR 1 * 1, 0)].
Proof. reflexivity. Qed.

(** * Refutations *)
(** On a board that is not square the last neighbours are not looked at: the search radius reaches the next corner. *)
Lemma pdist_sq : forall p q d, 0 <= d -> (fst p - fst q) ^ 2 + (snd p - snd q) ^ 2 = d * d -> pdist p q = d.
Proof. intros p q d D E. unfold pdist. rewrite E. now apply sqrt_square. Qed.
Theorem C226_radius_refuted : exists b l r i j, (n_rows b < n_cols b)%nat /\ length l = (n_cols b * n_rows b)%nat /\ neighbours b i j /\ radius b l = Some r /\ 2 * pdist (nth i l origin) (nth j l origin) < IZR r.
Proof.
  exists three_two, [(0, 0); (10, 0); (20, 0); (0, 10); (10, 10); (12, 10)], 5%Z, 4%nat, 5%nat. split; [cbn; lia|]. split; [reflexivity|].
  split; [exists 1%nat, 1%nat; cbn; lia|]. split.
  - unfold radius. assert (shortest [(0, 0); (10, 0); (20, 0); (0, 10); (10, 10); (12, 10)] (pairs three_two) None = Some (Some 10)) as ->.
    { change (pairs three_two) with [(0, 1); (1, 2); (2, 3); (3, 4); (0, 3); (1, 4); (2, 5)]%nat. cbn [shortest nth_error].
      rewrite (pdist_sq (0, 0) (10, 0) 10), (pdist_sq (10, 0) (20, 0) 10), (pdist_sq (0, 10) (10, 10) 10), (pdist_sq (0, 0) (0, 10) 10), (pdist_sq (10, 0) (10, 10) 10) by (cbn [fst snd]; Lra.lra).
      assert (P1 : 10 <= pdist (20, 0) (0, 10)) by (unfold pdist; cbn [fst snd]; rewrite <- (sqrt_square 10) at 1 by Lra.lra; apply sqrt_le_1_alt; Lra.lra).
      assert (P2 : 10 <= pdist (20, 0) (12, 10)) by (unfold pdist; cbn [fst snd]; rewrite <- (sqrt_square 10) at 1 by Lra.lra; apply sqrt_le_1_alt; Lra.lra).
      rewrite !(Rmin_left 10 10) by Lra.lra. rewrite (Rmin_left 10 (pdist (20, 0) (0, 10))) by exact P1. rewrite !(Rmin_left 10 10) by Lra.lra. now rewrite Rmin_left by exact P2. }
    f_equal. pose proof (ceil_spec (10 * (1 / 2))) as [A B]. assert (4 < ceil (10 * (1 / 2)) < 6)%Z; [|lia]. split; apply lt_IZR; Lra.lra.
  - cbn [nth]. rewrite (pdist_sq _ _ 2) by (cbn [fst snd]; Lra.lra). Lra.lra.
Qed.
Print Assumptions C226_radius_refuted.
(** A square board seen as a slanted parallelogram, not mirrored, still goes from right to left after the rotation. *)
Theorem C226_square_refuted : exists b l x y u1 u2 v1 v2, n_rows b = n_cols b /\ grid b l (fun r c => (x + INR c * u1 + INR r * v1, y + INR c * u2 + INR r * v2)) /\ 0 < u1 * v2 - u2 * v1 /\
  fst (final (oriented b l)) < fst (first (oriented b l)).
Proof.
  exists (mkboard 2 2 1), [(0, 0); (2, -3); (1, 2); (3, -1)], 0, 0, 2, (-3), 1, 2. split; [reflexivity|]. split; [|split; [Lra.lra|]].
  - split; [reflexivity|]. cbn [n_rows n_cols]. intros r c R0 C. destruct r as [|[|]]; destruct c as [|[|]]; try lia; cbn [nth Nat.mul Nat.add INR]; f_equal; ring.
  - unfold oriented. cbn [n_rows n_cols Nat.eqb length Nat.sub nth fst snd].
    assert (leb 0 (3 - 0) = true) as -> by (apply leb_true; Lra.lra). assert (leb 0 (-1 - 0) = false) as -> by (apply leb_false; Lra.lra). cbn [andb orb negb].
    destruct (rot90_ends 2 [(0, 0); (2, -3); (1, 2); (3, -1)] ltac:(lia)) as [-> ->]. cbn. Lra.lra.
Qed.
Print Assumptions C226_square_refuted.
(** With a board larger than the image is wide (a tall image) the horizontal parameter falls as the board moves to the right. *)
Theorem C226_wide_refuted : exists ps width border, 0 < border /\ width < border /\ place (map (fun x => x + 1) ps) width border < place ps width border.
Proof.
  exists [4], 8, 10. split; [Lra.lra|]. split; [Lra.lra|]. unfold place, mean, sum. cbn [map fold_right length INR].
  replace (((4 + 1 + 0) / 1 - 10 / 2) / (8 - 10)) with 0 by field. replace (((4 + 0) / 1 - 10 / 2) / (8 - 10)) with (1 / 2) by field.
  unfold clamp. rewrite (Rmax_left 0 0), (Rmax_right 0 (1 / 2)), !Rmin_right by Lra.lra. Lra.lra.
Qed.
Print Assumptions C226_wide_refuted.
(** The second attempt at a symmetric grid asks for the same dimensions, so that a grid seen sideways is not found. *)
Theorem C226_sideways_refuted : exists find b l, (forall c, find (n_rows b, n_cols b) c = Some l) /\ get_circles find Circles b = None.
Proof. exists (fun d _ => if (fst d =? 4)%nat then Some [origin] else None), (mkboard 7 4 1), [origin]. split; reflexivity. Qed.
Print Assumptions C226_sideways_refuted.
(** An image of the requested height and another width is returned with that width. *)
Theorem C226_size_refuted : exists width height ow oh, (0 < width)%Z /\ (0 < height)%Z /\ (0 < oh)%Z /\ (0 < ow)%Z /\ fst (resized width height ow oh) <> width.
Proof. exists 640%Z, 480%Z, 641%Z, 480%Z. repeat split. discriminate. Qed.
Print Assumptions C226_size_refuted.
