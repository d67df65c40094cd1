(** C277, C278: projection and triangulation by a stereo camera, and the virtual images of a laser line. *)
From Coq Require Import Reals Lra Psatz List ZArith Lia Bool.
From Verif Require Import FramesModel EulerModel PlaneModel TriModel TriProps VirtualModel.
Import ListNotations.
From Coq Require Import Lra Psatz.
Open Scope R_scope.

(** ** Specification *)
(** A point projected to (x, y): the pixel (y, x) of TriProps. *)
Definition seen_at (c : cam) (X : vec) (p : point2) : Prop := seen (c_P c) X (snd p, fst p).
Definition inside (c : cam) (p : point2) : Prop := 0 < fst p < IZR (c_width c) /\ 0 < snd p < IZR (c_height c).
(** A column of an image that shows a line at height [y]: two rows around it, whose mean weighed by their values is [y] to 1 in 254, and nothing else. *)
Definition shows_line (i : image) (column : Z) (y : R) : Prop := exists n, IZR n < y < IZR (n + 1) /\
  let a := IZR (pixels i (n + 1) column) in let b := IZR (pixels i n column) in
  0 <= a <= 255 /\ 0 <= b <= 255 /\ 254 <= a + b <= 255 /\ Rabs ((IZR (n + 1) * a + IZR n * b) / (a + b) - y) <= 1 / 254 /\
  forall r, r <> n -> r <> (n + 1)%Z -> pixels i r column = 0%Z.
Definition empty_column (i : image) (column : Z) : Prop := forall r, pixels i r column = 0%Z.
(** The plane a x + b y + c z + d = 0. *)
Definition lies_on (plane : buffer) (X : vec) : Prop := let '(a, b, c, d) := plane in a * vx X + b * vy X + c * vz X + d = 0.

(** ** Rounding *)
Lemma floor_spec : forall x, IZR (floor x) <= x < IZR (floor x) + 1.
Proof. intros x. unfold floor. destruct (base_Int_part x). lra. Qed.
Lemma floor_unique : forall x n, IZR n <= x < IZR n + 1 -> floor x = n.
Proof. intros x n H. pose proof (floor_spec x) as F. apply Z.le_antisymm; apply Z.lt_succ_r, lt_IZR; rewrite succ_IZR; lra. Qed.
Lemma ceil_spec : forall x, x <= IZR (ceil x) < x + 1.
Proof. intros x. unfold ceil. rewrite opp_IZR. pose proof (floor_spec (- x)) as F. unfold floor in F. lra. Qed.
Lemma ceil_next : forall x, x <> IZR (floor x) -> ceil x = (floor x + 1)%Z.
Proof. intros x N. unfold ceil. pose proof (floor_spec x) as F. enough (Int_part (- x) = - (floor x + 1))%Z by lia. apply (floor_unique (- x)). rewrite opp_IZR, plus_IZR. lra. Qed.
Lemma round_spec : forall x, Rabs (IZR (round x) - x) <= 1 / 2.
Proof.
  intros x. unfold round. pose proof (floor_spec (x + 1 / 2)) as F. unfold floor in F. destruct (Req_EM_T _ _) as [E|E]; [destruct (Z.odd _)|]; rewrite ?minus_IZR; unfold Rabs; destruct (Rcase_abs _); lra.
Qed.

(** ** C277 *)
Lemma below_iff : forall a b, below a b = true <-> a < b.
Proof. intros a b. unfold below. destruct (Rlt_dec a b); split; intros; try assumption; try reflexivity; try discriminate; lra. Qed.
Lemma valid_iff : forall c p q, return_valid c p = Some q <-> p = q /\ inside c p.
Proof.
  intros c p q. unfold return_valid, inside. destruct (_ && _ && _ && _)%bool eqn:E.
  - rewrite !andb_true_iff, !below_iff in E. split; [intros [= <-]; tauto|intros [ -> _]; reflexivity].
  - split; [discriminate|]. intros [ -> ((A & B) & C & D)]. apply below_iff in A, B, C, D. rewrite A, B, C, D in E. discriminate.
Qed.
(** A point is given its pinhole projection, if that is inside the image. *)
Theorem C277_project : forall l r X, dot4 (row2 (c_P l)) (homog X) <> 0 -> dot4 (row2 (c_P r)) (homog X) <> 0 ->
  (forall p, fst (project_point l r X) = Some p <-> seen_at l X p /\ inside l p) /\
  (forall q, snd (project_point l r X) = Some q <-> seen_at r X q /\ inside r q).
Proof.
  intros l r X L R0. assert (forall c, dot4 (row2 (c_P c)) (homog X) <> 0 -> forall p, return_valid c (project (c_P c) X) = Some p <-> seen_at c X p /\ inside c p) as H; [|split; intros p; [exact (H l L p)|exact (H r R0 p)]].
  intros c D p. rewrite valid_iff. unfold seen_at, seen, project. unfold homog in *. cbn [fst snd]. split.
  - intros [ <- I]. cbn. repeat split; try assumption; apply I.
  - intros [(_ & A & B) I]. destruct p as [x y]. cbn [fst snd] in *. rewrite <- A, <- B. split; [reflexivity|exact I].
Qed.
Print Assumptions C277_project.
(** Triangulating the two projections of a rectified pair gives the point back. *)
Theorem C277_round_trip : forall l r X p q, rectified (c_P l) (c_P r) -> vz X <> 0 -> project_point l r X = (Some p, Some q) ->
  forall X', triangulate_point l r p q X' <-> X' = X.
Proof.
  intros l r X p q Rc Z E. assert (dot4 (row2 (c_P l)) (homog X) <> 0 /\ dot4 (row2 (c_P r)) (homog X) <> 0) as [D1 D2].
  { destruct Rc as (fx & fy & cx & cy & cx' & cy' & tx & ty & _ & _ & _ & -> & ->). destruct X as [[x y] z]. unfold row2, homog, dot4. cbn in *. split; lra. }
  destruct (C277_project l r X D1 D2) as [A B]. rewrite E in A, B. cbn [fst snd] in A, B. destruct (proj1 (A p) eq_refl) as [S1 _]. destruct (proj1 (B q) eq_refl) as [S2 _].
  intros X'. apply C213_lst; assumption.
Qed.
Print Assumptions C277_round_trip.
(** Without rotation or distortion a pixel stays where it is. *)
Theorem C277_undistort : forall c p, vx (fst (fst (c_K c))) <> 0 -> vy (snd (fst (c_K c))) <> 0 -> inside c p ->
  c_R c = ((1, 0, 0), (0, 1, 0), (0, 0, 1)) -> undistort_and_rectify_point c p = Some p.
Proof.
  intros c [x y] K0 K1 I Ro. unfold undistort_and_rectify_point, undistort_point. rewrite Ro. destruct (c_K c) as [[k0 k1] k2] eqn:EK. cbn [fst snd] in *.
  replace ((x - vz k0) / vx k0 * vx k0 + vz k0) with x by (field; exact K0). replace ((y - vz k1) / vy k1 * vy k1 + vz k1) with y by (field; exact K1).
  assert (return_valid c (x, y) = Some (x, y)) as V by (apply valid_iff; now split). rewrite V. cbn [fst snd]. unfold dot, vx, vy, vz. cbn [fst snd].
  replace (1 * x + 0 * y + 0 * 1) with x by ring. replace (0 * x + 1 * y + 0 * 1) with y by ring. exact V.
Qed.
Print Assumptions C277_undistort.

(** *** Images *)
Lemma pixels_put : forall r c v i r' c', pixels (put r c v i) r' c' = if ((r' =? r) && (c' =? c))%bool%Z then v else pixels i r' c'.
Proof. reflexivity. Qed.
(** A column that shows the line, or nothing. *)
Definition column_ok (y : R) (i : image) : Prop := forall c, shows_line i c y \/ empty_column i c.
Lemma draw_shows : forall i c y i', y <> IZR (floor y) -> (c < columns i)%Z -> column_ok y i -> draw i c y = Some i' ->
  column_ok y i' /\ shows_line i' c y /\ (forall c', shows_line i c' y -> shows_line i' c' y) /\ columns i' = columns i /\ rows i' = rows i /\
  (forall c', c' <> c -> forall r, pixels i' r c' = pixels i r c').
Proof.
  intros i c y i' N W O E. unfold draw in E. apply Z.ltb_lt in W. rewrite W in E. destruct (_ && _)%bool; [|discriminate]. injection E as <-.
  pose proof (floor_spec y) as F. pose proof (ceil_next y N) as C. rewrite C, plus_IZR. set (n := floor y) in *. set (b := floor ((IZR n + 1 - y) * 255)). set (a := floor ((y - IZR n) * 255)).
  assert (forall c', c' <> c -> forall r, pixels (put n c b (put (n + 1) c a i)) r c' = pixels i r c') as K.
  { intros c' D r. rewrite !pixels_put. apply Z.eqb_neq in D. now rewrite D, !andb_false_r. }
  assert (forall r, r <> n -> r <> (n + 1)%Z -> pixels i r c = 0%Z) as Z0.
  { intros r R1 R2. destruct (O c) as [(m & M & _ & _ & _ & _ & H)|H]; [|apply H]. assert (m = n) as -> by (symmetry; apply floor_unique; rewrite plus_IZR in M; lra). now apply H. }
  assert (shows_line (put n c b (put (n + 1) c a i)) c y) as S.
  { exists n. rewrite plus_IZR. split; [lra|]. rewrite !pixels_put, !Z.eqb_refl. replace (n + 1 =? n)%Z with false by (symmetry; apply Z.eqb_neq; lia). cbn [andb].
    pose proof (floor_spec ((y - IZR n) * 255)) as A. pose proof (floor_spec ((IZR n + 1 - y) * 255)) as B. fold a in A. fold b in B.
    assert (0 <= a <= 254)%Z as A' by (split; [apply Z.lt_succ_r, lt_IZR; rewrite succ_IZR; lra|apply Z.lt_succ_r, lt_IZR; change (Z.succ 254) with 255%Z; lra]).
    assert (0 <= b <= 254)%Z as B' by (split; [apply Z.lt_succ_r, lt_IZR; rewrite succ_IZR; lra|apply Z.lt_succ_r, lt_IZR; change (Z.succ 254) with 255%Z; lra]).
    assert (254 <= a + b <= 255)%Z as S by (split; apply Z.lt_succ_r, lt_IZR; rewrite succ_IZR, ?plus_IZR; lra).
    destruct A' as [A1 A2], B' as [B1 B2], S as [S1 S2]. apply IZR_le in A1, A2, B1, B2, S1, S2. rewrite plus_IZR in S1, S2. repeat split; try lra.
    - set (p := IZR a) in *. set (q := IZR b) in *. replace (((IZR n + 1) * p + IZR n * q) / (p + q) - y) with ((p - (y - IZR n) * (p + q)) / (p + q)) by (field; lra).
      assert (Rabs (p - (y - IZR n) * (p + q)) <= 1) as L by (unfold Rabs; destruct (Rcase_abs _); nra). unfold Rdiv at 1. rewrite Rabs_mult, (Rabs_right (/ (p + q))) by (apply Rle_ge, Rlt_le, Rinv_0_lt_compat; lra).
      assert (/ (p + q) <= / 254) as I by (apply Rinv_le_contravar; lra). assert (0 < / (p + q)) by (apply Rinv_0_lt_compat; lra). pose proof (Rabs_pos (p - (y - IZR n) * (p + q))). nra.
    - intros r R1 R2. rewrite !pixels_put. replace (r =? n)%Z with false by (symmetry; now apply Z.eqb_neq). replace (r =? n + 1)%Z with false by (symmetry; now apply Z.eqb_neq). cbn [andb]. now apply Z0. }
  assert (forall c', c' <> c -> shows_line i c' y -> shows_line (put n c b (put (n + 1) c a i)) c' y) as T.
  { intros c' D (m & H). exists m. rewrite !K by exact D. destruct H as (H1 & H2 & H3 & H4 & H5 & H6). repeat split; try assumption; try apply H1; try apply H2; try apply H3; try apply H4. intros r R1 R2. rewrite K by exact D. now apply H6. }
  split; [|split; [exact S|split; [|repeat split; exact K]]].
  - intros c'. destruct (Z.eq_dec c' c) as [ -> |D]; [now left|]. destruct (O c') as [H|H]; [left; now apply T|right]. intros r. rewrite K by exact D. apply H.
  - intros c' H. destruct (Z.eq_dec c' c) as [ -> |D]; [exact S|now apply T].
Qed.
Lemma flat_row : forall l r plane alt x, rectified (c_P l) (c_P r) -> alt <> 0 ->
  snd (project (c_P l) (plane_point plane alt x)) = snd (project (c_P l) (plane_point plane alt 0)) /\ snd (project (c_P r) (plane_point plane alt x)) = snd (project (c_P r) (plane_point plane alt 0)).
Proof.
  intros l r [[[a b] c] d] alt x (fx & fy & cx & cy & cx' & cy' & tx & ty & _ & _ & _ & -> & ->) A. unfold project, plane_point, row0, row1, row2, dot4, vx, vy, vz. cbn [fst snd]. split; field; lra.
Qed.
Lemma round_unique : forall x n, Rabs (IZR n - x) < 1 / 2 -> round x = n.
Proof.
  intros x n H. pose proof (round_spec x) as Q. apply Z.le_antisymm; apply Z.lt_succ_r, lt_IZR; rewrite succ_IZR; unfold Rabs in *; destruct (Rcase_abs _) in H; destruct (Rcase_abs _) in Q; lra.
Qed.
Section Paint.
Variables (l r : cam) (plane : buffer) (alt yl yr : R).
Hypothesis Rc : rectified (c_P l) (c_P r).
Hypothesis A0 : alt <> 0.
Hypothesis Yl : snd (project (c_P l) (plane_point plane alt 0)) = yl.
Hypothesis Yr : snd (project (c_P r) (plane_point plane alt 0)) = yr.
Hypothesis Nl : yl <> IZR (floor yl).
Hypothesis Nr : yr <> IZR (floor yr).
Hypothesis W : c_width l = c_width r.
Hypothesis H : c_height l = c_height r.
Definition pair_at (x : R) (p q : point2) : Prop := project_point l r (plane_point plane alt x) = (Some p, Some q).
Lemma pair_rows : forall x p q, pair_at x p q -> snd p = yl /\ snd q = yr /\ inside l p /\ inside r q.
Proof.
  intros x p q E. unfold pair_at, project_point in E. injection E as E1 E2. apply valid_iff in E1 as [ <- I1], E2 as [ <- I2]. destruct (flat_row l r plane alt x Rc A0) as [F1 F2]. rewrite F1, F2. repeat split; try assumption; try apply I1; apply I2.
Qed.
(** The columns that a point gets *)
Definition column (x : R) (c c' : Z) : Prop := exists p q, pair_at x p q /\ c = round (fst p) /\ c' = round (fst q) /\ (c < c_width l)%Z /\ (c' < c_width l)%Z.
Lemma paint_ok : forall xs li ri li' ri', column_ok yl li -> column_ok yr ri -> columns li = c_width l -> columns ri = c_width l ->
  paint l r (map (plane_point plane alt) xs) li ri = Some (li', ri') ->
  column_ok yl li' /\ column_ok yr ri' /\ (forall c, shows_line li c yl -> shows_line li' c yl) /\ (forall c, shows_line ri c yr -> shows_line ri' c yr) /\
  (forall x c c', In x xs -> column x c c' -> shows_line li' c yl /\ shows_line ri' c' yr) /\
  (forall c, (exists r, pixels li' r c <> pixels li r c) -> exists x c', In x xs /\ column x c c') /\
  (forall c', (exists r, pixels ri' r c' <> pixels ri r c') -> exists x c, In x xs /\ column x c c').
Proof.
  induction xs as [|x xs IH]; intros li ri li' ri' Ol Or Wl Wr E; cbn [map paint] in E.
  - injection E as <- <-. split; [exact Ol|]. split; [exact Or|]. split; [auto|]. split; [auto|]. split; [intros ? ? ? []|]. split; intros c (k & K); congruence.
  - assert (forall li1 ri1, (forall c, shows_line li c yl -> shows_line li1 c yl) -> (forall c, shows_line ri c yr -> shows_line ri1 c yr) -> column_ok yl li1 -> column_ok yr ri1 -> columns li1 = c_width l -> columns ri1 = c_width l ->
      (forall c c', column x c c' -> shows_line li1 c yl /\ shows_line ri1 c' yr) -> (forall c, (exists r, pixels li1 r c <> pixels li r c) -> exists c', column x c c') -> (forall c', (exists r, pixels ri1 r c' <> pixels ri r c') -> exists c, column x c c') ->
      paint l r (map (plane_point plane alt) xs) li1 ri1 = Some (li', ri') -> column_ok yl li' /\ column_ok yr ri' /\ (forall c, shows_line li c yl -> shows_line li' c yl) /\ (forall c, shows_line ri c yr -> shows_line ri' c yr) /\
  (forall x0 c c', In x0 (x :: xs) -> column x0 c c' -> shows_line li' c yl /\ shows_line ri' c' yr) /\
  (forall c, (exists r, pixels li' r c <> pixels li r c) -> exists x0 c', In x0 (x :: xs) /\ column x0 c c') /\
  (forall c', (exists r, pixels ri' r c' <> pixels ri r c') -> exists x0 c, In x0 (x :: xs) /\ column x0 c c')) as Go.
    { intros li1 ri1 K1 K2 O1 O2 W1 W2 X B1 B2 E1. destruct (IH li1 ri1 li' ri' O1 O2 W1 W2 E1) as (P1 & P2 & P3 & P4 & P5 & P6 & P7). split; [exact P1|]. split; [exact P2|]. split; [auto|]. split; [auto|]. split; [|split].
      - intros x0 c c' [ <- |I] C; [destruct (X c c' C) as [X1 X2]; split; [now apply P3|now apply P4]|now apply (P5 x0)].
      - intros c (k & D). destruct (Z.eq_dec (pixels li' k c) (pixels li1 k c)) as [Q|Q]; [rewrite Q in D; destruct (B1 c) as (c' & C); [now exists k|]; exists x, c'; split; [now left|exact C]|]. destruct (P6 c) as (x0 & c' & I & C); [now exists k|]. exists x0, c'. split; [now right|exact C].
      - intros c' (k & D). destruct (Z.eq_dec (pixels ri' k c') (pixels ri1 k c')) as [Q|Q]; [rewrite Q in D; destruct (B2 c') as (c & C); [now exists k|]; exists x, c; split; [now left|exact C]|]. destruct (P7 c') as (x0 & c & I & C); [now exists k|]. exists x0, c. split; [now right|exact C]. }
    destruct (project_point l r (plane_point plane alt x)) as [[p|] [q|]] eqn:Ep; try (apply (Go li ri); try assumption; try (intros; assumption); try (intros c (k & K); congruence); intros c c' (p0 & q0 & C & _); unfold pair_at in C; rewrite Ep in C; discriminate).
    destruct (_ || _)%bool eqn:Ew.
    + apply (Go li ri); try assumption; try (intros; assumption); try (intros c (k & K); congruence). intros c c' (p0 & q0 & C & -> & -> & L1 & L2). unfold pair_at in C. rewrite Ep in C. injection C as <- <-. rewrite <- W in Ew. apply orb_true_iff in Ew as [K|K]; apply Z.leb_le in K; lia.
    + apply orb_false_iff in Ew as [L1 L2]. apply Z.leb_gt in L1, L2. rewrite <- W in L2. destruct (pair_rows x p q Ep) as (Y1 & Y2 & _). rewrite Y1, Y2 in E.
      destruct (draw li (round (fst p)) yl) as [li1|] eqn:D1; [|discriminate]. destruct (draw ri (round (fst q)) yr) as [ri1|] eqn:D2; [|discriminate].
      destruct (draw_shows li (round (fst p)) yl li1 Nl ltac:(lia) Ol D1) as (S1 & S2 & S3 & S4 & _ & S5). destruct (draw_shows ri (round (fst q)) yr ri1 Nr ltac:(lia) Or D2) as (T1 & T2 & T3 & T4 & _ & T5).
      assert (column x (round (fst p)) (round (fst q))) as C by (exists p, q; repeat split; assumption).
      apply (Go li1 ri1); try assumption; try congruence.
      * intros c c' (p0 & q0 & Q & -> & -> & _). unfold pair_at in Q. rewrite Ep in Q. injection Q as <- <-. now split.
      * intros c (k & K). destruct (Z.eq_dec c (round (fst p))) as [ -> |D]; [eexists; exact C|]. destruct K. now apply S5.
      * intros c (k & K). destruct (Z.eq_dec c (round (fst q))) as [ -> |D]; [eexists; exact C|]. destruct K. now apply T5.
Qed.
Lemma paint_total : forall xs li ri, yl < IZR (c_height l) - 1 -> yr < IZR (c_height l) - 1 -> rows li = c_height l -> rows ri = c_height l -> paint l r (map (plane_point plane alt) xs) li ri <> None.
Proof.
  induction xs as [|x xs IH]; intros li ri B1 B2 R1 R2; cbn [map paint]; [discriminate|].
  destruct (project_point l r (plane_point plane alt x)) as [[p|] [q|]] eqn:Ep; try (now apply IH). destruct (_ || _)%bool; [now apply IH|]. destruct (pair_rows x p q Ep) as (Y1 & Y2 & _). rewrite Y1, Y2.
  assert (forall y i c, y < IZR (c_height l) - 1 -> y <> IZR (floor y) -> rows i = c_height l -> exists i', draw i c y = Some i' /\ rows i' = c_height l) as D.
  { intros y i c B N R0. unfold draw. destruct (c <? columns i)%Z; [|exists i; now split]. pose proof (floor_spec y) as F. rewrite (ceil_next y N). assert (floor y + 1 < rows i)%Z as L by (rewrite R0; apply lt_IZR; rewrite plus_IZR; lra).
    replace (floor y + 1 <? rows i)%Z with true by (symmetry; now apply Z.ltb_lt). replace (floor y <? rows i)%Z with true by (symmetry; apply Z.ltb_lt; lia). cbn [andb]. eexists. split; [reflexivity|exact R0]. }
  destruct (D yl li (round (fst p)) B1 Nl R1) as (li' & -> & R1'). destruct (D yr ri (round (fst q)) B2 Nr R2) as (ri' & -> & R2'). now apply IH.
Qed.
End Paint.
(** A rectified pair with images of one size, and lines that are not exactly on a row: each image has the line in exactly the columns nearest to
    points seen by both cameras, at the height at which they see it, and nothing in the others. *)
Theorem C277_images : forall l r plane alt xs xl yl xr yr limg rimg, rectified (c_P l) (c_P r) -> c_width l = c_width r -> c_height l = c_height r -> alt <> 0 ->
  seen_at l (plane_point plane alt 0) (xl, yl) -> seen_at r (plane_point plane alt 0) (xr, yr) -> (forall n, yl <> IZR n) -> (forall n, yr <> IZR n) ->
  virtual_images l r plane alt xs = Some (limg, rimg) ->
  (forall c, shows_line limg c yl \/ empty_column limg c) /\ (forall c, shows_line rimg c yr \/ empty_column rimg c) /\
  (forall x p q c c', In x xs -> seen_at l (plane_point plane alt x) p -> inside l p -> seen_at r (plane_point plane alt x) q -> inside r q ->
    Rabs (IZR c - fst p) < 1 / 2 -> Rabs (IZR c' - fst q) < 1 / 2 -> (c < c_width l)%Z -> (c' < c_width r)%Z -> shows_line limg c yl /\ shows_line rimg c' yr) /\
  (forall c, shows_line limg c yl -> exists x p, In x xs /\ seen_at l (plane_point plane alt x) p /\ Rabs (IZR c - fst p) <= 1 / 2) /\
  (forall c, shows_line rimg c yr -> exists x q, In x xs /\ seen_at r (plane_point plane alt x) q /\ Rabs (IZR c - fst q) <= 1 / 2).
Proof.
  intros l r plane alt xs xl yl xr yr limg rimg Rc W H A S1 S2 N1 N2 E.
  assert (forall X, vz X <> 0 -> dot4 (row2 (c_P l)) (homog X) <> 0 /\ dot4 (row2 (c_P r)) (homog X) <> 0) as D.
  { destruct Rc as (fx & fy & cx & cy & cx' & cy' & tx & ty & _ & _ & _ & -> & ->). intros [[x y] z]. unfold row2, homog, dot4. cbn. intros. split; lra. }
  assert (forall x, vz (plane_point plane alt x) = alt) as Zp by (destruct plane as [[[a b] c] d]; reflexivity).
  assert (forall x, dot4 (row2 (c_P l)) (homog (plane_point plane alt x)) <> 0 /\ dot4 (row2 (c_P r)) (homog (plane_point plane alt x)) <> 0) as Dp by (intros x; apply D; now rewrite Zp).
  assert (snd (project (c_P l) (plane_point plane alt 0)) = yl) as Y1 by (destruct S1 as (_ & _ & K); symmetry; exact K). assert (snd (project (c_P r) (plane_point plane alt 0)) = yr) as Y2 by (destruct S2 as (_ & _ & K); symmetry; exact K).
  assert (column_ok yl (black l)) as O1 by (intros c; right; intros k; reflexivity). assert (column_ok yr (black l)) as O2 by (intros c; right; intros k; reflexivity).
  destruct (paint_ok l r plane alt yl yr Rc A Y1 Y2 (N1 _) (N2 _) W xs (black l) (black l) limg rimg O1 O2 eq_refl eq_refl E) as (P1 & P2 & _ & _ & P5 & P6 & P7).
  assert (forall x p q, pair_at l r plane alt x p q <-> (seen_at l (plane_point plane alt x) p /\ inside l p) /\ (seen_at r (plane_point plane alt x) q /\ inside r q)) as PA.
  { intros x p q. destruct (Dp x) as [Dl Dr]. destruct (C277_project l r _ Dl Dr) as [K1 K2]. unfold pair_at. rewrite <- (K1 p), <- (K2 q). destruct (project_point _ _ _) as [u v]. cbn. split; [intros [= -> ->]; now split|intros [ -> -> ]; reflexivity]. }
  split; [exact P1|]. split; [exact P2|]. split; [|split].
  - intros x p q c c' I Sl Il Sr Ir Cl Cr Wl Wr. apply (P5 x c c' I). exists p, q. split; [apply PA; tauto|]. rewrite (round_unique _ _ Cl), (round_unique _ _ Cr), W. repeat split; try assumption. now rewrite <- W.
  - intros c Sh. destruct (P6 c) as (x & c' & I & p & q & P & -> & _).
    { destruct Sh as (n & _ & _ & _ & [K _] & _). destruct (Z.eq_dec (pixels limg (n + 1) c) 0) as [Z1|Z1]; [|exists (n + 1)%Z; exact Z1]. exists n. cbn. intros Z2. rewrite Z1, Z2 in K. lra. }
    exists x, p. split; [exact I|]. apply PA in P. split; [tauto|apply round_spec].
  - intros c Sh. destruct (P7 c) as (x & c' & I & p & q & P & _ & -> & _).
    { destruct Sh as (n & _ & _ & _ & [K _] & _). destruct (Z.eq_dec (pixels rimg (n + 1) c) 0) as [Z1|Z1]; [|exists (n + 1)%Z; exact Z1]. exists n. cbn. intros Z2. rewrite Z1, Z2 in K. lra. }
    exists x, q. split; [exact I|]. apply PA in P. split; [tauto|apply round_spec].
Qed.
Print Assumptions C277_images.
(** The images are made if the lines are above the last row. *)
Theorem C277_made : forall l r plane alt xs xl yl xr yr, rectified (c_P l) (c_P r) -> alt <> 0 ->
  seen_at l (plane_point plane alt 0) (xl, yl) -> seen_at r (plane_point plane alt 0) (xr, yr) -> (forall n, yl <> IZR n) -> (forall n, yr <> IZR n) ->
  yl < IZR (c_height l) - 1 -> yr < IZR (c_height l) - 1 -> virtual_images l r plane alt xs <> None.
Proof.
  intros l r plane alt xs xl yl xr yr Rc A S1 S2 N1 N2 B1 B2. apply (paint_total l r plane alt yl yr); try assumption; try reflexivity; try apply N1; try apply N2; [destruct S1 as (_ & _ & K)|destruct S2 as (_ & _ & K)]; symmetry; exact K.
Qed.
Print Assumptions C277_made.
(** The points are on the plane, for a plane y + d = 0. *)
Theorem C277_on_plane : forall d alt x, lies_on (0, 1, 0, d) (plane_point (0, 1, 0, d) alt x).
Proof. intros. unfold lies_on, plane_point, vx, vy, vz. cbn. ring. Qed.
Print Assumptions C277_on_plane.
(** The altitudes go from the least to the greatest, evenly, by the step if it divides their distance. *)
Lemma linspace_nth : forall a b n i, (2 <= n)%nat -> (i < n)%nat -> nth i (linspace a b n) 0 = a + INR i * ((b - a) / INR (n - 1)).
Proof.
  intros a b [|[|m]] i L I; try lia. unfold linspace. replace (S (S m) - 1)%nat with (S m) by lia. rewrite (nth_indep _ 0 (a + INR 0 * ((b - a) / INR (S m)))) by (rewrite map_length, seq_length; lia).
  rewrite (map_nth (fun i => a + INR i * ((b - a) / INR (S m)))), seq_nth by exact I. reflexivity.
Qed.
Theorem C277_altitudes : forall amin step k, 0 < step -> (1 <= k)%nat -> let l := altitudes amin (amin + INR k * step) step in
  length l = S k /\ forall i, (i <= k)%nat -> nth i l 0 = amin + INR i * step.
Proof.
  intros amin step k St K l. assert (l = linspace amin (amin + INR k * step) (k + 1)) as E.
  { unfold l, altitudes. replace ((amin + INR k * step - amin) / step) with (INR k) by (field; lra). rewrite INR_IZR_INZ, (floor_unique _ (Z.of_nat k)) by (split; lra). f_equal. lia. }
  assert (length l = (k + 1)%nat) as L. { rewrite E. destruct k as [|k]; [lia|]. replace (S k + 1)%nat with (Datatypes.S (Datatypes.S k)) by lia. unfold linspace. now rewrite map_length, seq_length. }
  split; [lia|]. intros i I. rewrite E, linspace_nth by lia. replace (k + 1 - 1)%nat with k by lia. field. apply not_0_INR. lia.
Qed.
Print Assumptions C277_altitudes.
(** At an altitude the line has three points for two columns, evenly from three quarters of the altitude to the left to as far to the right. *)
Theorem C277_swath : forall width alt, (2 <= width)%Z -> let l := swath width alt in let n := length l in
  INR n <= 1.5 * IZR width < INR n + 1 /\ nth 0 l 0 = - (0.75 * alt) /\ nth (n - 1) l 0 = 0.75 * alt /\
  (forall i, (S i < n)%nat -> nth (S i) l 0 - nth i l 0 = 1.5 * alt / INR (n - 1)).
Proof.
  intros width alt W l n. set (k := Z.to_nat (floor (1.5 * IZR width))). destruct (floor_spec (1.5 * IZR width)) as [F1 F2].
  assert (W' : 2 <= IZR width) by (apply (IZR_le 2); exact W).
  assert (K3 : (3 <= floor (1.5 * IZR width))%Z). { apply Z.lt_succ_r. unfold Z.succ. apply lt_IZR. rewrite plus_IZR. lra. }
  assert (K : IZR (floor (1.5 * IZR width)) = INR k) by (unfold k; rewrite INR_IZR_INZ, Z2Nat.id by lia; reflexivity).
  assert (L : n = k). { unfold n, l, swath. fold k. assert (2 <= k)%nat as K2 by (unfold k; lia). destruct k as [|[|m]]; try lia. unfold linspace. now rewrite map_length, seq_length. }
  assert (K2 : (3 <= k)%nat) by (unfold k; lia). clearbody n. subst n. assert (P : forall i, (i < k)%nat -> nth i l 0 = - (0.75 * alt) + INR i * ((0.75 * alt - - (0.75 * alt)) / INR (k - 1))) by (intros i I; unfold l, swath; fold k; apply linspace_nth; lia).
  assert (NZ : INR (k - 1) <> 0) by (apply not_0_INR; lia). rewrite K in F1, F2. split; [lra|]. replace (1.5 * alt) with (0.75 * alt - - (0.75 * alt)) by lra. clearbody l. clear - P NZ K2. generalize dependent (0.75 * alt). intros h P.
  split; [rewrite P by lia; cbn [INR]; ring|]. split; [rewrite P by lia; field; exact NZ|]. intros i I. rewrite !P by lia. rewrite S_INR. field. exact NZ.
Qed.
Print Assumptions C277_swath.

(** ** C278 *)
Definition unit3 : vec * vec * vec := ((1, 0, 0), (0, 1, 0), (0, 0, 1)).
(** A pair with a focal length of 10, images of 20 x 20 pixels and the centre at (10, 10); the right one a tenth of a metre to the right. *)
Definition leftc : cam := mkcam ((10, 0, 10), (0, 10, 10), (0, 0, 1)) unit3 ((10, 0, 10, 0), (0, 10, 10, 0), (0, 0, 1, 0)) 20 20.
Definition rightc : cam := mkcam ((10, 0, 10), (0, 10, 10), (0, 0, 1)) unit3 ((10, 0, 10, -1), (0, 10, 10, 0), (0, 0, 1, 0)) 20 20.
Lemma pair_rectified : rectified (c_P leftc) (c_P rightc).
Proof. exists 10, 10, 10, 10, 10, 10, (-1), 0. repeat split; try lra. Qed.
Ltac see := unfold return_valid, project, row0, row1, row2, dot4, plane_point, vx, vy, vz; cbn [fst snd c_P c_width c_height leftc rightc].
Lemma valid_yes : forall c p, inside c p -> return_valid c p = Some p.
Proof. intros c p I. apply valid_iff. now split. Qed.
Lemma left_at : forall x y, project (c_P leftc) (x, y, 1) = (10 * x + 10, 10 * y + 10).
Proof. intros. unfold project, row0, row1, row2, dot4, vx, vy, vz. cbn [fst snd c_P leftc]. f_equal; field. Qed.
Lemma right_at : forall x y, project (c_P rightc) (x, y, 1) = (10 * x + 9, 10 * y + 10).
Proof. intros. unfold project, row0, row1, row2, dot4, vx, vy, vz. cbn [fst snd c_P rightc]. f_equal; field. Qed.
Lemma floor_Z : forall n, floor (IZR n) = n.
Proof. intros n. apply floor_unique. lra. Qed.
Lemma ceil_Z : forall n, ceil (IZR n) = n.
Proof. intros n. unfold ceil. rewrite <- opp_IZR. change (Int_part (IZR (- n))) with (floor (IZR (- n))). rewrite floor_Z. lia. Qed.
(** A line exactly on a row is not drawn. *)
Theorem C278_on_row_refuted : exists l r plane alt xs x p q limg rimg, rectified (c_P l) (c_P r) /\ In x xs /\ 0 < alt /\
  project_point l r (plane_point plane alt x) = (Some p, Some q) /\ virtual_images l r plane alt xs = Some (limg, rimg) /\ forall c, empty_column limg c /\ empty_column rimg c.
Proof.
  exists leftc, rightc, (0, 1, 0, -0.5), 1, [0], 0, (10, 15), (9, 15).
  assert (project_point leftc rightc (plane_point (0, 1, 0, -0.5) 1 0) = (Some (10, 15), Some (9, 15))) as E.
  { unfold project_point, plane_point. rewrite left_at, right_at. replace (10 * 0 + 10) with 10 by ring. replace (10 * 0 + 9) with 9 by ring. replace (10 * - -0.5 + 10) with 15 by lra. rewrite !valid_yes; [reflexivity| |]; unfold inside; cbn; lra. }
  eexists. eexists. split; [apply pair_rectified|]. split; [now left|]. split; [lra|]. split; [exact E|]. split.
  - unfold virtual_images. cbn [map paint]. rewrite E. cbn [fst snd]. rewrite (round_unique 10 10), (round_unique 9 9) by (rewrite Rminus_diag_eq by reflexivity; rewrite Rabs_R0; lra). cbn [c_width leftc rightc Z.leb Z.compare Pos.compare Pos.compare_cont orb].
    unfold draw. cbn [columns rows black c_width c_height leftc]. rewrite (ceil_Z 15), (floor_Z 15). rewrite !(Rminus_diag_eq 15 15) by reflexivity. rewrite Rmult_0_l, (floor_Z 0). cbn. reflexivity.
  - intros c. split; intros k; rewrite !pixels_put; destruct (_ && _)%bool; reflexivity.
Qed.
Print Assumptions C278_on_row_refuted.
(** A line within the image but beyond the centre of its last row raises. *)
Theorem C278_last_row_refuted : exists l r plane alt x p q, rectified (c_P l) (c_P r) /\ project_point l r (plane_point plane alt x) = (Some p, Some q) /\ virtual_images l r plane alt [x] = None.
Proof.
  exists leftc, rightc, (0, 1, 0, -0.95), 1, 0, (10, 19.5), (9, 19.5). split; [apply pair_rectified|].
  assert (project_point leftc rightc (plane_point (0, 1, 0, -0.95) 1 0) = (Some (10, 19.5), Some (9, 19.5))) as E.
  { unfold project_point, plane_point. rewrite left_at, right_at. replace (10 * 0 + 10) with 10 by ring. replace (10 * 0 + 9) with 9 by ring. replace (10 * - -0.95 + 10) with 19.5 by lra. rewrite !valid_yes; [reflexivity| |]; unfold inside; cbn; lra. }
  split; [exact E|]. unfold virtual_images. cbn [map paint]. rewrite E. cbn [fst snd]. rewrite (round_unique 10 10), (round_unique 9 9) by (rewrite Rminus_diag_eq by reflexivity; rewrite Rabs_R0; lra). cbn [c_width leftc rightc Z.leb Z.compare Pos.compare Pos.compare_cont orb].
  unfold draw. cbn [columns rows black c_width c_height leftc]. assert (floor 19.5 = 19%Z) as F by (apply floor_unique; lra). rewrite ceil_next, F by (rewrite F; lra). reflexivity.
Qed.
Print Assumptions C278_last_row_refuted.
(** A point behind the camera is given a pixel. *)
Theorem C278_behind_refuted : exists l r X p q, rectified (c_P l) (c_P r) /\ vz X < 0 /\ project_point l r X = (Some p, Some q).
Proof.
  exists leftc, rightc, (0, 0, -1), (10, 10), (11, 10). split; [apply pair_rectified|]. split; [cbn; lra|]. unfold project_point.
  replace (project (c_P leftc) (0, 0, -1)) with (10, 10) by (see; f_equal; field). replace (project (c_P rightc) (0, 0, -1)) with (11, 10) by (see; f_equal; field). rewrite !valid_yes; [reflexivity| |]; unfold inside; cbn; lra.
Qed.
Print Assumptions C278_behind_refuted.
(** Any other plane than y + d = 0 is not the one drawn: only d is used. *)
Theorem C278_plane_refuted : exists plane, forall alt x, 0 < alt -> ~ lies_on plane (plane_point plane alt x).
Proof. exists (0, 1, 1, 1). intros alt x A. unfold lies_on, plane_point, vx, vy, vz. cbn. lra. Qed.
Print Assumptions C278_plane_refuted.
(** The step is not the altitudes' distance unless it divides theirs. *)
Theorem C278_step_refuted : exists amin amax step, 0 < step /\ 0 < amin < amax /\ nth 1 (altitudes amin amax step) 0 = amin + step * 1.9.
Proof.
  exists 1, 2.9, 1. split; [lra|]. split; [lra|]. unfold altitudes. replace ((2.9 - 1) / 1) with 1.9 by lra. rewrite (floor_unique 1.9 1) by lra. change (Z.to_nat (1 + 1)) with 2%nat. rewrite linspace_nth by lia. cbn [INR Nat.sub]. lra.
Qed.
Print Assumptions C278_step_refuted.
(** Rectification turns pixels as if they were directions: the result is not where the turned camera sees the point. *)
Theorem C278_rectify_refuted : exists c X p, (* the camera turned by a quarter about its axis *)
  c_R c = ((0, -1, 0), (1, 0, 0), (0, 0, 1)) /\ c_P c = ((10, 0, 10, 0), (0, 10, 10, 0), (0, 0, 1, 0)) /\ c_K c = ((10, 0, 10), (0, 10, 10), (0, 0, 1)) /\
  vz X = 1 /\ seen ((10, 0, 10, 0), (0, 10, 10, 0), (0, 0, 1, 0)) X (snd p, fst p) /\ inside c p /\
  (exists q, seen_at c (dot (0, -1, 0) X, dot (1, 0, 0) X, dot (0, 0, 1) X) q /\ inside c q) /\ undistort_and_rectify_point c p = None.
Proof.
  exists (mkcam ((10, 0, 10), (0, 10, 10), (0, 0, 1)) ((0, -1, 0), (1, 0, 0), (0, 0, 1)) ((10, 0, 10, 0), (0, 10, 10, 0), (0, 0, 1, 0)) 20 20), (0.1, 0.2, 1), (11, 12).
  split; [reflexivity|]. split; [reflexivity|]. split; [reflexivity|]. split; [reflexivity|]. split; [unfold seen, homog, row0, row1, row2, dot4, vx, vy, vz; cbn [fst snd]; repeat split; lra|]. split; [unfold inside; cbn; lra|]. split.
  - exists (8, 11). unfold seen_at, seen, homog, row0, row1, row2, dot4, dot, vx, vy, vz, inside; cbn [fst snd c_P c_width c_height]; repeat split; lra.
  - unfold undistort_and_rectify_point, undistort_point. cbn [c_K c_R]. unfold vx, vy, vz. cbn [fst snd]. replace ((11 - 10) / 10 * 10 + 10) with 11 by field. replace ((12 - 10) / 10 * 10 + 10) with 12 by field. rewrite valid_yes by (unfold inside; cbn; lra). cbn [fst snd].
    destruct (return_valid _ _) as [p|] eqn:E; [|reflexivity]. apply valid_iff in E as [_ [I _]]. unfold dot, vx, vy, vz in I. cbn in I. lra.
Qed.
Print Assumptions C278_rectify_refuted.

(** ** Examples *)
Example C277_example_project : project_point leftc rightc (0.1, 0.42, 1) = (Some (11, 14.2), Some (10, 14.2)).
Proof. unfold project_point. rewrite left_at, right_at. replace (10 * 0.1 + 10) with 11 by lra. replace (10 * 0.1 + 9) with 10 by lra. replace (10 * 0.42 + 10) with 14.2 by lra. rewrite !valid_yes; [reflexivity| |]; unfold inside; cbn; lra. Qed.
Example C277_example_draw : exists i, draw (black leftc) 3 14.2 = Some i /\ pixels i 14 3 = 204%Z /\ pixels i 15 3 = 51%Z /\ pixels i 14 4 = 0%Z.
Proof.
  assert (floor 14.2 = 14%Z) as F by (apply floor_unique; lra). unfold draw. rewrite ceil_next, F by (rewrite F; lra). eexists. split; [reflexivity|]. rewrite !pixels_put. cbn [Z.eqb Pos.eqb andb Z.add Pos.add Pos.succ].
  rewrite (floor_unique ((15 - 14.2) * 255) 204), (floor_unique ((14.2 - 14) * 255) 51) by lra. repeat split.
Qed.
Example C277_example_altitudes : altitudes 2 3 0.5 = [2; 2.5; 3].
Proof. unfold altitudes. replace ((3 - 2) / 0.5) with 2 by lra. rewrite (floor_Z 2). change (Z.to_nat (2 + 1)) with 3%nat. unfold linspace. cbn [seq map INR]. assert (forall a b c a' b' c' : R, a = a' -> b = b' -> c = c' -> [a; b; c] = [a'; b'; c']) as H by congruence. apply H; lra. Qed.
