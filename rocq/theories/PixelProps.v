(** C44: brightness and contrast; C45: gamma; C77: manual balance. *)
From Coq Require Import Reals Lra Qround Qfield.
From Verif Require Import PyBase StatsProps PixelModel.

Open Scope Q_scope.
Lemma clip_range : forall lo hi x, lo <= hi -> lo <= clip lo hi x /\ clip lo hi x <= hi.
Proof.
  intros lo hi x H. unfold clip. destruct (Qltb x lo) eqn:E; [split; [apply Qle_refl|exact H]|]. apply Qltb_ge in E.
  destruct (Qltb hi x) eqn:F; [split; [exact H|apply Qle_refl]|]. apply Qltb_ge in F. now split.
Qed.
Lemma clip_mono : forall lo hi x y, lo <= hi -> x <= y -> clip lo hi x <= clip lo hi y.
Proof.
  intros lo hi x y H L. unfold clip. destruct (Qltb x lo) eqn:E1, (Qltb y lo) eqn:E2; try apply Qltb_lt in E1; try apply Qltb_lt in E2; try apply Qltb_ge in E1; try apply Qltb_ge in E2;
    destruct (Qltb hi x) eqn:E3; destruct (Qltb hi y) eqn:E4; try apply Qltb_lt in E3; try apply Qltb_lt in E4; try apply Qltb_ge in E3; try apply Qltb_ge in E4; Lqa.lra.
Qed.
Lemma clip_id : forall lo hi x, lo <= x -> x <= hi -> clip lo hi x = x.
Proof. intros lo hi x H1 H2. unfold clip. apply Qltb_ge in H1, H2. now rewrite H1, H2. Qed.

(** ** C44 *)
Theorem C44_range : forall m s tm ts x, 0 <= pixel_stat m s tm ts x /\ pixel_stat m s tm ts x <= 1.
Proof. intros. apply clip_range. discriminate. Qed.
Print Assumptions C44_range.
Theorem C44_8bit_range : forall x, (0 <= to_8bit x <= 255)%Z.
Proof.
  intros x. destruct (clip_range 0 255 (x * 255)) as [L H]; [discriminate|]. unfold to_8bit. split.
  - change 0%Z with (Qfloor 0). now apply Qfloor_resp_le.
  - change 255%Z with (Qfloor 255). now apply Qfloor_resp_le.
Qed.
Print Assumptions C44_8bit_range.
Theorem C44_8bit_monotone : forall x y, x <= y -> (to_8bit x <= to_8bit y)%Z.
Proof. intros x y H. apply Qfloor_resp_le, clip_mono; [discriminate|Lqa.lra]. Qed.
Print Assumptions C44_8bit_monotone.
(** A pixel in range is kept to within one level. *)
Theorem C44_8bit_error : forall x, 0 <= x -> x <= 1 -> inject_Z (to_8bit x) <= x * 255 /\ x * 255 < inject_Z (to_8bit x) + 1.
Proof.
  intros x H1 H2. unfold to_8bit. rewrite clip_id by Lqa.lra. split; [apply Qfloor_le|].
  pose proof (Qlt_floor (x * 255)) as H. rewrite inject_Z_plus in H. exact H.
Qed.
Print Assumptions C44_8bit_error.
Theorem C44_increasing : forall m s tm ts x y, 0 < s -> 0 < ts -> x < y -> stretched m s tm ts x < stretched m s tm ts y.
Proof.
  intros m s tm ts x y S T L. unfold stretched. apply Qplus_lt_l. apply Qmult_lt_r; [apply Qlt_shift_div_l; [reflexivity|Lqa.lra]|].
  unfold Qdiv. apply Qmult_lt_r; [now apply Qinv_lt_0_compat|Lqa.lra].
Qed.
Print Assumptions C44_increasing.
Theorem C44_monotone : forall m s tm ts x y, 0 < s -> 0 < ts -> x <= y -> pixel_stat m s tm ts x <= pixel_stat m s tm ts y.
Proof.
  intros m s tm ts x y S T L. apply clip_mono; [discriminate|]. apply Qle_lteq in L as [L|E]; [apply Qlt_le_weak; now apply C44_increasing|].
  unfold stretched. rewrite E. apply Qle_refl.
Qed.
Print Assumptions C44_monotone.
(** The mean goes to the target mean, one deviation to one target deviation. *)
Theorem C44_targets : forall m s tm ts, 0 < s -> 0 <= tm -> 0 <= ts -> tm + ts <= 100 ->
  pixel_stat m s tm ts m == tm / 100 /\ pixel_stat m s tm ts (m + s) == tm / 100 + ts / 100.
Proof.
  intros m s tm ts S M T B. unfold pixel_stat.
  assert (stretched m s tm ts m == tm / 100) as E1 by (unfold stretched; field; Lqa.lra).
  assert (stretched m s tm ts (m + s) == tm / 100 + ts / 100) as E2 by (unfold stretched; field; Lqa.lra).
  assert (forall v, tm / 100 <= v -> v <= (tm + ts) / 100 -> 0 <= v /\ v <= 1) as R.
  { intros v V1 V2. split.
    - apply Qle_trans with (tm / 100); [apply Qle_shift_div_l; [reflexivity|Lqa.lra]|exact V1].
    - apply Qle_trans with ((tm + ts) / 100); [exact V2|]. apply Qle_shift_div_r; [reflexivity|Lqa.lra]. }
  assert (0 <= ts / 100) by (apply Qle_shift_div_l; [reflexivity|Lqa.lra]).
  assert ((tm + ts) / 100 == tm / 100 + ts / 100) as E3 by field.
  split; rewrite clip_id; try assumption; apply R; rewrite ?E1, ?E2, ?E3; Lqa.lra.
Qed.
Print Assumptions C44_targets.
(** Over all the images of a pixel: if [m] and [s] are the mean and the deviation of its
    values then before clipping the results have the target mean and deviation. *)
Lemma total_affine : forall (f : Q -> Q) a b xs, (forall x, f x == a * x + b) -> total (fun x => x) (map f xs) == a * total (fun x => x) xs + b * size xs.
Proof.
  intros f a b xs H. induction xs as [|x xs IH]; [unfold size; cbn; ring|]. cbn [map]. rewrite !total_cons, IH, H.
  assert (size (x :: xs) == size xs + 1) as -> by apply q_S. ring.
Qed.
Lemma total_map : forall (f g : Q -> Q) k xs, (forall x, In x xs -> f x == k * g x) -> total f xs == k * total g xs.
Proof.
  intros f g k. induction xs as [|x xs IH]; intros H; [cbn; ring|]. rewrite !total_cons, IH by (intros y I; apply H; now right).
  rewrite H by now left. ring.
Qed.
Lemma total_map_in : forall (g f : Q -> Q) xs, total g (map f xs) = total (fun x => g (f x)) xs.
Proof. intros g f. induction xs as [|x xs IH]; [reflexivity|]. cbn [map]. rewrite !total_cons. now rewrite IH. Qed.
Theorem C44_statistics : forall m s tm ts xs, xs <> [] -> 0 < s -> is_mean xs m -> is_variance xs (s * s) ->
  is_mean (map (stretched m s tm ts) xs) (tm / 100) /\ is_variance (map (stretched m s tm ts) xs) ((ts / 100) * (ts / 100)).
Proof.
  intros m s tm ts xs N S M V.
  assert (size (map (stretched m s tm ts) xs) = size xs) as L by (unfold size; now rewrite map_length).
  assert (is_mean (map (stretched m s tm ts) xs) (tm / 100)) as MM.
  { unfold is_mean. rewrite L. rewrite (total_affine _ (ts / 100 / s) (tm / 100 - ts / 100 * m / s)) by (intros x; unfold stretched; field; Lqa.lra).
    unfold is_mean in M. rewrite <- M. field. Lqa.lra. }
  split; [exact MM|]. intros k K. assert (0 < size xs) as P by (destruct xs; [congruence|apply q_pos]).
  assert (k == tm / 100) as E by (apply Qmult_inj_r with (size xs); [Lqa.lra|]; unfold is_mean in *; rewrite L in *; now rewrite K, MM).
  rewrite L, total_map_in. rewrite (total_map _ (fun x => (x - m) * (x - m)) ((ts / 100 / s) * (ts / 100 / s)))
    by (intros x _; rewrite E; unfold stretched; field; Lqa.lra).
  rewrite <- (V m M). field. Lqa.lra.
Qed.
Print Assumptions C44_statistics.
(** Clipping moves the mean away from the target. *)
Theorem C144_clipped_refuted : exists m s tm ts xs, 0 < s /\ is_mean xs m /\ is_variance xs (s * s) /\ 0 <= tm <= 100 /\
  ~ is_mean (map (pixel_stat m s tm ts) xs) (tm / 100).
Proof.
  exists 1, 1, 90, 30, [0; 2]. split; [reflexivity|]. split; [reflexivity|]. split.
  - intros k K. unfold is_mean, size in K. cbn in K. assert (k == 1) as E by (apply Qmult_inj_r with 2; [discriminate|]; rewrite K; reflexivity).
    unfold size. cbn [total fold_right length]. rewrite E. reflexivity.
  - split; [split; discriminate|]. intros H. vm_compute in H. discriminate.
Qed.
Print Assumptions C144_clipped_refuted.
Example C44_example : pixel_stat (1 # 2) (1 # 10) 30 10 (6 # 10) == 4 # 10 /\ to_8bit (4 # 10) = 102%Z /\ to_8bit 2 = 255%Z /\ to_8bit (- 1) = 0%Z.
Proof. repeat split. Qed.

(** ** C77: manual balance *)
Definition eqv (u v : Q * Q * Q) : Prop := let '(u1, u2, u3) := u in let '(v1, v2, v3) := v in u1 == v1 /\ u2 == v2 /\ u3 == v3.
(** The pixel equal to the offset becomes black; with unit gains and no offset nothing
    changes; and when the gain matrix has an inverse no two pixels are confused. *)
Theorem C77_black_point : forall g1 g2 g3 o, eqv (balance_rgb g1 g2 g3 o o) (0, 0, 0).
Proof. intros [[? ?] ?] [[? ?] ?] [[? ?] ?] [[? ?] ?]. cbn. repeat split; ring. Qed.
Print Assumptions C77_black_point.
Theorem C77_identity : forall x, eqv (balance_rgb (1, 0, 0) (0, 1, 0) (0, 0, 1) (0, 0, 0) x) x.
Proof. intros [[? ?] ?]. cbn. repeat split; ring. Qed.
Print Assumptions C77_identity.
Theorem C77_invertible : forall g1 g2 g3 h1 h2 h3 o x,
  (forall v, eqv (dot h1 (dot g1 v, dot g2 v, dot g3 v), dot h2 (dot g1 v, dot g2 v, dot g3 v), dot h3 (dot g1 v, dot g2 v, dot g3 v)) v) ->
  let y := balance_rgb g1 g2 g3 o x in eqv (minus (dot h1 y, dot h2 y, dot h3 y) (minus (0, 0, 0) o)) x.
Proof.
  intros g1 g2 g3 h1 h2 h3 [[o1 o2] o3] [[x1 x2] x3] H y. specialize (H (minus (x1, x2, x3) (o1, o2, o3))). unfold y, balance_rgb. cbv zeta.
  cbn [minus] in *. destruct H as (H1 & H2 & H3). cbn [eqv minus]. rewrite H1, H2, H3. repeat split; ring.
Qed.
Print Assumptions C77_invertible.
(** A grey image is treated as its red channel would be with a diagonal matrix. *)
Theorem C77_grey : forall a b c o1 o2 o3 x, let '(r, _, _) := balance_rgb (a, 0, 0) (0, b, 0) (0, 0, c) (o1, o2, o3) (x, x, x) in balance_grey a o1 x == r.
Proof. intros. cbn. unfold balance_grey. ring. Qed.
Print Assumptions C77_grey.
Example C77_example : eqv (balance_rgb (2, 0, 0) (0, 1, 0) (0, 0, 3) (1 # 10, 0, 0) (3 # 10, 1 # 2, 1 # 5)) (4 # 10, 1 # 2, 6 # 10).
Proof. repeat split. Qed.

(** ** C76: image types *)
(** An array whose channels are stored as the type says. *)
Definition stored (t : image_type) (red green blue : Q) : Q * Q * Q := match t with RGB => (red, green, blue) | _ => (blue, green, red) end.
(** Red-first and blue-first images of the same scene give the same corrected image. *)
Theorem C76_order_irrelevant : forall g1 g2 g3 o red green blue,
  manual RGB g1 g2 g3 o (stored RGB red green blue) = manual BGR g1 g2 g3 o (stored BGR red green blue) /\
  colour_channels RGB (stored RGB red green blue) = colour_channels BGR (stored BGR red green blue).
Proof. intros. split; reflexivity. Qed.
Print Assumptions C76_order_irrelevant.
(** The red subtractor is taken from blue. *)
Theorem C176_red_offset_refuted : exists t red green blue offset out, manual t (1, 0, 0) (0, 1, 0) (0, 0, 1) (offset, 0, 0) (stored t red green blue) = Some out /\
  0 < offset /\ eqv out (stored BGR red green (blue - offset)) /\ ~ eqv out (stored BGR (red - offset) green blue).
Proof.
  exists RGB, (3 # 10), (5 # 10), (7 # 10), (1 # 10). eexists. split; [reflexivity|]. split; [reflexivity|]. split; [repeat split|]. intros (H & _). discriminate H.
Qed.
Print Assumptions C176_red_offset_refuted.
(** Manual balance cannot process grey images. *)
Theorem C176_grey_manual_refuted : exists t, forall g1 g2 g3 o x, manual t g1 g2 g3 o x = None.
Proof. exists Grayscale. reflexivity. Qed.
Print Assumptions C176_grey_manual_refuted.
Theorem C76_colour_total : forall t x, colour_channels t x <> None.
Proof. intros [] x; discriminate. Qed.
Print Assumptions C76_colour_total.
Example C76_example : manual BGR (1, 0, 0) (0, 1, 0) (0, 0, 2) (0, 0, 1 # 10) (1 # 5, 1 # 2, 3 # 5) = Some (balance_rgb (1, 0, 0) (0, 1, 0) (0, 0, 2) (0, 0, 1 # 10) (1 # 5, 1 # 2, 3 # 5)).
Proof. reflexivity. Qed.

(** ** C45 *)
Open Scope R_scope.
Definition unit (x : R) : Prop := 0 <= x <= 1.
Lemma power_0 : forall y, power 0 y = 0.
Proof. intros y. unfold power. destruct (Req_EM_T 0 0); [reflexivity|congruence]. Qed.
Lemma power_mono : forall x x' y, 0 < y -> 0 <= x -> x <= x' -> 0 <= power x y <= power x' y.
Proof.
  intros x x' y Y X L. unfold power. destruct (Req_EM_T x 0) as [E|E].
  - destruct (Req_EM_T x' 0); [split; apply Rle_refl|]. split; [apply Rle_refl|]. unfold Rpower. left. apply exp_pos.
  - destruct (Req_EM_T x' 0); [Lra.lra|]. split; [unfold Rpower; left; apply exp_pos|]. apply Rle_Rpower_l; Lra.lra.
Qed.
Lemma power_1 : forall y, power 1 y = 1.
Proof. intros y. unfold power. destruct (Req_EM_T 1 0); [Lra.lra|]. unfold Rpower. now rewrite ln_1, Rmult_0_r, exp_0. Qed.
Lemma bright_mono : forall x y, 0 <= x -> x <= y -> bright_gamma x <= bright_gamma y.
Proof. intros x y X L. unfold bright_gamma. destruct (power_mono x y (1 / 1.5)) as [_ H]; Lra.lra. Qed.
(** Within an image brighter pixels stay brighter. *)
Theorem C45_monotone : forall image i j x y x' y', (forall v, In v image -> unit v) ->
  nth_error image i = Some x -> nth_error image j = Some y ->
  nth_error (gamma_correct image) i = Some x' -> nth_error (gamma_correct image) j = Some y' -> x <= y -> x' <= y'.
Proof.
  intros image i j x y x' y' U Hi Hj Hi' Hj' L. pose proof (U x (nth_error_In _ _ Hi)) as [X _].
  unfold gamma_correct in *. destruct (forallb is_dark image); rewrite nth_error_map in Hi', Hj'; rewrite Hi in Hi'; rewrite Hj in Hj'; injection Hi' as <-; injection Hj' as <-.
  - unfold dark_gamma. Lra.lra.
  - now apply bright_mono.
Qed.
Print Assumptions C45_monotone.
(** Upper bound and the actual lower bound. *)
Theorem C45_range : forall image v, (forall x, In x image -> unit x) -> In v (gamma_correct image) -> - 0.055 <= v <= 1.
Proof.
  intros image v U H. unfold gamma_correct in H. destruct (forallb is_dark image) eqn:D; apply in_map_iff in H as (x & <- & I); destruct (U x I) as [L M].
  - rewrite forallb_forall in D. specialize (D x I). unfold is_dark in D. destruct (Rlt_dec x 0.0031308) as [K|]; [|discriminate]. unfold dark_gamma. Lra.lra.
  - unfold bright_gamma. destruct (power_mono x 1 (1 / 1.5)) as [P1 P2]; try Lra.lra. rewrite power_1 in P2. Lra.lra.
Qed.
Print Assumptions C45_range.
Theorem C45_final_range : forall x, 0 <= final_level x <= 255.
Proof. intros x. unfold final_level, Rmax, Rmin. destruct (Rle_dec 255 (x * 255)); destruct (Rle_dec 0 _); Lra.lra. Qed.
Print Assumptions C45_final_range.
(** A black pixel of an image that is not all dark becomes negative. *)
Theorem C145_range_refuted : exists image v, (forall x, In x image -> unit x) /\ In v (gamma_correct image) /\ v < 0.
Proof.
  exists [0; 1], (bright_gamma 0). split; [intros x [<-|[<-|[]]]; unfold unit; Lra.lra|]. split.
  - unfold gamma_correct. cbn [forallb]. unfold is_dark at 2. destruct (Rlt_dec 1 0.0031308); [Lra.lra|]. rewrite Bool.andb_false_r. now left.
  - unfold bright_gamma. rewrite power_0. Lra.lra.
Qed.
Print Assumptions C145_range_refuted.
(** A pixel's result depends on the rest of the image: the same dark pixel is black next to a
    bright one and not otherwise, in the final image too. *)
Theorem C145_local_refuted : exists x a b, unit x /\ (forall v, In v a -> unit v) /\ (forall v, In v b -> unit v) /\
  exists va vb, nth_error (gamma_correct (x :: a)) 0 = Some va /\ nth_error (gamma_correct (x :: b)) 0 = Some vb /\
    final_level va = 0 /\ 1 < final_level vb.
Proof.
  exists 0.001, [1], []. split; [unfold unit; Lra.lra|]. split; [intros v [<-|[]]; unfold unit; Lra.lra|]. split; [intros v []|].
  exists (bright_gamma 0.001), (dark_gamma 0.001). unfold gamma_correct. cbn [forallb]. unfold is_dark.
  destruct (Rlt_dec 1 0.0031308); [Lra.lra|]. destruct (Rlt_dec 0.001 0.0031308); [|Lra.lra]. cbn [andb map nth_error].
  split; [reflexivity|]. split; [reflexivity|].
  assert (bright_gamma 0.001 < 0) as N.
  { assert (power 0.001 (1 / 1.5) = 0.01) as E.
    { unfold power. destruct (Req_EM_T 0.001 0); [Lra.lra|].
      assert (0.001 = Rpower 0.1 3) as ->.
      { assert (3 = INR 3) as -> by (cbn; Lra.lra). rewrite Rpower_pow by Lra.lra. cbn. Lra.lra. }
      rewrite Rpower_mult. assert (3 * (1 / 1.5) = INR 2) as -> by (cbn; Lra.lra). rewrite Rpower_pow by Lra.lra. cbn. Lra.lra. }
    unfold bright_gamma. rewrite E. Lra.lra. }
  split; unfold final_level, Rmax, Rmin, dark_gamma.
  - destruct (Rle_dec 255 (bright_gamma 0.001 * 255)); [Lra.lra|]. destruct (Rle_dec 0 (bright_gamma 0.001 * 255)); [Lra.lra|reflexivity].
  - destruct (Rle_dec 255 (12.92 * 0.001 * 255)); [Lra.lra|]. destruct (Rle_dec 0 (12.92 * 0.001 * 255)); Lra.lra.
Qed.
Print Assumptions C145_local_refuted.
Example C45_example : gamma_correct [1; 0.001; 1] = [bright_gamma 1; bright_gamma 0.001; bright_gamma 1] /\ bright_gamma 1 = 1.
Proof.
  split; [unfold gamma_correct; cbn [forallb]; unfold is_dark at 1; destruct (Rlt_dec 1 0.0031308); [Lra.lra|reflexivity]|].
  unfold bright_gamma. rewrite power_1. Lra.lra.
Qed.
