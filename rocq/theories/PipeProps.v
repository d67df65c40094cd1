(** C97, C98: the colour correction of an image, end to end. *)
From Coq Require Import Reals List ZArith Lra Lia.
From Verif Require Import AttenModel AttenProps PixelModel PixelProps PipeModel.
Import ListNotations.
Open Scope R_scope.

(** The curve parameters are within the bounds of the fit, the statistics can be used, and the gain is that of
    the [target] altitude (AttenProps.in_bounds, AttenModel.gain). *)
Definition trained (target : R) (p : params) : Prop :=
  in_bounds (p_a p) (p_b p) (p_c p) /\ 0 < p_std p /\ p_gain p = p_a p * exp (p_b p * target) + p_c p.
(** A surface seen from distance [h]: the brightness [s] of the surface times the attenuation. *)
Definition seen (p : params) (s h : R) : pixel := (p, Some h, s * (p_a p * exp (p_b p * h) + p_c p)).

Lemma clip01_unit : forall x, 0 <= clip01 x <= 1.
Proof. intros x. unfold clip01. destruct (Rlt_dec x 0); [lra|]. destruct (Rlt_dec 1 x); lra. Qed.
Lemma clip01_mono : forall x y, x <= y -> clip01 x <= clip01 y.
Proof. intros x y H. unfold clip01. destruct (Rlt_dec x 0), (Rlt_dec y 0), (Rlt_dec 1 x), (Rlt_dec 1 y); lra. Qed.
Lemma level_range : forall x, (0 <= level x <= 255)%Z.
Proof.
  intros x. unfold level. pose proof (C45_final_range x) as [A B]. pose proof (base_Int_part (final_level x)) as [L G].
  split; [apply Z.lt_succ_r, lt_IZR; rewrite succ_IZR; lra|apply le_IZR; lra].
Qed.
Lemma level_mono : forall x y, x <= y -> (level x <= level y)%Z.
Proof.
  intros x y H. unfold level. assert (final_level x <= final_level y) as F.
  { unfold final_level. apply Rle_max_compat_l. apply Rle_min_compat_l. lra. }
  pose proof (base_Int_part (final_level x)) as [L _]. pose proof (base_Int_part (final_level y)) as [_ G].
  apply Z.lt_succ_r, lt_IZR. rewrite succ_IZR. lra.
Qed.
Lemma normalise_unit : forall br co p d x, 0 <= normalise br co p d x <= 1.
Proof. intros br co p [h|] x; apply clip01_unit. Qed.

Lemma gamma_length : forall l, length (gamma_correct l) = length l.
Proof. intros l. unfold gamma_correct. destruct (forallb is_dark l); apply map_length. Qed.

(** ** C97 *)
(** The output has the size of the processed image and 8-bit levels, whatever the inputs. *)
Theorem C97_levels : forall rest br co image, let values := map (fun q : pixel => normalise br co (fst (fst q)) (snd (fst q)) (snd q)) image in
  length (process_image rest br co image) = length (rest values) /\ (forall v, In v values -> 0 <= v <= 1) /\
  forall z, In z (process_image rest br co image) -> (0 <= z <= 255)%Z.
Proof.
  intros rest br co image values. unfold process_image. fold values. split; [|split].
  - rewrite map_length. apply gamma_length.
  - intros v H. apply in_map_iff in H. destruct H as (q & <- & _). apply normalise_unit.
  - intros z H. apply in_map_iff in H. destruct H as (x & <- & _). apply level_range.
Qed.
Print Assumptions C97_levels.

(** Images of the same surface from any distances give the same output: that from the target altitude. *)
Lemma normalise_seen : forall target br co p s h, trained target p ->
  normalise br co p (Some h) (snd (seen p s h)) = stat (p_mean p) (p_std p) br co (s * (p_a p * exp (p_b p * target) + p_c p)).
Proof.
  intros target br co p s h (B & _ & G). cbn [seen snd normalise]. f_equal. rewrite G. apply (C43_inverts_the_curve _ _ _ target h s B).
Qed.
Theorem C97_distance : forall rest target br co (surface : list (params * R)) hs hs',
  (forall q, In q surface -> trained target (fst q)) -> length hs = length surface -> length hs' = length surface ->
  process_image rest br co (map (fun q => seen (fst (fst q)) (snd (fst q)) (snd q)) (combine surface hs)) =
  process_image rest br co (map (fun q => seen (fst (fst q)) (snd (fst q)) (snd q)) (combine surface hs')).
Proof.
  intros rest target br co surface hs hs' T L L'. unfold process_image. do 3 f_equal. rewrite !map_map.
  revert hs hs' L L'. induction surface as [|[p s] surface IH]; intros [|h hs] [|h' hs'] L L'; try discriminate; [reflexivity|].
  cbn [combine map fst snd]. injection L as L. injection L' as L'. f_equal; [|apply IH; auto; intros q I; apply T; now right].
  assert (trained target p) as TP by (apply (T (p, s)); now left). cbn [seen fst snd].
  pose proof (normalise_seen target br co p s h TP) as E. pose proof (normalise_seen target br co p s h' TP) as E'. cbn [seen snd] in E, E'. congruence.
Qed.
Print Assumptions C97_distance.

(** At the target altitude only brightness and contrast change, and without a distance too. *)
Theorem C97_at_target : forall target br co p x, trained target p ->
  normalise br co p (Some target) x = clip01 ((x - p_mean p) / p_std p * (co / 100) + br / 100).
Proof.
  intros target br co p x (B & _ & G). unfold normalise, stat. repeat f_equal. rewrite G. apply C43_neutral_at_target, B.
Qed.
Print Assumptions C97_at_target.

(** A brighter value with the same parameters and distance gets a level that is not lower, in the same image. *)
Lemma normalise_mono : forall target br co p d x y, trained target p -> 0 < p_raw_std p -> 0 <= co -> x <= y -> normalise br co p d x <= normalise br co p d y.
Proof.
  intros target br co p d x y (B & S & G) RS C L.
  assert (forall m s u v, 0 < s -> u <= v -> stat m s br co u <= stat m s br co v) as M.
  { intros m s u v P H. apply clip01_mono. apply Rplus_le_compat_r. apply Rmult_le_compat_r; [lra|]. unfold Rdiv. apply Rmult_le_compat_r; [|lra]. apply Rlt_le, Rinv_0_lt_compat, P. }
  destruct d as [h|]; cbn [normalise]; apply M; auto. rewrite G. destruct (Rle_lt_or_eq_dec x y L) as [LT|<-]; [|right; reflexivity].
  left. now apply (C43_monotone _ _ _ target).
Qed.
Theorem C97_order : forall target br co image i j p d x y z z', 0 <= co -> trained target p -> 0 < p_raw_std p ->
  nth_error image i = Some (p, d, x) -> nth_error image j = Some (p, d, y) ->
  nth_error (process_image (fun l => l) br co image) i = Some z -> nth_error (process_image (fun l => l) br co image) j = Some z' ->
  x <= y -> (z <= z')%Z.
Proof.
  intros target br co image i j p d x y z z' C T S Hi Hj Hz Hz' L. unfold process_image in Hz, Hz'.
  set (vs := map _ image) in *. rewrite nth_error_map in Hz, Hz'.
  destruct (nth_error (gamma_correct vs) i) as [g|] eqn:Gi; [|discriminate]. destruct (nth_error (gamma_correct vs) j) as [g'|] eqn:Gj; [|discriminate].
  injection Hz as <-. injection Hz' as <-. apply level_mono.
  refine (C45_monotone vs i j (normalise br co p d x) (normalise br co p d y) g g' _ _ _ Gi Gj _).
  - intros v H. apply in_map_iff in H. destruct H as (q & <- & _). apply normalise_unit.
  - unfold vs. rewrite nth_error_map, Hi. reflexivity.
  - unfold vs. rewrite nth_error_map, Hj. reflexivity.
  - now apply (normalise_mono target).
Qed.
Print Assumptions C97_order.

(** ** C98: raising values of an image can lower others, since gamma takes one formula for all of it. *)
Definition plain : params := mkparams 1 0 0 1 0 1 0 1.
Lemma plain_normalise : forall x, 0 <= x <= 1 -> normalise 0 100 plain None x = x.
Proof.
  intros x H. cbn [normalise plain p_raw_mean p_raw_std]. unfold stat, clip01. replace ((x - 0) / 1 * (100 / 100) + 0 / 100) with x by field.
  destruct (Rlt_dec x 0); [lra|]. destruct (Rlt_dec 1 x); lra.
Qed.
Lemma bright_dark : bright_gamma 0.003 <= 0.
Proof.
  unfold bright_gamma. assert (power 0.003 (1 / 1.5) <= power (/ 125) (1 / 1.5)) as P by (apply power_mono; lra).
  assert (power (/ 125) (1 / 1.5) = / 25) as E.
  { unfold power. destruct (Req_EM_T (/ 125) 0) as [Z|_]; [lra|]. replace (/ 125) with (Rpower (/ 5) 3).
    - rewrite Rpower_mult. replace (3 * (1 / 1.5)) with (INR 2) by (simpl; lra). rewrite Rpower_pow by lra. simpl; lra.
    - replace 3 with (INR 3) by (simpl; lra). rewrite Rpower_pow by lra. simpl; lra. }
  rewrite E in P. lra.
Qed.
Lemma level_low : forall x, x <= 0 -> level x = 0%Z.
Proof.
  intros x H. unfold level, final_level. rewrite Rmin_right by lra. rewrite Rmax_left by lra.
  pose proof (base_Int_part 0) as [A B]. apply Z.le_antisymm; [apply le_IZR; lra|]. apply Z.lt_succ_r, lt_IZR. rewrite succ_IZR. lra.
Qed.
Lemma level_dark : (9 <= level (dark_gamma 0.003))%Z.
Proof.
  unfold level, final_level, dark_gamma. rewrite Rmin_right by lra. rewrite Rmax_right by lra.
  pose proof (base_Int_part (12.92 * 0.003 * 255)) as [A B]. apply Z.lt_succ_r, lt_IZR. rewrite succ_IZR. lra.
Qed.
Theorem C98_brighter_image_refuted : exists br co (image image' : list pixel) i z z',
  Forall2 (fun q q' => fst q = fst q' /\ trained 1 (fst (fst q)) /\ 0 <= snd q <= snd q') image image' /\
  nth_error (process_image (fun l => l) br co image) i = Some z /\
  nth_error (process_image (fun l => l) br co image') i = Some z' /\ (z' < z)%Z.
Proof.
  exists 0, 100, [(plain, None, 0.003); (plain, None, 0.003)], [(plain, None, 0.003); (plain, None, 1)], 0%nat, (level (dark_gamma 0.003)), (level (bright_gamma 0.003)).
  assert (trained 1 plain) as T.
  { unfold trained, in_bounds; cbn. repeat split; try lra. rewrite Rmult_0_l, exp_0. lra. }
  split.
  { apply Forall2_cons; [|apply Forall2_cons; [|apply Forall2_nil]]; cbn [fst snd]; (split; [reflexivity|split; [exact T|lra]]). }
  assert (forall x, 0 <= x <= 1 -> normalise 0 100 plain None x = x) as N by exact plain_normalise.
  unfold process_image. cbn [map fst snd]. rewrite !N by lra. unfold gamma_correct. cbn [forallb]. unfold is_dark.
  destruct (Rlt_dec 0.003 0.0031308) as [_|]; [|lra]. destruct (Rlt_dec 1 0.0031308); [lra|]. cbn [andb map nth_error].
  split; [reflexivity|]. split; [reflexivity|]. rewrite (level_low (bright_gamma 0.003)) by apply bright_dark. pose proof level_dark. lia.
Qed.
Print Assumptions C98_brighter_image_refuted.

(** A pixel of brightness 1/2 seen from 1 m and from 3 m with the curve 2 exp(-x/2), target 2 m. *)
Example C97_example : let p := mkparams 2 (- / 2) 0 (2 * exp (- / 2 * 2)) 0 1 0 1 in
  trained 2 p /\
  process_image (fun l => l) 0 100 [seen p (/ 2) 1; seen p (/ 4) 3] = process_image (fun l => l) 0 100 [seen p (/ 2) 3; seen p (/ 4) 1] /\
  normalise 0 100 p (Some 1) (/ 2 * (2 * exp (- / 2 * 1) + 0)) = clip01 (exp (-1)).
Proof.
  intros p. assert (trained 2 p) as T. { unfold trained, in_bounds, p; cbn [p_a p_b p_c p_gain p_std]. repeat split; lra. }
  split; [exact T|]. split.
  - apply (C97_distance (fun l => l) 2 0 100 [(p, / 2); (p, / 4)] [1; 3] [3; 1]); auto. intros q [<-|[<-|[]]]; exact T.
  - pose proof (normalise_seen 2 0 100 p (/ 2) 1 T) as E. cbn [seen snd p p_a p_b p_c p_mean p_std] in E. rewrite E.
    unfold stat. f_equal. unfold p; cbn [p_mean p_std p_a p_b p_c]. replace (- / 2 * 2) with (-1) by lra. field.
Qed.
