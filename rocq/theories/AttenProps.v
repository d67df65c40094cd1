(** C43: attenuation correction; C50: altitude-intensity pairs. *)
From Coq Require Import Reals List Lra Psatz.
From Verif Require Import AttenModel.
Import ListNotations.
Open Scope R_scope.

(** ** Specification *)
(** The bounds of the fit (curve_fitting.py:150-151) and the fallback [1, 0, 0]. *)
Definition in_bounds (a b c : R) : Prop := 1 / 1000000 <= a /\ b <= 0 /\ 0 <= c.
(** What a camera sees at altitude [h] of a surface of reflectivity [s]. *)
Definition observed (a b c s h : R) : R := s * (a * exp (b * h) + c).

Lemma denominator_pos : forall a b c h, in_bounds a b c -> 0 < a * exp (b * h) + c.
Proof. intros a b c h (A & B & C). pose proof (exp_pos (b * h)). assert (0 < a * exp (b * h)) by (apply Rmult_lt_0_compat; lra). lra. Qed.

(** ** C43 *)
Theorem C43_no_zero_division : forall a b c h, in_bounds a b c -> a * exp (b * h) + c <> 0.
Proof. intros a b c h H. pose proof (denominator_pos a b c h H). lra. Qed.
Print Assumptions C43_no_zero_division.
Theorem C43_neutral_at_target : forall a b c target x, in_bounds a b c -> attenuation_correct a b c (gain a b c target) target x = x.
Proof. intros a b c h x H. pose proof (denominator_pos a b c h H). unfold attenuation_correct, gain. field. lra. Qed.
Print Assumptions C43_neutral_at_target.
Theorem C43_inverts_the_curve : forall a b c target h s, in_bounds a b c ->
  attenuation_correct a b c (gain a b c target) h (observed a b c s h) = observed a b c s target.
Proof. intros a b c t h s H. pose proof (denominator_pos a b c h H). unfold attenuation_correct, gain, observed. field. lra. Qed.
Print Assumptions C43_inverts_the_curve.
Theorem C43_monotone : forall a b c target h x y, in_bounds a b c -> x < y ->
  attenuation_correct a b c (gain a b c target) h x < attenuation_correct a b c (gain a b c target) h y.
Proof.
  intros a b c t h x y H L. unfold attenuation_correct, gain. apply Rmult_lt_compat_l; [|exact L].
  apply Rdiv_lt_0_compat; now apply denominator_pos.
Qed.
Print Assumptions C43_monotone.
(** Images from further away than the target are brightened, those from nearer darkened. *)
Theorem C43_brightens_far_images : forall a b c target h x, in_bounds a b c -> 0 <= x -> target <= h ->
  x <= attenuation_correct a b c (gain a b c target) h x.
Proof.
  intros a b c t h x H X L. pose proof (denominator_pos a b c h H) as P. unfold attenuation_correct, gain.
  assert (exp (b * h) <= exp (b * t)) as E.
  { destruct H as (_ & B & _). assert (b * h <= b * t) as [M|M] by nra; [left; now apply exp_increasing|right; now rewrite M]. }
  destruct H as (A & _ & C).
  assert (1 <= (a * exp (b * t) + c) / (a * exp (b * h) + c)).
  { apply (Rmult_le_reg_r (a * exp (b * h) + c)); [exact P|]. unfold Rdiv. rewrite Rmult_assoc, Rinv_l, Rmult_1_r, Rmult_1_l by lra.
    apply Rplus_le_compat_r, Rmult_le_compat_l; lra. }
  rewrite <- (Rmult_1_l x) at 1. now apply Rmult_le_compat_r.
Qed.
Print Assumptions C43_brightens_far_images.
Theorem C43_darkens_near_images : forall a b c target h x, in_bounds a b c -> 0 <= x -> h <= target ->
  0 <= attenuation_correct a b c (gain a b c target) h x <= x.
Proof.
  intros a b c t h x H X L. pose proof (denominator_pos a b c h H) as P. pose proof (denominator_pos a b c t H) as P'.
  unfold attenuation_correct, gain.
  assert (exp (b * t) <= exp (b * h)) as E.
  { destruct H as (_ & B & _). assert (b * t <= b * h) as [M|M] by nra; [left; now apply exp_increasing|right; now rewrite M]. }
  destruct H as (A & _ & C).
  assert ((a * exp (b * t) + c) / (a * exp (b * h) + c) <= 1).
  { apply (Rmult_le_reg_r (a * exp (b * h) + c)); [exact P|]. unfold Rdiv. rewrite Rmult_assoc, Rinv_l, Rmult_1_r, Rmult_1_l by lra.
    apply Rplus_le_compat_r, Rmult_le_compat_l; lra. }
  split; [apply Rmult_le_pos; [left; now apply Rdiv_lt_0_compat|exact X]|].
  rewrite <- (Rmult_1_l x) at 2. now apply Rmult_le_compat_r.
Qed.
Print Assumptions C43_darkens_near_images.
(** The fallback parameters leave every image as it is. *)
Theorem C43_fallback_is_identity : forall target h x, attenuation_correct 1 0 0 (gain 1 0 0 target) h x = x.
Proof. intros t h x. unfold attenuation_correct, gain. rewrite !Rmult_0_l, exp_0. field. Qed.
Print Assumptions C43_fallback_is_identity.

(** The starting point: either the replacement or a curve through both samples, within the
    bounds except for the lower bound on [a]. *)
Theorem C43_initial_guess : forall low int_0 int_1 alt_0 alt_1, 0 < low -> low <= int_0 -> low <= int_1 -> alt_0 <> alt_1 ->
  exists a b c, initial low int_0 int_1 alt_0 alt_1 = (Fin a, Fin b, Fin c) /\ 0 < a /\ b <= 0 /\ 0 < c /\ c < low /\
    ((exp_curve a b c alt_0 = int_0 /\ exp_curve a b c alt_1 = int_1) \/
     (a = 101 / 100 /\ b = - 1 / 100 /\ 0 < (int_0 - int_1) * (alt_0 - alt_1))).
Proof.
  intros low i0 i1 h0 h1 L0 L1 L2 N. unfold initial. destruct (Req_EM_T (h0 - h1) 0) as [E|_]; [lra|].
  set (c := low * / 2). assert (0 < c < low) as [C1 C2] by (unfold c; lra).
  set (b := ln ((i0 - c) / (i1 - c)) / (h0 - h1)). set (a := (i1 - c) / exp (b * h1)).
  assert (0 < a) as A by (apply Rdiv_lt_0_compat; [lra|apply exp_pos]).
  destruct (Rle_dec a 0); [lra|]. destruct (Rlt_dec 0 b) as [B|B].
  - exists (101 / 100), (- 1 / 100), c. split; [reflexivity|]. repeat split; try lra. right. split; [reflexivity|]. split; [reflexivity|].
    assert (0 < ln ((i0 - c) / (i1 - c)) * (h0 - h1)) as P.
    { assert (ln ((i0 - c) / (i1 - c)) = b * (h0 - h1)) as -> by (unfold b; field; lra).
      assert (0 < (h0 - h1) * (h0 - h1)) by nra. nra. }
    set (q := (i0 - c) / (i1 - c)) in *.
    assert (0 < q) as Q by (apply Rdiv_lt_0_compat; lra).
    assert (i0 - c = q * (i1 - c)) as I by (unfold q; field; lra).
    destruct (Rtotal_order q 1) as [K|[K|K]].
    + assert (ln q < 0) by (rewrite <- ln_1; apply ln_increasing; lra). assert (h0 - h1 < 0) by nra. assert (i0 < i1) by nra. nra.
    + rewrite K, ln_1 in P. lra.
    + assert (0 < ln q) by (rewrite <- ln_1; apply ln_increasing; lra). assert (0 < h0 - h1) by nra. assert (i1 < i0) by nra. nra.
  - exists a, b, c. split; [reflexivity|]. repeat split; try lra. left. unfold exp_curve.
    pose proof (exp_pos (b * h1)) as P1. pose proof (exp_pos (b * h0)) as P0.
    assert (a * exp (b * h1) = i1 - c) as E1 by (unfold a; field; lra).
    split; [|lra]. assert (exp (b * h0) = exp (b * h1) * ((i0 - c) / (i1 - c))) as ->.
    { assert (b * h0 = b * h1 + ln ((i0 - c) / (i1 - c))) as -> by (unfold b; field; lra).
      rewrite exp_plus, exp_ln; [reflexivity|]. apply Rdiv_lt_0_compat; lra. }
    rewrite <- Rmult_assoc, E1. field. lra.
Qed.
Print Assumptions C43_initial_guess.
(** Two samples at the same altitude, the second brighter: the starting point is infinite,
    and it is what the function returns when the fit refuses it (183-214). *)
Theorem C143_infinite_start_refuted : exists low int_0 int_1 alt_0 alt_1, 0 < low /\ low <= int_0 /\ low <= int_1 /\ 0 < alt_0 /\ 0 < alt_1 /\
  exists c, initial low int_0 int_1 alt_0 alt_1 = (PInf, MInf, Fin c).
Proof.
  exists 1, 1, 2, 5, 5. repeat split; try lra. eexists. unfold initial. destruct (Req_EM_T (5 - 5) 0) as [_|E]; [|lra].
  destruct (Rlt_dec _ 0) as [_|E]; [reflexivity|]. exfalso. apply E. rewrite <- ln_1. apply ln_increasing; lra.
Qed.
Print Assumptions C143_infinite_start_refuted.
Example C43_example : attenuation_correct 2 0 1 (gain 2 0 1 5) 9 4 = 4 /\ in_bounds 2 0 1.
Proof. split; [unfold attenuation_correct, gain; rewrite !Rmult_0_l, exp_0; field|unfold in_bounds; lra]. Qed.

(** ** C50 *)
(** A pair is a measurement if both were taken from the same position. *)
Definition measured (alts ints : list float) (p : float * float) : Prop := In p (combine alts ints).
(** When the same positions are non-finite in both lists, exactly the finite positive
    measurements are used, in order. *)
Theorem C50_pairs : forall alts ints, length alts = length ints ->
  (forall i a x, nth_error alts i = Some a -> nth_error ints i = Some x -> is_finite a = is_finite x) ->
  samples alts ints = filter (fun p => (is_finite (fst p) && is_finite (snd p) && positive (fst p) && positive (snd p))%bool) (combine alts ints).
Proof.
  unfold samples. induction alts as [|a alts IH]; intros [|x ints] L H; try discriminate; [reflexivity|].
  injection L as L. assert (forall i a x, nth_error alts i = Some a -> nth_error ints i = Some x -> is_finite a = is_finite x) as H'
    by (intros i; exact (H (S i))). specialize (H 0%nat a x eq_refl eq_refl). cbn [combine filter fst snd]. rewrite <- H.
  destruct (is_finite a) eqn:F; cbn [combine filter fst snd andb]; [|now apply IH].
  destruct (positive a && positive x)%bool; now rewrite IH.
Qed.
Print Assumptions C50_pairs.
(** One missing altitude and one missing intensity at different places: pairs that were never
    measured. *)
Theorem C150_pairs_refuted : exists alts ints p, length alts = length ints /\ In p (samples alts ints) /\ ~ measured alts ints p.
Proof.
  exists [Fin 2; NaN; Fin 3; Fin 4], [Fin 20; Fin 30; NaN; Fin 40], (Fin 3, Fin 30).
  unfold samples, measured. cbn [filter is_finite combine positive fst snd]. unfold Rgtb.
  repeat (destruct (Rlt_dec 0 _) as [_|E]; [|lra]). cbn. split; [reflexivity|]. split; [tauto|].
  intros [E|[E|[E|[E|[]]]]]; injection E as E; try discriminate; lra.
Qed.
Print Assumptions C150_pairs_refuted.
(** Every selected altitude and every selected intensity was finite and positive. *)
Theorem C50_positive : forall alts ints a x, In (a, x) (samples alts ints) ->
  In a alts /\ In x ints /\ (exists r, a = Fin r /\ 0 < r) /\ exists r, x = Fin r /\ 0 < r.
Proof.
  intros alts ints a x H. unfold samples in H. apply filter_In in H as [H P]. cbn [fst snd] in P. apply andb_prop in P as [P1 P2].
  pose proof (in_combine_l _ _ _ _ H) as A. pose proof (in_combine_r _ _ _ _ H) as X. apply filter_In in A as [A FA], X as [X FX].
  split; [exact A|]. split; [exact X|].
  assert (forall f, is_finite f = true -> positive f = true -> exists r, f = Fin r /\ 0 < r) as K.
  { intros [r| | |] E1 E2; try discriminate. exists r. split; [reflexivity|]. cbn in E2. unfold Rgtb in E2. destruct (Rlt_dec 0 r); [assumption|discriminate]. }
  split; now apply K.
Qed.
Print Assumptions C50_positive.
Example C50_example : samples [Fin 2; NaN; Fin 3] [Fin 5; PInf; Fin 6] = [(Fin 2, Fin 5); (Fin 3, Fin 6)].
Proof. unfold samples. cbn [filter is_finite combine positive fst snd]. unfold Rgtb. repeat (destruct (Rlt_dec 0 _) as [_|E]; [|lra]). reflexivity. Qed.
