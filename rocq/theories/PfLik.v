(** Model and facts of the observation likelihood (auv_nav/localisation/pf.py:25-28,
    78-115), over the reals. *)
From Coq Require Import Reals Lra.
Open Scope R_scope.

(** pf.py:25-28. *)
Definition gaussian_pdf (mu sigma x : R) : R :=
  exp (- ((mu - x) * (mu - x)) / (sigma * sigma) / 2) / sqrt (2 * PI * (sigma * sigma)).

(** pf.py:92-95. *)
Definition obs_std (factor n_std e_std d_std : R) : R :=
  factor * sqrt (n_std * n_std + e_std * e_std + d_std * d_std).

(** pf.py:107-114: likelihood of a particle at (x, y, z) for a fix at (ox, oy, oz). *)
Definition likelihood (std ox oy oz x y z : R) : R :=
  gaussian_pdf 0 std (sqrt ((ox - x) * (ox - x) + (oy - y) * (oy - y) + (oz - z) * (oz - z))).

Lemma den_pos sigma : sigma <> 0 -> 0 < sqrt (2 * PI * (sigma * sigma)).
Proof.
  intro H. apply sqrt_lt_R0. pose proof PI_RGT_0.
  assert (0 < sigma * sigma) by (apply Rsqr_pos_lt in H; exact H). nra.
Qed.

Lemma gaussian_pos mu sigma x : sigma <> 0 -> 0 < gaussian_pdf mu sigma x.
Proof. intro H. apply Rdiv_lt_0_compat; [apply exp_pos|now apply den_pos]. Qed.

Lemma gaussian_decreasing sigma d e : sigma <> 0 -> 0 <= d -> d < e ->
  gaussian_pdf 0 sigma e < gaussian_pdf 0 sigma d.
Proof.
  intros H H0 H1. unfold gaussian_pdf, Rdiv. pose proof (den_pos sigma H) as D.
  apply Rmult_lt_compat_r; [now apply Rinv_0_lt_compat|]. apply exp_increasing.
  assert (S : 0 < sigma * sigma) by (apply Rsqr_pos_lt in H; exact H).
  apply Rinv_0_lt_compat in S. assert (d * d < e * e) by nra. nra.
Qed.

Lemma likelihood_pos std ox oy oz x y z : std <> 0 -> 0 < likelihood std ox oy oz x y z.
Proof. apply gaussian_pos. Qed.

Lemma likelihood_closer std ox oy oz x y z x' y' z' : std <> 0 ->
  (ox - x) * (ox - x) + (oy - y) * (oy - y) + (oz - z) * (oz - z) <
  (ox - x') * (ox - x') + (oy - y') * (oy - y') + (oz - z') * (oz - z') ->
  likelihood std ox oy oz x' y' z' < likelihood std ox oy oz x y z.
Proof.
  intros H L. apply gaussian_decreasing; [exact H|apply sqrt_pos|]. apply sqrt_lt_1_alt. split; [|exact L].
  pose proof (Rle_0_sqr (ox - x)). pose proof (Rle_0_sqr (oy - y)). pose proof (Rle_0_sqr (oz - z)). unfold Rsqr in *. lra.
Qed.

(** Twenty standard deviations away the likelihood is below the 1e-20 that
    [normalize] adds. *)
Lemma exp_neg_pow n : exp (- INR n) <= (/ 2) ^ n.
Proof.
  induction n as [|n IH]; [cbn; rewrite Ropp_0, exp_0; lra|].
  rewrite S_INR, Ropp_plus_distr, exp_plus. cbn [pow]. rewrite Rmult_comm.
  assert (E : exp (- (1)) <= / 2).
  { rewrite exp_Ropp. apply Rinv_le_contravar; [lra|]. pose proof (exp_ineq1 1). lra. }
  pose proof (exp_pos (- INR n)). pose proof (exp_pos (- (1))). apply Rmult_le_compat; lra.
Qed.

Lemma far_likelihood : gaussian_pdf 0 1 20 < / 100000000000000000000.
Proof.
  unfold gaussian_pdf. assert (I : INR 200 = 200) by (rewrite INR_IZR_INZ; reflexivity).
  replace (- ((0 - 20) * (0 - 20)) / (1 * 1) / 2) with (- INR 200) by (rewrite I; field).
  pose proof (exp_neg_pow 200) as E.
  assert (S : 1 <= sqrt (2 * PI * (1 * 1))).
  { rewrite <- sqrt_1 at 1. apply sqrt_le_1_alt. pose proof PI2_1. lra. }
  assert (P : (/ 2) ^ 200 < / 100000000000000000000).
  { rewrite pow_inv. apply Rinv_lt_contravar.
    - apply Rmult_lt_0_compat; [lra|apply pow_lt; lra].
    - replace 200%nat with (67 + 133)%nat by reflexivity. rewrite pow_add.
      assert (1 <= 2 ^ 133) by (apply pow_R1_Rle; lra).
      assert (100000000000000000000 < 2 ^ 67) by (cbn [pow]; lra).
      assert (0 < 2 ^ 67) by (apply pow_lt; lra). nra. }
  apply Rle_lt_trans with (exp (- INR 200)); [|lra].
  pose proof (exp_pos (- INR 200)). apply Rmult_le_reg_r with (sqrt (2 * PI * (1 * 1))); [lra|].
  unfold Rdiv. rewrite Rmult_assoc, Rinv_l by lra. nra.
Qed.
