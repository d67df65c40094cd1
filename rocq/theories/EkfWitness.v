(** Explicit two-component filter (a position and its velocity) used as examples
    and counterexample.  [e] stands for the floor 1e-9. *)
From mathcomp Require Import all_ssreflect all_algebra.
From mathcomp.algebra_tactics Require Import ring.
From Verif Require Import EkfModel EkfSpec EkfProofs.
Set Implicit Arguments.
Unset Strict Implicit.
Unset Printing Implicit Defensive.
Import Order.TTheory GRing.Theory Num.Theory.
Local Open Scope ring_scope.

Section Two.
Variable R : realFieldType.

Definition mx2 (a b c d : R) : 'M[R]_2 :=
  \matrix_(i, j) if i == 0 then (if j == 0 then a else b) else (if j == 0 then c else d).

Lemma mx2P (M N : 'M[R]_2) : M 0 0 = N 0 0 -> M 0 1 = N 0 1 -> M 1 0 = N 1 0 -> M 1 1 = N 1 1 -> M = N.
Proof.
move=> h1 h2 h3 h4; apply/matrixP => i j.
have o (k : 'I_2) : k = 0 \/ k = 1.
  by case: k => [[|[|//]] h]; [left | right]; apply: val_inj.
by case: (o i) => ->; case: (o j) => ->.
Qed.

Lemma mx2_mul a b c d a' b' c' d' : mx2 a b c d *m mx2 a' b' c' d' =
  mx2 (a * a' + b * c') (a * b' + b * d') (c * a' + d * c') (c * b' + d * d').
Proof. by apply: mx2P; rewrite !mxE !big_ord_recl big_ord0 !mxE /= addr0. Qed.

Lemma mx2_add a b c d a' b' c' d' : mx2 a b c d + mx2 a' b' c' d' = mx2 (a + a') (b + b') (c + c') (d + d').
Proof. by apply: mx2P; rewrite !mxE. Qed.

Lemma mx2_opp a b c d : - mx2 a b c d = mx2 (- a) (- b) (- c) (- d).
Proof. by apply: mx2P; rewrite !mxE. Qed.

Lemma mx2_tr a b c d : (mx2 a b c d)^T = mx2 a c b d.
Proof. by apply: mx2P; rewrite !mxE. Qed.

Lemma mx2_1 : 1%:M = mx2 1 0 0 1.
Proof. by apply: mx2P; rewrite !mxE. Qed.

Lemma mx2_inv (A B : 'M[R]_2) : A *m B = 1%:M -> A \in unitmx /\ invmx A = B.
Proof.
move=> h; have [u _] := mulmx1_unit h; split=> //.
by rewrite -[invmx A]mulmx1 -h mulmxA mulVmx // mul1mx.
Qed.

Definition step2 (_ : R) (_ : 'cV[R]_2) : 'M[R]_2 := mx2 1 1 0 1.
Definition start2 : filter R 2 := initial 0 0 1%:M 0 1.
Definition meas2 : measurement R 2 := Measurement 0 0 predT pred0 0 1.
Definition ops2 : seq (op R 2) := [:: Predict 2 1 1; Correct meas2].
Notation e := (tiny R).
Definition D : R := 1 + 3%:R * e + e ^+ 2.
Definition P2 : 'M[R]_2 :=
  mx2 ((e + 2%:R * e ^+ 2) / D) (e ^+ 2 / D) (e ^+ 2 / D) ((e + e ^+ 2) / D).

Lemma D0 : D != 0.
Proof.
have h := tiny_gt0 R; apply: lt0r_neq0.
by rewrite /D !addr_gt0 // ?mulr_gt0 ?exprn_gt0 ?ltr01 ?ltr0n.
Qed.

Lemma update2 : update_indices meas2 = [:: 0; 1].
Proof.
rewrite /update_indices (@eq_filter _ _ predT); last by move=> i.
rewrite filter_predT enum_ordSl enum_ordSl (_ : enum 'I_0 = [::]); last by apply: size0nil; rewrite size_enum_ord.
by congr [:: _; _]; apply: val_inj.
Qed.

Lemma H2 : H_of R [:: 0 : 'I_2; 1] = 1%:M.
Proof. by apply: mx2P; rewrite !mxE. Qed.

Lemma R2 : R_of [:: 0 : 'I_2; 1] (0 : 'M[R]_2) = mx2 e 0 0 e.
Proof. by apply: mx2P; rewrite !mxE //= /floor_variance ltxx tiny_gt0. Qed.

Lemma predict2 : predict id step2 step2 1 1 start2 =
  Filter 1 0 (mx2 2%:R 1 1 1) 0 1 0 [:: EkfState 0 0 1%:M; EkfState 1 0 (mx2 2%:R 1 1 1)] (fun _ => report0) (fun _ => [::]).
Proof.
rewrite /predict /=.
have -> : step2 1 0 *m 1%:M *m (step2 1 0)^T + `|1| *: 0 = mx2 2%:R 1 1 1.
  rewrite mulmx1 scaler0 addr0 mx2_tr mx2_mul; congr mx2; by ring.
have -> : wrap_angles id (step2 1 0 *m 0) = 0 :> 'cV[R]_2.
  by rewrite mulmx0; apply/matrixP => i j; rewrite !mxE; case: ifP.
by [].
Qed.

Lemma correct2 : exists k, steps id step2 step2 ops2 start2 = Some k /\
  f_states k = [:: EkfState 0 0 1%:M; EkfState 1 0 P2].
Proof.
rewrite /ops2 /= predict2 /correct update2 /correct_with /= H2 R2 trmx1 mulmx1 mul1mx.
have d0 := D0; rewrite /D in d0.
have inv : (mx2 2%:R 1 1 1 + mx2 e 0 0 e) *m mx2 ((1 + e) / D) (- 1 / D) (- 1 / D) ((2%:R + e) / D) = 1%:M.
  rewrite mx2_add mx2_mul mx2_1 /D; congr mx2; field; exact: d0.
have [u iv] := mx2_inv inv; rewrite /inverse u iv.
set Si := mx2 _ _ _ ((2%:R + e) / D).
have y0 : wrap_innovation (idx := [:: 0 : 'I_2; 1]) id (sub_of [:: 0; 1] 0 - sub_of [:: 0; 1] 0) = 0 :> 'cV[R]_2.
  by apply/matrixP => i j; rewrite !mxE subrr; case: ifP.
rewrite y0 /mahalanobis2 mulmx0 mulmx0 [X in _ <= X]mxE expr1n ler10 /=.
eexists; split; first reflexivity.
rewrite /= mulmx0 addr0.
have -> : wrap_angles id 0 = 0 :> 'cV[R]_2 by apply/matrixP => i j; rewrite !mxE; case: ifP.
congr [:: _; EkfState _ _ _].
rewrite mulmx1 /Si !mx2_mul mx2_1 mx2_opp mx2_add !mx2_tr !mx2_mul !mx2_add /P2 /D; congr mx2; field; exact: d0.
Qed.

(** The smoothed covariance of the first state has a negative variance. *)
Lemma smooth2 : exists s s1,
  smooth step2 step2 id 0 [:: EkfState 0 0 1%:M; EkfState 1 0 P2] = Some [:: s; s1] /\ e_P s 1 1 < 0.
Proof.
rewrite /smooth /= /smooth_step /= subr0 scaler0 addr0 mulmx1.
have inv : step2 1 0 *m (step2 1 0)^T *m mx2 1 (-1) (-1) 2%:R = 1%:M.
  by rewrite mx2_tr !mx2_mul mx2_1; congr mx2; ring.
have [u iv] := mx2_inv inv; rewrite /inverse u iv.
eexists; eexists; split; first reflexivity.
rewrite [e_P _]/=.
have -> : \matrix_(i, j) (1%:M i j * (step2 1 0)^T i j) = mx2 1 0 0 1 :> 'M[R]_2.
  by apply: mx2P; rewrite !mxE /= ?mulr1 ?mul0r ?mulr0.
rewrite mx2_1 mx2_tr !mx2_mul /P2 mx2_opp mx2_add !mx2_mul mx2_tr !mx2_mul mx2_add mxE /=.
have d0 := D0; have dp : 0 < D.
  by rewrite /D !addr_gt0 // ?mulr_gt0 ?exprn_gt0 ?tiny_gt0 ?ltr01 ?ltr0n.
set v := (v in v < 0).
have -> : v = ((2%:R * e + e ^+ 2) - 1) / D.
  by rewrite /v /D; rewrite /D in d0; field; exact: d0.
rewrite pmulr_llt0 ?invr_gt0 // subr_lt0.
have t0 := tiny_gt0 R.
have e10 : e * 10%:R <= 1.
  rewrite /tiny -ler_pdivl_mull ?mulr1 ?invr_gt0 ?exprn_gt0 ?ltr0n // invrK.
  by rewrite ler_eexpr // ler1n.
have e1 : e < 1.
  apply: lt_le_trans e10; rewrite -[X in X < _]mulr1 ltr_pmul2l //; by rewrite ltr1n.
apply: lt_le_trans e10.
rewrite (_ : 2%:R * e + e ^+ 2 = e * (2%:R + e)); last by ring.
rewrite ltr_pmul2l //; apply: (@lt_trans _ _ (2%:R + 1)).
  by rewrite ltr_add2l.
by rewrite -(natrD _ 2 1) ltr_nat.
Qed.
End Two.
