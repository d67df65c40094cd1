(** C16, C17, C66: covariance, gating and smoothing of the EKF. *)
From mathcomp Require Import all_ssreflect all_algebra.
From Verif Require Import EkfModel EkfSpec EkfProofs EkfWitness.
Set Implicit Arguments.
Unset Strict Implicit.
Unset Printing Implicit Defensive.
Import Order.TTheory GRing.Theory Num.Theory.
Local Open Scope ring_scope.

(** Every sequence of predictions and corrections runs to its end (no singular
    matrix), and every covariance it produces is a covariance matrix: for any
    motion model, any Jacobian, any wrapping, any threshold. *)
Theorem C16_covariance : forall (R : realFieldType) (n : nat) (wrap : R -> R)
    (transfer jacobian : R -> 'cV[R]_n -> 'M[R]_n) (t thr : R) (x : 'cV[R]_n) (P Q : 'M[R]_n)
    (ops : seq (op R n)),
  psd P -> psd Q -> every (@op_independent R n) ops ->
  exists k, steps wrap transfer jacobian ops (initial t x P Q thr) = Some k /\
    psd (f_P k) /\ every (fun s => psd (e_P s)) (f_states k).
Proof.
move=> R n wrap transfer jacobian t thr x P Q ops pP pQ io.
have [|k [-> [h [_ hs]]]] := steps_ok (k := initial t x P Q thr) wrap transfer jacobian _ io.
  by split=> //; split.
by exists k.
Qed.
Print Assumptions C16_covariance.

(** One state is recorded per prediction, the last one is the current estimate. *)
Theorem C16_states_recorded : forall (R : realFieldType) (n : nat) (wrap : R -> R)
    (transfer jacobian : R -> 'cV[R]_n -> 'M[R]_n) (t thr : R) (x : 'cV[R]_n) (P Q : 'M[R]_n)
    (ops : seq (op R n)) k,
  steps wrap transfer jacobian ops (initial t x P Q thr) = Some k ->
  recorded_times (f_states k) = t :: stamps ops /\
  exists l s, f_states k = rcons l s /\ e_x s = f_x k /\ e_P s = f_P k.
Proof.
move=> R n wrap transfer jacobian t thr x P Q ops k h; split.
  by rewrite (steps_times h).
have := steps_current _ h; rewrite /current.
case: (f_states k) => [|s l] /(_ (conj erefl erefl)) // [h1 h2].
by exists (belast s l), (last s l); rewrite -lastI.
Qed.
Print Assumptions C16_states_recorded.

(** An accepted measurement never makes any direction more uncertain. *)
Theorem C16_correction_reduces_uncertainty : forall (R : realFieldType) (n : nat) (wrap : R -> R)
    (m : measurement R n) (k k' : filter R n),
  psd (f_P k) -> independent m -> correct wrap m k = Some k' -> no_more_uncertain (f_P k') (f_P k).
Proof.
move=> R n wrap m k k' pP im; rewrite /correct /correct_with /inverse S_unit //; last exact: update_uniq.
case=> <-; case: (~~ (_ <= _)) => //= v.
set H := H_of R _; set Rm := R_of _ _; set S := H *m _ + Rm.
have u : S \in unitmx by apply: S_unit => //; exact: update_uniq.
have pR : psd Rm by apply: R_of_psd => //; exact: update_uniq.
have hK : f_P k *m H^T *m invmx S *m S = f_P k *m H^T by rewrite -[_ *m S]mulmxA mulVmx // mulmx1.
have [-> ->] := gain_form pP.1 pR.1 hK.
have pS : psd S by apply: psdD => //; rewrite mulmxA; exact: psd_conj.
have := (psd_conj (f_P k *m H^T *m invmx S) pS).2 v.
set X := _ *m S *m _ => pX; rewrite mulmxBr mulmxBl.
have entry (A B : 'M[R]_1) : (A - B) 0 0 = A 0 0 - B 0 0 by rewrite !mxE.
by rewrite entry ler_subl_addr ler_addl.
Qed.
Print Assumptions C16_correction_reduces_uncertainty.

(** Smoothing keeps the time stamps and the symmetry of every covariance. *)
Theorem C16_smoothing_symmetric : forall (R : realFieldType) (n : nat) (wrap wrap2 : R -> R)
    (transfer jacobian : R -> 'cV[R]_n -> 'M[R]_n) (t thr : R) (x : 'cV[R]_n) (P Q : 'M[R]_n)
    (ops : seq (op R n)) k r,
  psd P -> psd Q -> every (@op_independent R n) ops -> sorted <=%R (t :: stamps ops) -> stamps ops <> [::] ->
  steps wrap transfer jacobian ops (initial t x P Q thr) = Some k ->
  smooth transfer jacobian wrap2 Q (f_states k) = Some r ->
  recorded_times r = t :: stamps ops /\ every (fun s => symmetric (e_P s)) r.
Proof.
move=> R n wrap wrap2 transfer jacobian t thr x P Q ops k r pP pQ io so ne hs hr.
have [|k' [E [_ [_ ps]]]] := steps_ok (k := initial t x P Q thr) wrap transfer jacobian _ io.
  by split=> //; split.
move: E; rewrite hs => -[E]; rewrite -E in ps.
have ht := steps_times hs; rewrite /= in ht.
have so' : sorted <=%R (recorded_times (f_states k)) by rewrite ht.
have sz : (1 < size (f_states k))%N.
  by rewrite -(size_map (@e_time R n)) -/(recorded_times _) ht /=; case: (stamps ops) ne.
have [? [? ?]] := smooth_psd pQ ps so' hr sz.
by rewrite -ht.
Qed.
Print Assumptions C16_smoothing_symmetric.

Example C16_example : let R := rat_realFieldType in
  psd (1%:M : 'M[R]_2) /\ psd (0 : 'M[R]_2) /\ every (@op_independent R 2) (ops2 R) /\
  exists k, steps id (@step2 R) (@step2 R) (ops2 R) (start2 R) = Some k /\ f_P k = P2 R.
Proof.
move=> R; split; first by split=> [|v]; rewrite ?/symmetric ?trmx1 // mulmx1 mxE sumr_ge0 // => i _; rewrite mxE -expr2 sqr_ge0.
split; first exact: psd0.
split; first by split=> //; split=> // i j _; rewrite mxE.
have [k [h s]] := correct2 R; exists k; split=> //.
by have := steps_current (k := start2 R) (conj erefl erefl) h; rewrite /current s => -[].
Qed.

(** A prediction: the motion model's state with its angles wrapped, the covariance carried
    along by the Jacobian plus the process noise for the time passed. *)
Theorem C16_prediction : forall (R : realFieldType) (n : nat) (wrap : R -> R)
    (transfer jacobian : R -> 'cV[R]_n -> 'M[R]_n) (t delta : R) (k : filter R n),
  let k' := predict wrap transfer jacobian t delta k in
  let A := jacobian delta (f_x k) in
  let x := transfer delta (f_x k) *m f_x k in
  f_time k' = t /\ (forall i, f_x k' i 0 = if angular i then wrap (x i 0) else x i 0) /\
  forall v : 'cV[R]_n, 0 <= delta ->
    (v^T *m f_P k' *m v) 0 0 = ((A^T *m v)^T *m f_P k *m (A^T *m v)) 0 0 + delta * (v^T *m f_Q k *m v) 0 0.
Proof.
move=> R n wrap transfer jacobian t delta k k' A x; split=> //; split=> [i|v d0].
  rewrite /k' /= !mxE -/x /is_angle /angular !inE.
  by case: i => -[|[|[|[|[|[|i]]]]]] hi //=; rewrite mxE.
rewrite /k' /= -/A ger0_norm // mulmxDr mulmxDl trmx_mul trmxK !mulmxA.
by rewrite [LHS]mxE -scalemxAr -scalemxAl [X in _ + X]mxE.
Qed.
Print Assumptions C16_prediction.

(** C17.  The decision: rejected exactly when the squared distance of the
    innovation reaches the square of the threshold.  The innovation covariance is that of the
    updated components plus the variances given, negative ones turned positive and none below
    1e-9. *)
Theorem C17_gate : forall (R : realFieldType) (n : nat) (wrap : R -> R) (m : measurement R n) (k k' : filter R n),
  psd (f_P k) -> independent m -> correct wrap m k = Some k' ->
  exists s (u : 'I_s -> 'I_n) (S : 'M[R]_s) (y : 'cV[R]_s) q, picks m u /\
    (forall i j, S i j = f_P k (u i) (u j) + if i == j then Num.max `|m_cov m (u i) (u i)| (10%:R ^+ 9)^-1 else 0) /\
    (forall i, let d := m_z m (u i) 0 - f_x k (u i) 0 in y i 0 = if angular (u i) then wrap d else d) /\
    squared_distance y S q /\
    if f_threshold k ^+ 2 <= q then
      same_estimates k' k /\ r_dropped (f_report k' (m_type m)) = (r_dropped (f_report k (m_type m))).+1 /\
      f_rejected k' (m_type m) = rcons (f_rejected k (m_type m)) (m_time m)
    else
      r_valid (f_report k' (m_type m)) = (r_valid (f_report k (m_type m))).+1 /\
      f_rejected k' =1 f_rejected k /\ f_time k' = m_time m /\
      exists K : 'M[R]_(n, s), (forall i j, (K *m S) i j = f_P k i (u j)) /\
        (forall i, let x := f_x k i 0 + (K *m y) i 0 in f_x k' i 0 = if angular i then wrap x else x) /\
        (forall i j, f_P k' i j = f_P k i j - \sum_l K i l * f_P k (u l) j).
Proof.
move=> R n wrap m k k' pP im; rewrite /correct /correct_with /inverse S_unit //; last exact: update_uniq.
set idx := update_indices m; set H := H_of R idx; set S := H *m _ + _.
have u : S \in unitmx by apply: S_unit => //; exact: update_uniq.
set y := wrap_innovation _ _ => -[<-] /=.
pose w i := tnth (in_tuple idx) i.
have sel l (F : 'I_n -> R) : \sum_j (j == l)%:R * F j = F l.
  by rewrite (bigD1 l) //= eqxx mul1r big1 ?addr0 // => j /negbTE ->; rewrite mul0r.
have selP i j : (f_P k *m H^T) i j = f_P k i (w j).
  by rewrite mxE -(sel (w j) (fun l => f_P k i l)); apply: eq_bigr => l _; rewrite !mxE mulrC.
have winj : injective w by move=> i j /(tuple_uniqP (in_tuple idx)); apply; exact: update_uniq.
exists (size idx), w, S, y, (mahalanobis2 y (invmx S)); split.
  split=> // j; have := mem_filter (fun i => m_update m i && ~~ m_nan m i) j (enum 'I_n).
  rewrite mem_enum andbT -/idx => E; split.
    case=> i h; have := mem_tnth i (in_tuple idx); rewrite -/(w i) h => h'.
    by move: E; rewrite (_ : j \in _ = true) //; case: (m_update m j); case: (m_nan m j).
  case=> a b; move: E; rewrite a b /= => h.
  have h' : j \in in_tuple idx by [].
  by have /tnthP [i ->] := h'; exists i.
split.
  move=> i j; rewrite mxE; congr (_ + _).
    by rewrite mxE -(sel (w i) (fun l => f_P k l (w j))); apply: eq_bigr => l _; rewrite selP !mxE.
  rewrite mxE; case: eqP => [_|ne]; last by apply: im; apply/eqP => /winj.
  rewrite /floor_variance /tiny -/(w i).
  have -> : (if m_cov m (w i) (w i) < 0 then `|m_cov m (w i) (w i)| else m_cov m (w i) (w i)) = `|m_cov m (w i) (w i)|.
    by case: ltrP => // h; rewrite ger0_norm.
  by rewrite /Num.max /Order.max.
split.
  move=> i; rewrite !mxE -/(w i) /is_angle /angular !inE.
  by case: (w i) => -[|[|[|[|[|[|a]]]]]] hi.
split.
  by exists (invmx S *m y); rewrite mulmxA mulmxV // mul1mx.
case: (_ <= _) => /=; first by rewrite /upd eqxx.
rewrite /upd eqxx /=; split=> //; split=> //; split=> //.
exists (f_P k *m H^T *m invmx S).
have hK : f_P k *m H^T *m invmx S *m S = f_P k *m H^T by rewrite -[_ *m S]mulmxA mulVmx // mulmx1.
split; first by move=> i j; rewrite hK selP.
split.
  move=> i /=; rewrite !mxE /is_angle /angular !inE.
  by case: i => -[|[|[|[|[|[|a]]]]]] hi.
have pR : psd (R_of idx (m_cov m)) by apply: R_of_psd => //; exact: update_uniq.
have [-> _] := gain_form pP.1 pR.1 hK.
move=> i j; rewrite mxE; congr (_ + _); rewrite mxE -mulmxA mxE; congr (- _).
apply: eq_bigr => l _; congr (_ * _).
by rewrite mxE -(sel (w l) (fun a => f_P k a j)); apply: eq_bigr => a _; rewrite !mxE.
Qed.
Print Assumptions C17_gate.

(** Every attempt is accounted for, per measurement type. *)
Theorem C17_report : forall (R : realFieldType) (n : nat) (wrap : R -> R)
    (transfer jacobian : R -> 'cV[R]_n -> 'M[R]_n) (t thr : R) (x : 'cV[R]_n) (P Q : 'M[R]_n)
    (ops : seq (op R n)) k ty,
  steps wrap transfer jacobian ops (initial t x P Q thr) = Some k ->
  r_total (f_report k ty) = attempts ty ops /\
  (r_valid (f_report k ty) + r_dropped (f_report k ty) = attempts ty ops)%N /\
  size (f_rejected k ty) = r_dropped (f_report k ty).
Proof.
move=> R n wrap transfer jacobian t thr x P Q ops k ty h.
have c0 : counts (initial t x P Q thr) (fun=> 0%N) by [].
exact: (steps_counts c0 h ty).
Qed.
Print Assumptions C17_report.

(** The rejected measurements might as well not have been there: dropping them
    from the sequence gives the same estimates and no rejection at all. *)
Theorem C17_rejected_leave_no_trace : forall (R : realFieldType) (n : nat) (wrap : R -> R)
    (transfer jacobian : R -> 'cV[R]_n -> 'M[R]_n) (t thr : R) (x : 'cV[R]_n) (P Q : 'M[R]_n)
    (ops : seq (op R n)) k,
  steps wrap transfer jacobian ops (initial t x P Q thr) = Some k ->
  exists b k', size b = size ops /\
    steps wrap transfer jacobian (mask b ops) (initial t x P Q thr) = Some k' /\
    same_estimates k k' /\ forall ty, r_dropped (f_report k' ty) = 0%N.
Proof.
move=> R n wrap transfer jacobian t thr x P Q ops k h.
exact: steps_same_mask (same_refl _) h.
Qed.
Print Assumptions C17_rejected_leave_no_trace.

(** With a zero threshold the same measurement is rejected. *)
Example C17_example : let R := rat_realFieldType in
  (exists k, correct id (meas2 R) (initial 0 0 1%:M 0 1) = Some k /\ r_valid (f_report k 0%N) = 1%N) /\
  (exists k, correct id (meas2 R) (initial 0 0 1%:M 0 0) = Some k /\ r_dropped (f_report k 0%N) = 1%N).
Proof.
have p1 : psd (1%:M : 'M[rat_realFieldType]_2).
  by split=> [|v]; rewrite ?/symmetric ?trmx1 // mulmx1 mxE sumr_ge0 // => i _; rewrite mxE -expr2 sqr_ge0.
have d : independent (meas2 rat_realFieldType) by move=> i j _; rewrite mxE.
have y0 k : mahalanobis2 (wrap_innovation id (sub_of (update_indices (meas2 rat_realFieldType)) (m_z (meas2 rat_realFieldType)) - sub_of (update_indices (meas2 rat_realFieldType)) 0)) k = 0.
  rewrite /mahalanobis2 (_ : wrap_innovation _ _ = 0) ?mulmx0 ?mxE //.
  by apply/matrixP => i j; rewrite !mxE subrr; case: ifP.
split; rewrite /correct /correct_with /inverse S_unit //=; try exact: update_uniq.
all: eexists; split; first reflexivity.
all: by rewrite y0 /= ?expr1n ?ler10 ?expr0n ?lexx.
Qed.

(** C66: smoothing.  All states but the first keep covariance matrices. *)
Theorem C66_smoothed_covariance : forall (R : realFieldType) (n : nat) (wrap wrap2 : R -> R)
    (transfer jacobian : R -> 'cV[R]_n -> 'M[R]_n) (t thr : R) (x : 'cV[R]_n) (P Q : 'M[R]_n)
    (ops : seq (op R n)) k r,
  psd P -> psd Q -> every (@op_independent R n) ops -> sorted <=%R (t :: stamps ops) -> stamps ops <> [::] ->
  steps wrap transfer jacobian ops (initial t x P Q thr) = Some k ->
  smooth transfer jacobian wrap2 Q (f_states k) = Some r ->
  every (fun s => psd (e_P s)) (behead r).
Proof.
move=> R n wrap wrap2 transfer jacobian t thr x P Q ops k r pP pQ io so ne hs hr.
have [|k' [E [_ [_ ps]]]] := steps_ok (k := initial t x P Q thr) wrap transfer jacobian _ io.
  by split=> //; split.
move: E; rewrite hs => -[E]; rewrite -E in ps.
have ht := steps_times hs; rewrite /= in ht.
have so' : sorted <=%R (recorded_times (f_states k)) by rewrite ht.
have sz : (1 < size (f_states k))%N.
  by rewrite -(size_map (@e_time R n)) -/(recorded_times _) ht /=; case: (stamps ops) ne.
have [? [? ?]] := smooth_psd pQ ps so' hr sz.
by [].
Qed.
Print Assumptions C66_smoothed_covariance.

(** Every state but the first and the last is smoothed from its successor; the last one is left
    as it is. *)
Lemma smooth_step_from (R : realFieldType) (n : nat) (wrap2 : R -> R) (transfer jacobian : R -> 'cV[R]_n -> 'M[R]_n)
    (Q : 'M[R]_n) (s sf s' : ekf_state R n) :
  smooth_step transfer jacobian wrap2 false Q s sf = Some s' -> smoothed_from transfer jacobian wrap2 Q s sf s'.
Proof.
rewrite /smooth_step /inverse; set M := _ + _ *: Q; case: ifP => // u [<-]; split=> //.
exists (e_P s *m (jacobian (e_time sf - e_time s) (e_x s))^T *m invmx M).
exists (\col_i if is_angle i then wrap2 ((e_x sf - transfer (e_time sf - e_time s) (e_x s) *m e_x s) i 0)
               else (e_x sf - transfer (e_time sf - e_time s) (e_x s) *m e_x s) i 0).
split; first by rewrite -[LHS]mulmxA mulVmx // mulmx1.
split; last by [].
move=> i /=; rewrite mxE /is_angle /angular !inE.
by case: i => -[|[|[|[|[|[|a]]]]]] hi //=; rewrite !mxE.
Qed.
Lemma smooth_tail_from (R : realFieldType) (n : nat) (wrap2 : R -> R) (transfer jacobian : R -> 'cV[R]_n -> 'M[R]_n)
    (Q : 'M[R]_n) (s0 : ekf_state R n) : forall l r, smooth_tail transfer jacobian wrap2 Q l = Some r ->
  size r = size l /\ last s0 r = last s0 l /\
  forall i, (i.+1 < size l)%N -> smoothed_from transfer jacobian wrap2 Q (nth s0 l i) (nth s0 r i.+1) (nth s0 r i).
Proof.
elim=> [|s l IH] r /=; first by case=> <-.
case E: (smooth_tail _ _ _ _ l) => [[|sf r']|] //.
  by case=> <-; have [sz _] := IH _ E; case: l sz {IH E}.
have [sz [la st]] := IH _ E; case F: smooth_step => [s'|] // [<-] /=; split; first by rewrite -sz.
split; first by case: (l) sz la.
case=> [|i] hi /=; first exact: smooth_step_from F.
exact: st.
Qed.
Theorem C66_recursion : forall (R : realFieldType) (n : nat) (wrap2 : R -> R)
    (transfer jacobian : R -> 'cV[R]_n -> 'M[R]_n) (Q : 'M[R]_n) (l r : seq (ekf_state R n)) s0,
  (1 < size l)%N -> smooth transfer jacobian wrap2 Q l = Some r ->
  size r = size l /\ last s0 r = last s0 l /\
  forall i, (0 < i)%N -> (i.+1 < size l)%N ->
    smoothed_from transfer jacobian wrap2 Q (nth s0 l i) (nth s0 r i.+1) (nth s0 r i).
Proof.
move=> R n wrap2 transfer jacobian Q [|s [|s1 l]] r s0 // _.
have H := @smooth_tail_from R n wrap2 transfer jacobian Q s0 (s1 :: l).
rewrite /smooth; move: H; set t := smooth_tail _ _ _ _ _; case: t => [[|sf r']|] // /(_ _ erefl) [sz [la st]] //.
case: smooth_step => [s'|] // [<-]; split; first by congr _.+1.
split; first by [].
by case=> [|i] // _ hi; exact: st.
Qed.
Print Assumptions C66_recursion.

(** Refuted for the first state: after one prediction and one accepted
    correction the smoothed variance of the first velocity is negative. *)
Theorem C166_first_state_refuted : forall R : realFieldType,
  exists (step : R -> 'cV[R]_2 -> 'M[R]_2) (P Q : 'M[R]_2) (ops : seq (op R 2)) k s r,
  psd P /\ psd Q /\ every (@op_independent R 2) ops /\ sorted <=%R (0 :: stamps ops) /\
  steps id step step ops (initial 0 0 P Q 1) = Some k /\
  smooth step step id Q (f_states k) = Some (s :: r) /\ e_P s 1 1 < 0.
Proof.
move=> R; have [k [h s]] := correct2 R; have [s0 [s1 [hs neg]]] := smooth2 R.
exists (@step2 R), 1%:M, 0, (ops2 R), k, s0, [:: s1].
split; first by split=> [|v]; rewrite ?/symmetric ?trmx1 // mulmx1 mxE sumr_ge0 // => i _; rewrite mxE -expr2 sqr_ge0.
split; first exact: psd0.
split; first by split=> //; split=> // i j _; rewrite mxE.
split; first by rewrite /= ler01.
by rewrite h s hs.
Qed.
Print Assumptions C166_first_state_refuted.

(** A run with a single recorded state is smoothed to nothing. *)
Theorem C166_single_state_dropped : forall (R : realFieldType) (n : nat) (wrap2 : R -> R)
    (transfer jacobian : R -> 'cV[R]_n -> 'M[R]_n) (Q : 'M[R]_n) (s : ekf_state R n),
  smooth transfer jacobian wrap2 Q [:: s] = Some [::].
Proof. by []. Qed.
Print Assumptions C166_single_state_dropped.
