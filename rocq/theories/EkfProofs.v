From mathcomp Require Import all_ssreflect all_algebra.
From Verif Require Import EkfModel EkfSpec.
Set Implicit Arguments.
Unset Strict Implicit.
Unset Printing Implicit Defensive.
Import Order.TTheory GRing.Theory Num.Theory.
Local Open Scope ring_scope.

Section Psd.
Variable R : realFieldType.

Lemma symD k (M N : 'M[R]_k) : symmetric M -> symmetric N -> symmetric (M + N).
Proof. by rewrite /symmetric linearD /= => -> ->. Qed.

Lemma symB k (M N : 'M[R]_k) : symmetric M -> symmetric N -> symmetric (M - N).
Proof. by rewrite /symmetric linearB /= => -> ->. Qed.

Lemma sym_conj k m (B : 'M[R]_(m, k)) (M : 'M[R]_k) : symmetric M -> symmetric (B *m M *m B^T).
Proof. by rewrite /symmetric !trmx_mul trmxK => ->; rewrite mulmxA. Qed.

Lemma psdD k (M N : 'M[R]_k) : psd M -> psd N -> psd (M + N).
Proof.
move=> [sM pM] [sN pN]; split; first exact: symD.
by move=> v; rewrite mulmxDr mulmxDl mxE addr_ge0.
Qed.

Lemma psdZ k a (M : 'M[R]_k) : 0 <= a -> psd M -> psd (a *: M).
Proof.
move=> a0 [sM pM]; split; first by rewrite /symmetric linearZ /= sM.
by move=> v; rewrite -scalemxAr -scalemxAl mxE mulr_ge0.
Qed.

Lemma psd_conj k m (B : 'M[R]_(m, k)) (M : 'M[R]_k) : psd M -> psd (B *m M *m B^T).
Proof.
move=> [sM pM]; split; first exact: sym_conj.
move=> v; have := pM (B^T *m v).
by rewrite trmx_mul trmxK !mulmxA.
Qed.

Lemma psd0 k : psd (0 : 'M[R]_k).
Proof. by split=> [|v]; rewrite ?/symmetric ?trmx0 // mulmx0 mul0mx mxE. Qed.

(** Quadratic form of a diagonal matrix. *)
Lemma diag_form k (M : 'M[R]_k) (v : 'cV[R]_k) : (forall i j, i != j -> M i j = 0) ->
  (v^T *m M *m v) 0 0 = \sum_i M i i * v i 0 ^+ 2.
Proof.
move=> d; rewrite mxE; apply: eq_bigr => j _.
rewrite mxE (bigD1 j) //= big1 ?addr0; last by move=> i ij; rewrite d // mulr0.
by rewrite mxE mulrC mulrA mulrC expr2 mulrA.
Qed.

Lemma psd_diag k (M : 'M[R]_k) : (forall i j, i != j -> M i j = 0) -> (forall i, 0 <= M i i) -> psd M.
Proof.
move=> d p; split.
  apply/matrixP => i j; rewrite mxE; case: (eqVneq i j) => [-> //|ij].
  by rewrite !d // eq_sym.
by move=> v; rewrite diag_form //; apply: sumr_ge0 => i _; rewrite mulr_ge0 ?sqr_ge0.
Qed.

Lemma tiny_gt0 : 0 < tiny R.
Proof. by rewrite /tiny invr_gt0 exprn_gt0 // ltr0n. Qed.

Lemma floor_ge v : tiny R <= floor_variance v.
Proof. by rewrite /floor_variance; set w := (if _ then _ else v); case: (ltP w (tiny R)). Qed.

Variable n : nat.

Lemma R_of_diag (idx : seq 'I_n) (C : 'M[R]_n) : uniq idx -> (forall i j, i != j -> C i j = 0) ->
  forall i j, i != j -> R_of idx C i j = 0.
Proof.
move=> U d i j ij; rewrite mxE (negbTE ij) d //.
by rewrite (inj_eq (_ : injective (tnth (in_tuple idx)))) //; apply/tuple_uniqP.
Qed.

Lemma R_of_psd (idx : seq 'I_n) (C : 'M[R]_n) : uniq idx -> (forall i j, i != j -> C i j = 0) ->
  psd (R_of idx C).
Proof.
move=> U d; apply: psd_diag; first exact: R_of_diag.
by move=> i; rewrite mxE eqxx (le_trans (ltW tiny_gt0)) // floor_ge.
Qed.

(** A positive definite matrix is invertible. *)
Lemma pd_unit k (M : 'M[R]_k) : (forall v : 'cV[R]_k, v != 0 -> 0 < (v^T *m M *m v) 0 0) -> M \in unitmx.
Proof.
move=> p; rewrite -row_free_unit; apply: inj_row_free => v vM.
case: (eqVneq v 0) => // nz.
have nz' : v^T != 0 by apply: contra nz => /eqP/(congr1 trmx); rewrite trmxK trmx0 => ->.
by have := p _ nz'; rewrite trmxK vM mul0mx mxE ltxx.
Qed.

Lemma trmx_fixed k (M : 'M[R]_k) : symmetric M -> M^T = M.
Proof. by []. Qed.

Variables (wrap wrap2 : R -> R) (transfer jacobian : R -> 'cV[R]_n -> 'M[R]_n).

Lemma update_uniq (m : measurement R n) : uniq (update_indices m).
Proof. by rewrite filter_uniq // enum_uniq. Qed.

(** The innovation covariance is positive definite. *)
Lemma form_gt0 k (M : 'M[R]_k) : (forall i j, i != j -> M i j = 0) -> (forall i, 0 < M i i) ->
  forall v : 'cV[R]_k, v != 0 -> 0 < (v^T *m M *m v) 0 0.
Proof.
move=> d p v nz; rewrite diag_form //.
have [i vi] : exists i, v i 0 != 0.
  apply/existsP; apply: contraNT nz; rewrite negb_exists => /forallP h.
  apply/eqP/matrixP => i j; rewrite ord1 [RHS]mxE; apply/eqP.
  by rewrite -[_ == _]negbK; apply: h.
rewrite (bigD1 i) //= ltr_paddr //.
  by apply: sumr_ge0 => j _; rewrite mulr_ge0 ?sqr_ge0 // ltW.
by rewrite mulr_gt0 // lt_def sqr_ge0 sqrf_eq0 vi.
Qed.

Lemma S_unit (P C : 'M[R]_n) (idx : seq 'I_n) : psd P -> uniq idx -> (forall i j, i != j -> C i j = 0) ->
  H_of R idx *m (P *m (H_of R idx)^T) + R_of idx C \in unitmx.
Proof.
move=> pP U d; apply: pd_unit => v nz.
rewrite mulmxDr mulmxDl mxE ltr_paddl //.
  by rewrite [H_of R idx *m (_ *m _)]mulmxA; case: (psd_conj (H_of R idx) pP) => _ /(_ v).
apply: form_gt0 => //; first exact: R_of_diag.
by move=> i; rewrite mxE eqxx (lt_le_trans tiny_gt0) // floor_ge.
Qed.

Lemma every_rcons T (p : T -> Prop) l a : every p (rcons l a) <-> every p l /\ p a.
Proof. by elim: l => [|b l IH] /=; [tauto | rewrite IH; tauto]. Qed.

Definition ok (k : filter R n) : Prop :=
  psd (f_P k) /\ psd (f_Q k) /\ every (fun s => psd (e_P s)) (f_states k).

Lemma predict_ok t d k : ok k -> ok (predict wrap transfer jacobian t d k).
Proof.
move=> [pP [pQ pS]].
have pP' : psd (jacobian d (f_x k) *m f_P k *m (jacobian d (f_x k))^T + `|d| *: f_Q k).
  by apply: psdD; [exact: psd_conj | exact: psdZ].
by split=> //; split=> //; apply/every_rcons.
Qed.

Lemma set_last_ok (l : seq (ekf_state R n)) x P :
  every (fun s => psd (e_P s)) l -> psd P -> every (fun s => psd (e_P s)) (set_last l x P).
Proof.
case: l => [//|s l]; rewrite {1}lastI => /every_rcons [h _] pP.
by apply/every_rcons.
Qed.

Lemma correct_ok m k : ok k -> independent m ->
  exists k', correct wrap m k = Some k' /\ ok k'.
Proof.
move=> [pP [pQ pS]] im; rewrite /correct /correct_with /inverse S_unit //; last exact: update_uniq.
eexists; split; first reflexivity.
have pP' K : let H := H_of R (update_indices m) in
  psd ((1%:M - K *m H) *m f_P k *m (1%:M - K *m H)^T + K *m R_of (update_indices m) (m_cov m) *m K^T).
  by apply: psdD; apply: psd_conj => //; apply: R_of_psd => //; exact: update_uniq.
case: ifP => _; last by split; [|split].
split; first exact: pP'.
split=> //=; apply: set_last_ok => //; exact: pP'.
Qed.

Lemma steps_ok ops k : ok k -> every (@op_independent R n) ops ->
  exists k', steps wrap transfer jacobian ops k = Some k' /\ ok k'.
Proof.
elim: ops k => [|[t d|m] ops IH] k hk /= h; first by exists k.
  by apply: IH h.2; exact: predict_ok.
have [k' [-> hk']] := correct_ok hk h.1.
exact: IH hk' h.2.
Qed.

(** Smoothing. *)
Lemma joseph_smooth (P A Q J : 'M[R]_n) d : symmetric P -> symmetric Q ->
  let Pp := A *m P *m A^T + d *: Q in
  J *m Pp = P *m A^T ->
  P - J *m Pp *m J^T = (1%:M - J *m A) *m P *m (1%:M - J *m A)^T + d *: (J *m Q *m J^T).
Proof.
move=> sP sQ Pp hJ.
have sPp : Pp^T = Pp by apply: symD; [exact: sym_conj | rewrite /symmetric linearZ /= sQ].
have e1 : J *m Pp *m J^T = P *m A^T *m J^T by rewrite hJ.
have e2 : J *m A *m P = J *m Pp *m J^T.
  have := congr1 trmx e1; rewrite !trmx_mul !trmxK sPp sP => e; rewrite -mulmxA -e.
  by rewrite mulmxA.
have e4 : P *m (A^T *m J^T) = J *m Pp *m J^T by rewrite mulmxA -e1.
have e3 : J *m A *m P *m (A^T *m J^T) = J *m Pp *m J^T - d *: (J *m Q *m J^T).
  rewrite /Pp mulmxDr mulmxDl -scalemxAr -scalemxAl addrK.
  by rewrite !mulmxA.
rewrite linearB /= trmx1 [(J *m A)^T]trmx_mul mulmxBl mul1mx mulmxBr mulmx1 mulmxBl e3 e4 e2.
set X := J *m Pp *m J^T; set Z := d *: _.
have -> : X - (X - Z) = Z by rewrite opprB addrC subrK.
by rewrite subrK.
Qed.

Lemma mulmxVr k (M : 'M[R]_k) (N : 'M[R]_(k)) : M \in unitmx -> N *m invmx M *m M = N.
Proof. by move=> u; rewrite -mulmxA mulVmx // mulmx1. Qed.

Lemma smooth_step_psd Q s sf s' : psd Q -> psd (e_P s) -> psd (e_P sf) -> e_time s <= e_time sf ->
  smooth_step transfer jacobian wrap2 false Q s sf = Some s' ->
  e_time s' = e_time s /\ psd (e_P s').
Proof.
move=> pQ pP pF ht; rewrite /smooth_step /inverse.
set d := e_time sf - e_time s; set A := jacobian d (e_x s).
set Pp := A *m e_P s *m A^T + d *: Q.
have d0 : 0 <= d by rewrite subr_ge0.
case: ifP => // u [<-] /=; split=> //.
set J := e_P s *m A^T *m invmx Pp.
have hJ : J *m Pp = e_P s *m A^T by exact: mulmxVr.
rewrite mulmxBr mulmxBl addrCA; apply: psdD; first exact: psd_conj.
rewrite (joseph_smooth pP.1 pQ.1 hJ); apply: psdD; first exact: psd_conj.
by apply: psdZ => //; exact: psd_conj.
Qed.

Lemma smooth_step_sym b Q s sf s' : symmetric Q -> symmetric (e_P s) -> symmetric (e_P sf) ->
  smooth_step transfer jacobian wrap2 b Q s sf = Some s' ->
  e_time s' = e_time s /\ symmetric (e_P s').
Proof.
move=> sQ sP sF; rewrite /smooth_step /inverse.
case: ifP => // u [<-] /=; split=> //.
apply: symD => //; apply: sym_conj; apply: symB => //; apply: symD; first exact: sym_conj.
by rewrite /symmetric linearZ /= sQ.
Qed.

Lemma smooth_tail_psd Q l r : psd Q -> every (fun s => psd (e_P s)) l ->
  sorted <=%R (recorded_times l) -> smooth_tail transfer jacobian wrap2 Q l = Some r ->
  recorded_times r = recorded_times l /\ every (fun s => psd (e_P s)) r.
Proof.
move=> pQ; elim: l r => [|s l IH] r /=; first by move=> _ _ [<-].
move=> [ps pl] so; case E: smooth_tail => [[|sf q]|//].
  have [e _] := IH _ pl (path_sorted so) E.
  by case: l e {IH pl so E} => // _ [<-].
have [e pq] := IH _ pl (path_sorted so) E.
case E2: smooth_step => [s'|//] [<-].
have [] := smooth_step_psd pQ ps pq.1 _ E2.
  by move: so; rewrite -e /= => /andP[].
by move=> et ps'; rewrite -e /= et; split.
Qed.

Lemma smooth_psd Q l r : psd Q -> every (fun s => psd (e_P s)) l ->
  sorted <=%R (recorded_times l) -> smooth transfer jacobian wrap2 Q l = Some r -> (1 < size l)%N ->
  recorded_times r = recorded_times l /\ every (fun s => psd (e_P s)) (behead r) /\
  every (fun s => symmetric (e_P s)) r.
Proof.
move=> pQ; case: l => [//|s [//|s1 l]] [ps pl] so; rewrite /smooth.
move: pl; rewrite -[X in X -> _]/(every (fun s => psd (e_P s)) (s1 :: l)) => pl.
case E: smooth_tail => [[|sf q]|//] h _.
  by have [] := smooth_tail_psd pQ pl (path_sorted so) E.
have [e pq] := smooth_tail_psd pQ pl (path_sorted so) E.
move: h; case E2: smooth_step => [s'|//] [<-].
have [et sy] := smooth_step_sym pQ.1 ps.1 pq.1.1 E2.
rewrite [recorded_times (s' :: _)]/= [recorded_times (s :: _)]/= et -[_ :: [seq _ | _ <- q]]/(recorded_times (sf :: q)) e.
split=> //; split=> //; split=> //.
have ev T (p p' : T -> Prop) (k : seq T) : (forall a, p a -> p' a) -> every p k -> every p' k.
  by move=> i; elim: k => //= a k IH [/i pa /IH].
by apply: (ev _ _ _ _ _ pq) => a [].
Qed.

(** Recorded times and the last recorded state. *)
Lemma set_last_times (l : seq (ekf_state R n)) x P : recorded_times (set_last l x P) = recorded_times l.
Proof.
case: l => [//|s l]; rewrite /set_last [in RHS]lastI /recorded_times !map_rcons //.
Qed.

Lemma step_times o k k' : step wrap transfer jacobian o k = Some k' ->
  recorded_times (f_states k') = recorded_times (f_states k) ++ stamps [:: o].
Proof.
case: o => [t d|m] /=; first by case=> <- /=; rewrite /recorded_times map_rcons cats1.
rewrite cats0 /correct /correct_with; case: inverse => [Si|//] [<-].
by case: ifP => _ //=; rewrite set_last_times.
Qed.

Lemma steps_times ops k k' : steps wrap transfer jacobian ops k = Some k' ->
  recorded_times (f_states k') = recorded_times (f_states k) ++ stamps ops.
Proof.
elim: ops k => [|o ops IH] k /=; first by case=> <-; rewrite cats0.
case E: step => [k1|//] /IH ->; rewrite (step_times E) -catA.
by case: o E.
Qed.

Definition current (k : filter R n) : Prop :=
  match f_states k with
  | [::] => False
  | s :: l => e_x (last s l) = f_x k /\ e_P (last s l) = f_P k
  end.

Lemma step_current o k k' : current k -> step wrap transfer jacobian o k = Some k' -> current k'.
Proof.
rewrite /current; case: o => [t d|m] /=.
  by move=> _ [<-] /=; case: (f_states k) => [|s l] //=; rewrite last_rcons.
rewrite /correct /correct_with; case: inverse => [Si|//] h [<-].
case: ifP => _ //=; case: (f_states k) h => [//|s l] _ /=.
by case: l => [|s1 l] //=; rewrite last_rcons.
Qed.

Lemma steps_current ops k k' : current k -> steps wrap transfer jacobian ops k = Some k' -> current k'.
Proof.
elim: ops k => [|o ops IH] k /= hk; first by case=> <-.
case E: step => [k1|//]; exact: IH (step_current hk E).
Qed.

(** Reports. *)
Definition counts (k : filter R n) (a : nat -> nat) : Prop :=
  forall t, r_total (f_report k t) = a t /\ (r_valid (f_report k t) + r_dropped (f_report k t) = a t)%N /\
    size (f_rejected k t) = r_dropped (f_report k t).

Lemma steps_counts ops k k' a : counts k a -> steps wrap transfer jacobian ops k = Some k' ->
  counts k' (fun t => a t + attempts t ops)%N.
Proof.
elim: ops k a => [|o ops IH] k a h /=.
  by case=> <- t; rewrite addn0.
case E: step => [k1|//] /IH H.
have /H H2 : counts k1 (fun t => a t + attempts t [:: o])%N.
  case: o E => [t d|m] /=; first by case=> <- t'; rewrite /attempts /= !addn0; exact: h.
  rewrite /correct /correct_with; case: inverse => [Si|//] [<-] t.
  have [h1 [h2 h3]] := h t; rewrite /attempts /= addn0.
  have [<-|ne] := eqVneq (m_type m) t; last first.
    by case: (~~ (_ <= _)); rewrite /= /upd eq_sym (negbTE ne) addn0.
  by have := h (m_type m); case=> [g1 [g2 g3]]; case: (~~ (_ <= _)); rewrite /= /upd eqxx /= addn1 ?size_rcons ?g3 ?addSn ?addnS ?g2; split=> //; split.
by move=> t; have := H2 t; rewrite -addnA /attempts /= addn0.
Qed.

(** An accepted correction: optimal gain. *)
Lemma gain_form k (P : 'M[R]_n) (H : 'M[R]_(k, n)) (Rm : 'M[R]_k) K :
  symmetric P -> symmetric Rm -> K *m (H *m (P *m H^T) + Rm) = P *m H^T ->
  (1%:M - K *m H) *m P *m (1%:M - K *m H)^T + K *m Rm *m K^T = P - K *m H *m P /\
  K *m H *m P = K *m (H *m (P *m H^T) + Rm) *m K^T.
Proof.
move=> sP sR; set S := _ + Rm => hK.
have sS : S^T = S by apply: symD => //; rewrite mulmxA; exact: sym_conj.
have e1 : K *m S *m K^T = P *m H^T *m K^T by rewrite hK.
have e2 : K *m H *m P = K *m S *m K^T.
  have := congr1 trmx e1; rewrite !trmx_mul !trmxK sS sP => e; rewrite -mulmxA -e.
  by rewrite mulmxA.
split=> //.
have e4 : P *m (H^T *m K^T) = K *m S *m K^T by rewrite mulmxA -e1.
have e3 : K *m H *m P *m (H^T *m K^T) = K *m S *m K^T - K *m Rm *m K^T.
  by rewrite /S mulmxDr mulmxDl addrK !mulmxA.
rewrite linearB /= trmx1 [(K *m H)^T]trmx_mul mulmxBl mul1mx mulmxBr mulmx1 mulmxBl e3 e4 e2.
set X := K *m S *m K^T; set Z := K *m Rm *m _.
have -> : X - (X - Z) = Z by rewrite opprB addrC subrK.
by rewrite subrK.
Qed.

(** A correction uses only the estimates. *)
Lemma correct_same m (k1 k2 k1' : filter R n) : same_estimates k1 k2 -> correct wrap m k1 = Some k1' ->
  exists k2', correct wrap m k2 = Some k2' /\ same_estimates k1' k2'.
Proof.
case: k1 => t1 x1 P1 Q1 h1 n1 s1 r1 j1; case: k2 => t2 x2 P2 Q2 h2 n2 s2 r2 j2.
rewrite /same_estimates /= => -[-> [-> [-> [-> [-> ->]]]]].
rewrite /correct /correct_with /=; case: inverse => [Si|//] [<-].
eexists; split; first reflexivity.
by case: (~~ (_ <= _)).
Qed.

Lemma predict_same t d (k1 k2 : filter R n) : same_estimates k1 k2 ->
  same_estimates (predict wrap transfer jacobian t d k1) (predict wrap transfer jacobian t d k2).
Proof.
case: k1 => t1 x1 P1 Q1 h1 n1 s1 r1 j1; case: k2 => t2 x2 P2 Q2 h2 n2 s2 r2 j2.
by rewrite /same_estimates /= => -[_ [-> [-> [-> [-> ->]]]]].
Qed.

Lemma correct_dropped m (k k' : filter R n) : correct wrap m k = Some k' ->
  same_estimates k' k \/ (forall t, r_dropped (f_report k' t) = r_dropped (f_report k t)).
Proof.
rewrite /correct /correct_with; case: inverse => [Si|//] [<-].
case: (~~ (_ <= _)); last by left.
by right=> t /=; rewrite /upd; case: eqP => [->|].
Qed.

Lemma same_refl (k : filter R n) : same_estimates k k.
Proof. by []. Qed.

Lemma same_trans (k1 k2 k3 : filter R n) : same_estimates k1 k2 -> same_estimates k2 k3 -> same_estimates k1 k3.
Proof. by rewrite /same_estimates => -[-> [-> [-> [-> [-> ->]]]]]. Qed.

Lemma steps_same_mask ops (k1 k2 k' : filter R n) : same_estimates k1 k2 ->
  steps wrap transfer jacobian ops k1 = Some k' ->
  exists b k'', size b = size ops /\ steps wrap transfer jacobian (mask b ops) k2 = Some k'' /\
    same_estimates k' k'' /\ forall t, r_dropped (f_report k'' t) = r_dropped (f_report k2 t).
Proof.
elim: ops k1 k2 => [|o ops IH] k1 k2 e /=.
  by case=> <-; exists [::], k2.
case E: step => [k1'|//] h.
case: o E => [t d [E]|m E] /=.
  have /IH : same_estimates k1' (predict wrap transfer jacobian t d k2).
    by rewrite -E; exact: predict_same.
  by move=> /(_ h) [b [k'' [sb [st [es dr]]]]]; exists (true :: b), k''; rewrite /= sb.
have [k2' [E2 e2]] := correct_same e E.
case: (correct_dropped E2) => [e3|dr].
  have /IH /(_ h) [b [k'' [sb [st [es dr]]]]] : same_estimates k1' k2 by exact: same_trans e2 e3.
  by exists (false :: b), k''; rewrite /= sb.
have [b [k'' [sb [st [es dr2]]]]] := IH _ _ e2 h.
exists (true :: b), k''; rewrite /= sb E2; split=> //; split=> //; split=> // t.
by rewrite dr2.
Qed.
End Psd.
