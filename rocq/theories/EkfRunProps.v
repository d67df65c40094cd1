(** C18: the EKF's merge of its measurement streams. *)
From mathcomp Require Import all_ssreflect all_algebra.
From Verif Require Import EkfModel EkfSpec EkfProofs EkfRunModel EkfRunSpec EkfRunProofs.
Set Implicit Arguments.
Unset Strict Implicit.
Unset Printing Implicit Defensive.
Import Order.TTheory GRing.Theory Num.Theory.
Local Open Scope ring_scope.

Section Props.
Variables (R : realFieldType) (n : nat) (wrap : R -> R)
  (transfer jacobian : R -> 'cV[R]_n -> 'M[R]_n)
  (T : Type) (time : T -> R) (build : kind -> T -> 'cV[R]_n -> measurement R n).
Notation run := (run wrap transfer jacobian time build).

Lemma run_trace start endt x P Q thr i ps i' k : good_builder time build -> psd P -> psd Q ->
  run start endt x P Q thr i = Some (ps, i', k) ->
  trace time endt 0 (skip time start i) (initial start x P Q thr) ps i' k /\ ok k.
Proof.
move=> gb pP pQ; rewrite /run.
have ok0 : ok (initial start x P Q thr) by split=> //; split.
have [ps2 [i2 [k2 [-> [tr o]]]]] := loop_trace wrap transfer jacobian gb endt 0 ok0 (ltnSn (count (skip time start i))).
by case=> <- <- <-.
Qed.

Lemma run_total start endt x P Q thr i : good_builder time build -> psd P -> psd Q ->
  exists ps i' k, run start endt x P Q thr i = Some (ps, i', k).
Proof.
move=> gb pP pQ; rewrite /run.
have ok0 : ok (initial start x P Q thr) by split=> //; split.
have [ps2 [i2 [k2 [-> [tr o]]]]] := loop_trace wrap transfer jacobian gb endt 0 ok0 (ltnSn (count (skip time start i))).
by exists ps2, i2, k2.
Qed.

Lemma run_cat start endt x P Q thr i ps i' k : good_builder time build -> psd P -> psd Q ->
  input_in_order time i -> run start endt x P Q thr i = Some (ps, i', k) ->
  after time start (i_o i) = used (@p_o R T) ps ++ i_o i' /\
  after time start (i_u i) = used (@p_u R T) ps ++ i_u i' /\
  after time start (i_d i) = used (@p_d R T) ps ++ i_d i' /\
  after time start (i_v i) = used (@p_v R T) ps ++ i_v i' /\
  [seq q <- i_q i | start < q] = queried ps ++ i_q i'.
Proof.
move=> gb pP pQ /and5P[so su sd sv sq] /run_trace[] // tr _.
have [ho [hu [hd [hv hq]]]] := trace_cat tr.
by rewrite -!skip_t_after // -skip_q_after.
Qed.

Lemma run_order start endt x P Q thr i ps i' k : good_builder time build -> psd P -> psd Q ->
  input_in_order time i -> run start endt x P Q thr i = Some (ps, i', k) ->
  sorted <=%R (start :: map (@p_time R T) ps) /\ deltas_from start ps /\ every (stamped time) ps /\
  recorded_times (f_states k) = start :: map (@p_time R T) ps /\
  f_time k = last start (map (@p_time R T) ps).
Proof.
move=> gb pP pQ so /run_trace[] // tr _.
have [so' ge] := skip_facts start so.
have [h1 _] := trace_order tr so' ge; have [h2 [h3 h4]] := trace_times tr.
by split=> //; split=> //; split=> //; exact: trace_stamped tr.
Qed.

Lemma run_left start endt x P Q thr i ps i' k : good_builder time build -> psd P -> psd Q ->
  0 < endt -> input_in_order time i -> run start endt x P Q thr i = Some (ps, i', k) ->
  all_ge time endt i'.
Proof.
move=> gb pP pQ he so /run_trace[] // tr _.
have [so' ge] := skip_facts start so.
have [h1 [h2 h3]] := trace_order tr so' ge; have [h4 _] := trace_end tr.
case: h4 => [ne|h]; first by apply: next_all_ge => // a; rewrite ne.
apply: next_all_ge => // a /(all_ge_next h3) ha.
case: ps {tr h1} h h3 ha => [|p ps] /= h h3 ha; last exact: le_trans ha.
by have := lt_le_trans he h; rewrite ltxx.
Qed.
(** A query left over is not before the last pass, which is not before the end. *)
Lemma run_last start endt x P Q thr i ps i' k q : good_builder time build -> psd P -> psd Q ->
  0 < endt -> input_in_order time i -> run start endt x P Q thr i = Some (ps, i', k) ->
  q \in i_q i' -> exists2 t, t \in map (@p_time R T) ps & endt <= t <= q.
Proof.
move=> gb pP pQ he so /run_trace[] // tr _ qi.
have [so' ge] := skip_facts start so.
have [h1 [h2 h3]] := trace_order tr so' ge; have [h4 _] := trace_end tr.
case: h4 => [ne|h].
  by move: ne qi; rewrite /next_stamps; case: (i_q i') => [//|a l]; case: (next_t _ _); case: (next_t _ _); case: (next_t _ _); case: (next_t _ _).
case: ps {tr h1} h h3 => [|p ps] /= h h3; first by have := lt_le_trans he h; rewrite ltxx.
exists (last (p_time p) (map (@p_time R T) ps)); first exact: mem_last.
by rewrite h /=; case/and5P: h3 => _ _ _ _ /allP; apply.
Qed.
End Props.

(** The run always finishes, with covariance matrices throughout. *)
Theorem C18_completes : forall (R : realFieldType) (n : nat) (wrap : R -> R)
    (transfer jacobian : R -> 'cV[R]_n -> 'M[R]_n) (T : Type) (time : T -> R)
    (build : kind -> T -> 'cV[R]_n -> measurement R n) start endt x P Q thr (i : input R T),
  good_builder time build -> psd P -> psd Q ->
  exists ps i' k, run wrap transfer jacobian time build start endt x P Q thr i = Some (ps, i', k) /\
    every (fun s => psd (e_P s)) (f_states k).
Proof.
move=> R n wrap tr ja T time build start endt x P Q thr i gb pP pQ.
have [ps [i' [k E]]] := run_total wrap tr ja start endt x thr i gb pP pQ.
exists ps, i', k; split=> //.
by have [_ [_ [_ ?]]] := run_trace gb pP pQ E.
Qed.
Print Assumptions C18_completes.

(** The samples later than the start are the samples used, in the order of the
    list and each once, followed by those left over; the left over ones are not
    before the end. *)
Theorem C18_used_once_in_order : forall (R : realFieldType) (n : nat) (wrap : R -> R)
    (transfer jacobian : R -> 'cV[R]_n -> 'M[R]_n) (T : Type) (time : T -> R)
    (build : kind -> T -> 'cV[R]_n -> measurement R n) start endt x P Q thr (i : input R T) ps i' k,
  good_builder time build -> psd P -> psd Q -> 0 < endt -> input_in_order time i ->
  run wrap transfer jacobian time build start endt x P Q thr i = Some (ps, i', k) ->
  forall (stream : input R T -> seq T) (sel : pass R T -> option T),
  (stream, sel) = (@i_o R T, @p_o R T) \/ (stream, sel) = (@i_u R T, @p_u R T) \/
  (stream, sel) = (@i_d R T, @p_d R T) \/ (stream, sel) = (@i_v R T, @p_v R T) ->
  exists left, after time start (stream i) = used sel ps ++ left /\ all (fun e => endt <= time e) left.
Proof.
move=> R n wrap tr ja T time build start endt x P Q thr i ps i' k gb pP pQ he so E stream sel.
have [ho [hu [hd [hv _]]]] := run_cat gb pP pQ so E.
have /and5P[go gu gd gv _] := run_left gb pP pQ he so E.
move=> [|[|[|]]] [-> ->].
- by exists (i_o i').
- by exists (i_u i').
- by exists (i_d i').
- by exists (i_v i').
Qed.
Print Assumptions C18_used_once_in_order.

(** Time never goes back: passes are in time order, each prediction covers the
    time since the previous one, and samples are used at their own time stamp. *)
Theorem C18_time_order : forall (R : realFieldType) (n : nat) (wrap : R -> R)
    (transfer jacobian : R -> 'cV[R]_n -> 'M[R]_n) (T : Type) (time : T -> R)
    (build : kind -> T -> 'cV[R]_n -> measurement R n) start endt x P Q thr (i : input R T) ps i' k,
  good_builder time build -> psd P -> psd Q -> input_in_order time i ->
  run wrap transfer jacobian time build start endt x P Q thr i = Some (ps, i', k) ->
  sorted <=%R (start :: map (@p_time R T) ps) /\ deltas_from start ps /\ every (stamped time) ps /\
  recorded_times (f_states k) = start :: map (@p_time R T) ps /\
  f_time k = last start (map (@p_time R T) ps).
Proof. exact: run_order. Qed.
Print Assumptions C18_time_order.

(** A state is recorded at every query time between start and end. *)
Theorem C18_state_for_every_query : forall (R : realFieldType) (n : nat) (wrap : R -> R)
    (transfer jacobian : R -> 'cV[R]_n -> 'M[R]_n) (T : Type) (time : T -> R)
    (build : kind -> T -> 'cV[R]_n -> measurement R n) start endt x P Q thr (i : input R T) ps i' k q,
  good_builder time build -> psd P -> psd Q -> 0 < endt -> input_in_order time i ->
  run wrap transfer jacobian time build start endt x P Q thr i = Some (ps, i', k) ->
  q \in i_q i -> start <= q -> q <= endt -> q \in recorded_times (f_states k).
Proof.
move=> R n wrap tr ja T time build start endt x P Q thr i ps i' k q gb pP pQ he so E qi qs qe.
have [_ [_ [_ [-> _]]]] := run_order gb pP pQ so E.
rewrite inE; move: qs; rewrite le_eqVlt eq_sym => /orP[-> //|qs].
have [_ [_ [_ [_ hq]]]] := run_cat gb pP pQ so E.
have : q \in [seq q <- i_q i | start < q] by rewrite mem_filter qs.
rewrite hq mem_cat => /orP[h|h]; last first.
  have [t tin /andP[t1 t2]] := run_last gb pP pQ he so E h.
  have -> : q = t by apply/eqP; rewrite eq_le t2 (le_trans qe t1).
  by rewrite tin orbT.
apply/orP; right; move: h; rewrite /queried; elim: (ps) => [//|p l IH] /=.
case: (p_q p) => /=; last by move=> /IH h; rewrite inE h orbT.
by rewrite !inE => /orP[-> //|/IH ->]; rewrite orbT.
Qed.
Print Assumptions C18_state_for_every_query.

(** At most one pass is at or after the end. *)
Theorem C18_stops_at_end : forall (R : realFieldType) (n : nat) (wrap : R -> R)
    (transfer jacobian : R -> 'cV[R]_n -> 'M[R]_n) (T : Type) (time : T -> R)
    (build : kind -> T -> 'cV[R]_n -> measurement R n) start endt x P Q thr (i : input R T) ps p i' k,
  good_builder time build -> psd P -> psd Q ->
  run wrap transfer jacobian time build start endt x P Q thr i = Some (rcons ps p, i', k) ->
  all (fun t => t < endt) (map (@p_time R T) ps).
Proof.
move=> R n wrap tr ja T time build start endt x P Q thr i ps p i' k gb pP pQ E.
have [t _] := run_trace gb pP pQ E.
have [_ h] := trace_end t.
have : rcons ps p <> [::] by case: (ps).
by move/h; rewrite map_rcons belast_rcons /= => /andP[].
Qed.
Print Assumptions C18_stops_at_end.

(** Refuted: a measurement later than the end is used (the loop tests the stamp
    of the previous pass): end 5, a single velocity at 10. *)
Definition late_build (kd : kind) (e : rat) (x : 'cV[rat]_0) : measurement rat_realFieldType 0 :=
  Measurement 0 0 predT pred0 0 e.
Theorem C118_after_end_refuted : exists ps i' k p e,
  run id (fun _ _ => 0) (fun _ _ => 0) id late_build 1 5%:R 0 0 0 1 (Input [::] [::] [::] [:: 10%:R] [::])
    = Some (ps, i', k) /\ List.In p ps /\ p_v p = Some e /\ 5%:R < e.
Proof.
have gb : good_builder id late_build by move=> kd e x; split=> // i; case: (i).
have p0 : psd (0 : 'M[rat_realFieldType]_0) by exact: psd0.
have so : input_in_order id (Input [::] [::] [::] [:: 10%:R] [::] : input rat_realFieldType rat) by [].
have [ps [i' [k E]]] := run_total id (fun _ _ => 0) (fun _ _ => 0) 1 5%:R 0 1 (Input [::] [::] [::] [:: 10%:R] [::]) gb p0 p0.
have [_ [_ [_ [hv _]]]] := run_cat gb p0 p0 so E.
have [tr _] := run_trace gb p0 p0 E.
have [he _] := trace_end tr.
exists ps, i', k.
case: ps E hv tr he => [|p ps] E hv tr he.
  exfalso; case: he => /= h; last by move: h; vm_compute.
  have hv' : [:: 10%:R] = i_v i' by exact: hv.
  move: (congr1 size h); rewrite /next_stamps !size_cat -hv' /= add1n !addnS.
  by [].
have [tin hvv] := trace_first tr.
move: tin; rewrite inE => /eqP tt; rewrite tt /= in hvv.
by exists p, 10%:R; rewrite -hvv; split=> //; split=> //; left.
Qed.
Print Assumptions C118_after_end_refuted.

Example C18_example :
  good_builder id late_build /\
  input_in_order id (Input [:: 2%:R; 2%:R; 3%:R] [::] [:: 1] [:: 2%:R; 4%:R] [:: 1; 3%:R] : input rat_realFieldType rat).
Proof. by split=> // kd e x; split=> // i; case: (i). Qed.

(** C66 for whole runs: one smoothed state per recorded state, covariance
    matrices from the second state on. *)
Theorem C66_smoothed_run : forall (R : realFieldType) (n : nat) (wrap wrap2 : R -> R)
    (transfer jacobian : R -> 'cV[R]_n -> 'M[R]_n) (T : Type) (time : T -> R)
    (build : kind -> T -> 'cV[R]_n -> measurement R n) start endt x P Q thr (i : input R T) ps i' k r,
  good_builder time build -> psd P -> psd Q -> input_in_order time i -> ps <> [::] ->
  run wrap transfer jacobian time build start endt x P Q thr i = Some (ps, i', k) ->
  smooth transfer jacobian wrap2 Q (f_states k) = Some r ->
  recorded_times r = recorded_times (f_states k) /\ every (fun s => psd (e_P s)) (behead r) /\
  every (fun s => symmetric (e_P s)) r.
Proof.
move=> R n wrap wrap2 tr ja T time build start endt x P Q thr i ps i' k r gb pP pQ so ne E hr.
have [h1 [_ [_ [h2 _]]]] := run_order gb pP pQ so E.
have [_ [_ [_ ps']]] := run_trace gb pP pQ E.
have so' : sorted <=%R (recorded_times (f_states k)) by rewrite h2.
have sz : (1 < size (f_states k))%N.
  by rewrite -(size_map (@e_time R n)) -/(recorded_times _) h2 /= size_map; case: (ps) ne.
exact: smooth_psd pQ ps' so' hr sz.
Qed.
Print Assumptions C66_smoothed_run.
