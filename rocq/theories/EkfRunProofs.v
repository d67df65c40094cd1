From mathcomp Require Import all_ssreflect all_algebra.
From mathcomp Require Import zify.
From Verif Require Import EkfModel EkfSpec EkfProofs EkfRunModel EkfRunSpec.
From Coq Require Import Lia.
Set Implicit Arguments.
Unset Strict Implicit.
Unset Printing Implicit Defensive.
Import Order.TTheory GRing.Theory Num.Theory.
Local Open Scope ring_scope.

Section Run.
Variables (R : realFieldType) (n : nat) (wrap : R -> R)
  (transfer jacobian : R -> 'cV[R]_n -> 'M[R]_n).
Variables (T : Type) (time : T -> R).
Variable build : kind -> T -> 'cV[R]_n -> measurement R n.
Hypothesis gb : good_builder time build.

Notation loop := (loop wrap transfer jacobian time build).
Notation use := (use wrap build).

Lemma minimum_mem l t : minimum l = Some t -> t \in l /\ forall u : R, u \in l -> t <= u.
Proof.
case: l => [//|a l] [<-]; elim: l => [|b l [IH1 IH2]] /=.
  by split; rewrite ?inE // => u; rewrite inE => /eqP ->.
split.
  rewrite minEle; case: ifP => _; first by rewrite !inE eqxx orbT.
  by move: IH1; rewrite !inE => /orP[->|->] //; rewrite !orbT.
move=> u; rewrite !inE le_minl => /or3P[/eqP->|/eqP->|h].
- by rewrite (IH2 a) ?inE ?eqxx ?orbT.
- by rewrite lexx.
- by rewrite (IH2 u) ?inE ?h ?orbT.
Qed.

Definition olist {A} (o : option A) : seq A := if o is Some a then [:: a] else [::].

Lemma take_t_cat t l o l' : take_t time t l = (o, l') ->
  l = olist o ++ l' /\ (if o is Some e then time e = t else True).
Proof.
by case: l => [[<- <-] //|e l] /=; case: eqP => [h [<- <-]|_ [<- <-]].
Qed.

Lemma take_q_cat t (l : seq R) b l' : take_q t l = (b, l') -> l = nseq b t ++ l'.
Proof. by case: l => [[<- <-] //|e l] /=; case: eqP => [<- [<- <-]|_ [<- <-]]. Qed.

(** A matching head is always taken. *)
Lemma take_t_none t l l' : take_t time t l = (None, l') -> t \notin next_t time l.
Proof. by case: l => [//|e l] /=; case: eqP => // h _; rewrite inE eq_sym; apply/eqP. Qed.

Lemma take_q_none t (l l' : seq R) : take_q t l = (false, l') -> t \notin take 1 l.
Proof. by case: l => [//|e l] /=; case: eqP => // h _; rewrite take0 inE eq_sym; apply/eqP. Qed.

Lemma use_facts kd oe k t : ok k -> f_time k = t -> (if oe is Some e then time e = t else True) ->
  exists k', use kd oe k = Some k' /\ ok k' /\ f_time k' = t /\
    recorded_times (f_states k') = recorded_times (f_states k).
Proof.
case: oe => [e|] hk ht he /=; last by exists k.
have [gi gt] := gb kd e (f_x k).
have [k' [E ok']] := correct_ok wrap hk gi; exists k'; split=> //; split=> //.
move: E; rewrite /correct /correct_with; case: inverse => [Si|//] [<-].
case: (~~ (_ <= _)) => /=; last by [].
by rewrite gt he set_last_times.
Qed.

(** One pass after another. *)
Inductive trace (endt : R) : R -> input R T -> filter R n -> seq (pass R T) -> input R T -> filter R n -> Prop :=
| tr_end cur i k : endt <= cur \/ next_stamps time i = [::] -> trace endt cur i k [::] i k
| tr_pass cur i k t o u d v q i1 k1 ps i2 k2 :
    cur < endt -> t \in next_stamps time i -> (forall a, a \in next_stamps time i -> t <= a) ->
    take_t time t (i_o i) = (o, i_o i1) -> take_t time t (i_u i) = (u, i_u i1) ->
    take_t time t (i_d i) = (d, i_d i1) -> take_t time t (i_v i) = (v, i_v i1) ->
    take_q t (i_q i) = (q, i_q i1) ->
    ok k1 -> f_time k1 = t -> recorded_times (f_states k1) = rcons (recorded_times (f_states k)) t ->
    trace endt t i1 k1 ps i2 k2 ->
    trace endt cur i k (Pass t (t - f_time k) o u d v q :: ps) i2 k2.

Lemma count_pass t i i1 o u d v q : t \in next_stamps time i ->
  take_t time t (i_o i) = (o, i_o i1) -> take_t time t (i_u i) = (u, i_u i1) ->
  take_t time t (i_d i) = (d, i_d i1) -> take_t time t (i_v i) = (v, i_v i1) ->
  take_q t (i_q i) = (q, i_q i1) -> (count i1 < count i)%N.
Proof.
move=> h ho hu hd hv hq.
have [eo _] := take_t_cat ho; have [eu _] := take_t_cat hu.
have [ed _] := take_t_cat hd; have [ev _] := take_t_cat hv; have eq := take_q_cat hq.
rewrite /count eo eu ed ev eq !size_cat size_nseq.
have : (0 < size (olist o) + size (olist u) + size (olist d) + size (olist v) + q)%N.
  move: h; rewrite /next_stamps !mem_cat => /or4P[h|h|h|/orP[h|h]].
  - by case: u hu {eu} => [u|] hu /=; [rewrite addn1 !addSn | rewrite (negbTE (take_t_none hu)) in h].
  - by case: d hd {ed} => [d|] hd /=; [rewrite addn1 !addSn | rewrite (negbTE (take_t_none hd)) in h].
  - by case: o ho {eo} => [o|] ho //=; rewrite (negbTE (take_t_none ho)) in h.
  - by case: v hv {ev} => [v|] hv /=; [rewrite addn1 !addSn | rewrite (negbTE (take_t_none hv)) in h].
  - by case: q hq {eq} => hq; [rewrite addn1 | rewrite (negbTE (take_q_none hq)) in h].
move: (size (olist o)) (size (olist u)) (size (olist d)) (size (olist v)) (size (i_o i1)) (size (i_u i1)) (size (i_d i1)) (size (i_v i1)) (size (i_q i1)) (q : nat).
move=> a b c e a' b' c' e' f' f pos.
by lia.
Qed.

Lemma loop_trace fuel endt cur i k : ok k -> (count i < fuel)%N ->
  exists ps i' k', loop fuel endt cur i k = Some (ps, i', k') /\ trace endt cur i k ps i' k' /\ ok k'.
Proof.
elim: fuel cur i k => [//|fuel IH] cur i k hk hc /=.
case: (ltP cur endt) => hend; last first.
  by exists [::], i, k; split=> //; split=> //; apply: tr_end; left.
case E: (minimum _) => [t|]; last first.
  exists [::], i, k; split=> //; split=> //; apply: tr_end; right.
  by case: (next_stamps time i) E.
have [tin tmin] := minimum_mem E.
case Eo: (take_t time t (i_o i)) => [o o']; case Eu: (take_t time t (i_u i)) => [u u'].
case Ed: (take_t time t (i_d i)) => [d d']; case Ev: (take_t time t (i_v i)) => [v v'].
case Eq: (take_q t (i_q i)) => [q q'].
have [_ so] := take_t_cat Eo; have [_ su] := take_t_cat Eu.
have [_ sd] := take_t_cat Ed; have [_ sv] := take_t_cat Ev.
set k0 := predict _ _ _ _ _ _.
have ok0 : ok k0 by exact: predict_ok.
have t0 : f_time k0 = t by [].
have r0 : recorded_times (f_states k0) = rcons (recorded_times (f_states k)) t by rewrite /recorded_times /= map_rcons.
have [k1 [-> [ok1 [t1 r1]]]] := use_facts Orientation ok0 t0 so.
have [k2 [/= -> [ok2 [t2 r2]]]] := use_facts Usbl ok1 t1 su.
have [k3 [/= -> [ok3 [t3 r3]]]] := use_facts Depth ok2 t2 sd.
have [k4 [/= -> [ok4 [t4 r4]]]] := use_facts Velocity ok3 t3 sv.
pose i1 := Input o' u' d' v' q'.
have c1 : (count i1 < fuel)%N.
  by apply: leq_trans (count_pass (i1 := i1) tin Eo Eu Ed Ev Eq) _; rewrite -ltnS.
have [ps [i2 [k5 [/= -> [tr ok5]]]]] := IH t i1 k4 ok4 c1.
exists (Pass t (t - f_time k) o u d v q :: ps), i2, k5; split=> //; split=> //.
by apply: (tr_pass (i1 := i1) (k1 := k4)) => //; rewrite r4 r3 r2 r1 r0.
Qed.

Lemma trace_cat endt cur i k ps i' k' : trace endt cur i k ps i' k' ->
  i_o i = used (@p_o R T) ps ++ i_o i' /\ i_u i = used (@p_u R T) ps ++ i_u i' /\
  i_d i = used (@p_d R T) ps ++ i_d i' /\ i_v i = used (@p_v R T) ps ++ i_v i' /\
  i_q i = queried ps ++ i_q i'.
Proof.
elim=> {cur i k ps i' k'} [//|cur i k t o u d v q i1 k1 ps i2 k2 _ _ _ ho hu hd hv hq _ _ _ _ [IHo [IHu [IHd [IHv IHq]]]]].
have [eo _] := take_t_cat ho; have [eu _] := take_t_cat hu.
have [ed _] := take_t_cat hd; have [ev _] := take_t_cat hv; have eq := take_q_cat hq.
rewrite eo eu ed ev eq IHo IHu IHd IHv IHq /used /queried /=.
by case: (o) (u) (d) (v) (q) => [?|] [?|] [?|] [?|] [].
Qed.

Lemma trace_stamped endt cur i k ps i' k' : trace endt cur i k ps i' k' -> every (stamped time) ps.
Proof.
elim=> {cur i k ps i' k'} [//|cur i k t o u d v q i1 k1 ps i2 k2 _ _ _ ho hu hd hv hq _ _ _ _ IH].
have [_ so] := take_t_cat ho; have [_ su] := take_t_cat hu.
have [_ sd] := take_t_cat hd; have [_ sv] := take_t_cat hv.
by [].
Qed.

Lemma trace_times endt cur i k ps i' k' : trace endt cur i k ps i' k' ->
  deltas_from (f_time k) ps /\
  recorded_times (f_states k') = recorded_times (f_states k) ++ map (@p_time R T) ps /\
  f_time k' = last (f_time k) (map (@p_time R T) ps).
Proof.
elim=> {cur i k ps i' k'} [? ? ? _|cur i k t o u d v q i1 k1 ps i2 k2 _ _ _ ho hu hd hv hq _ ht hr _ [IH1 [IH2 IH3]]].
  by rewrite cats0.
by rewrite /= IH2 IH3 hr ht cat_rcons -ht; split.
Qed.

(** Order. *)
Definition all_ge (t : R) (i : input R T) : Prop :=
  [&& all (fun e => t <= time e) (i_o i), all (fun e => t <= time e) (i_u i),
    all (fun e => t <= time e) (i_d i), all (fun e => t <= time e) (i_v i) & all (fun e => t <= e) (i_q i)].

Lemma sorted_ge (t : R) l : in_order time l -> (forall a, a \in next_t time l -> t <= a) ->
  all (fun e => t <= time e) l.
Proof.
case: l => [//|e l]; rewrite /in_order /= => so /(_ (time e)); rewrite inE eqxx => /(_ isT) h.
rewrite h /=; elim: l e h so => [//|e' l IH] e h /= /andP[h1 h2].
by rewrite (le_trans h h1) /=; exact: IH (le_trans h h1) h2.
Qed.

Lemma sortedq_ge (t : R) (l : seq R) : sorted <=%R l -> (forall a, a \in take 1 l -> t <= a) -> all (fun e => t <= e) l.
Proof.
case: l => [//|e l]; rewrite /= take0 => so /(_ e); rewrite inE eqxx => /(_ isT) h.
rewrite h /=; elim: l e h so => [//|e' l IH] e h /= /andP[h1 h2].
by rewrite (le_trans h h1) /=; exact: IH (le_trans h h1) h2.
Qed.

Lemma in_order_suffix a l : in_order time (a ++ l) -> in_order time l.
Proof.
by elim: a => [//|e a IH]; rewrite /in_order /= => /path_sorted h; exact: IH.
Qed.

Lemma sorted_suffix (a l : seq R) : sorted <=%R (a ++ l) -> sorted <=%R l.
Proof. by elim: a => [//|e a IH] /= /path_sorted h; exact: IH. Qed.

Lemma all_ge_next t i : all_ge t i -> forall a, a \in next_stamps time i -> t <= a.
Proof.
case: i => [o u d v q]; rewrite /all_ge /next_stamps /= => /and5P[ho hu hd hv hq] a.
rewrite !mem_cat => /or4P[|||/orP[]].
- by case: (u) hu => [//|e l] /= /andP[h _]; rewrite inE => /eqP ->.
- by case: (d) hd => [//|e l] /= /andP[h _]; rewrite inE => /eqP ->.
- by case: (o) ho => [//|e l] /= /andP[h _]; rewrite inE => /eqP ->.
- by case: (v) hv => [//|e l] /= /andP[h _]; rewrite inE => /eqP ->.
- by case: (q) hq => [//|e l] /= /andP[h _]; rewrite take0 inE => /eqP ->.
Qed.

Lemma next_all_ge t i : input_in_order time i -> (forall a, a \in next_stamps time i -> t <= a) -> all_ge t i.
Proof.
case: i => [o u d v q]; rewrite /all_ge /input_in_order /next_stamps /= => /and5P[ho hu hd hv hq] h.
apply/and5P; split; [apply: sorted_ge ho _|apply: sorted_ge hu _|apply: sorted_ge hd _|apply: sorted_ge hv _|apply: sortedq_ge hq _] => a ha; apply: h; by rewrite !mem_cat ha ?orbT.
Qed.

Lemma pass_in_order t i i1 o u d v q : input_in_order time i -> all_ge t i ->
  take_t time t (i_o i) = (o, i_o i1) -> take_t time t (i_u i) = (u, i_u i1) ->
  take_t time t (i_d i) = (d, i_d i1) -> take_t time t (i_v i) = (v, i_v i1) ->
  take_q t (i_q i) = (q, i_q i1) -> input_in_order time i1 /\ all_ge t i1.
Proof.
rewrite /input_in_order /all_ge => /and5P[so su sd sv sq] /and5P[go gu gd gv gq] ho hu hd hv hq.
have [eo _] := take_t_cat ho; have [eu _] := take_t_cat hu.
have [ed _] := take_t_cat hd; have [ev _] := take_t_cat hv; have eq := take_q_cat hq.
rewrite eo in so go; rewrite eu in su gu; rewrite ed in sd gd; rewrite ev in sv gv; rewrite eq in sq gq.
split; apply/and5P; split.
- exact: in_order_suffix so.
- exact: in_order_suffix su.
- exact: in_order_suffix sd.
- exact: in_order_suffix sv.
- exact: sorted_suffix sq.
- by move: go; rewrite all_cat => /andP[].
- by move: gu; rewrite all_cat => /andP[].
- by move: gd; rewrite all_cat => /andP[].
- by move: gv; rewrite all_cat => /andP[].
- by move: gq; rewrite all_cat => /andP[].
Qed.

Lemma trace_order endt cur i k ps i' k' s : trace endt cur i k ps i' k' -> input_in_order time i -> all_ge s i ->
  path <=%R s (map (@p_time R T) ps) /\ input_in_order time i' /\
  all_ge (last s (map (@p_time R T) ps)) i'.
Proof.
move=> tr; elim: tr s => {cur i k ps i' k'} [//|cur i k t o u d v q i1 k1 ps i2 k2 _ tin tmin ho hu hd hv hq _ ht hr _ IH] s so ge.
have ge' := next_all_ge so tmin.
have [so1 ge1] := pass_in_order so ge' ho hu hd hv hq.
have [h1 [h2 h3]] := IH t so1 ge1.
by rewrite /= (all_ge_next ge tin) h1.
Qed.

(** The end. *)
Lemma trace_end endt cur i k ps i' k' : trace endt cur i k ps i' k' ->
  (next_stamps time i' = [::] \/ endt <= last cur (map (@p_time R T) ps)) /\
  (ps <> [::] -> all (fun t => t < endt) (belast cur (map (@p_time R T) ps))).
Proof.
elim=> {cur i k ps i' k'} [cur i k h|cur i k t o u d v q i1 k1 ps i2 k2 h tin tmin ho hu hd hv hq _ ht hr _ [IH1 IH2]].
  by split=> //; case: h; [right|left].
split=> // _; rewrite /= h /=; case: ps IH1 IH2 => [//|p ps] _ h2; exact: h2.
Qed.

Lemma trace_first endt cur i k p ps i' k' : trace endt cur i k (p :: ps) i' k' ->
  p_time p \in next_stamps time i /\ (take_t time (p_time p) (i_v i)).1 = p_v p.
Proof.
move=> h; inversion h as [|cur0 i0 k0 t o u d v q i1 k1 ps0 i2 k2 a1 tin a3 a4 a5 a6 hv]; subst=> /=.
by rewrite hv.
Qed.

(** Skipping. *)
Lemma skip_t_after s l : in_order time l -> skip_t time s l = after time s l.
Proof.
elim: l => [//|e l IH] so /=; have so' : in_order time l by exact: (in_order_suffix (a := [:: e])).
rewrite ltNge; case: ifP => h /=; first exact: IH.
congr (_ :: _); symmetry; apply/all_filterP.
have := @sorted_ge (time e) (e :: l) so; rewrite /= => /(_ _)/andP[|_].
  by move=> a; rewrite inE => /eqP ->.
by apply: sub_all => a ha; apply: lt_le_trans ha; rewrite ltNge h.
Qed.

Lemma skip_q_after s (l : seq R) : sorted <=%R l -> skip_q s l = [seq e <- l | s < e].
Proof.
elim: l => [//|e l IH] so /=; have so' : sorted <=%R l by exact: path_sorted so.
rewrite ltNge; case: ifP => h /=; first exact: IH.
congr (_ :: _); symmetry; apply/all_filterP.
have := @sortedq_ge e (e :: l) so; rewrite /= take0 => /(_ _)/andP[|_].
  by move=> a; rewrite inE => /eqP ->.
by apply: sub_all => a ha; apply: lt_le_trans ha; rewrite ltNge h.
Qed.

Lemma after_in_order s l : in_order time l -> in_order time (after time s l).
Proof.
move=> so; rewrite -skip_t_after //.
by elim: l so => [//|e l IH] so /=; case: ifP => // _; apply: IH; exact: (in_order_suffix (a := [:: e])).
Qed.

Lemma skip_facts s i : input_in_order time i ->
  input_in_order time (skip time s i) /\ all_ge s (skip time s i).
Proof.
case: i => [o u d v q] /and5P[/= so su sd sv sq].
rewrite /skip /= !skip_t_after // skip_q_after //; split.
  by apply/and5P; split=> /=; rewrite ?after_in_order //; apply: sorted_filter => //; exact: le_trans.
have g l : all (fun e => s <= time e) (after time s l).
  by elim: l => [//|e l IH] /=; case: ifP => //= h; rewrite ltW.
apply/and5P; split=> //=.
by elim: (q) => [//|e l IH] /=; case: ifP => //= h; rewrite ltW.
Qed.
End Run.
