(** C94-C97: measurements made from samples, and the values published from a state. *)
From mathcomp Require Import all_ssreflect all_algebra.
From Verif Require Import EkfModel EkfSpec EkfProofs EkfRunModel EkfRunSpec EkfRunProofs EkfRunProps MeasModel.
Set Implicit Arguments.
Unset Strict Implicit.
Unset Printing Implicit Defensive.
Import Order.TTheory GRing.Theory Num.Theory.
Local Open Scope ring_scope.

(** What a measurement says: at time [t], component [i] has value [z] with variance [c] for every (i, z, c) in [l],
    independently, and nothing about the other components. *)
Definition says (R : rcfType) (m : measurement R 12) (t : R) (l : seq (nat * (R * R))) : Prop :=
  m_time m = t /\ (forall i, m_nan m i = false) /\ independent m /\
  (forall i : 'I_12, m_update m i = ((i : nat) \in map fst l)) /\
  forall i z c, List.In (i, (z, c)) l -> m_z m (inord i) 0 = z /\ m_cov m (inord i) (inord i) = c.

(** The standard deviation used: the reported one if [given], otherwise that of the noise model. *)
Definition either (R : rcfType) (given : bool) (reported modelled : R) : R := (if given then reported else modelled) ^+ 2.

(** The noise model of an axis. *)
Definition axis (R : rcfType) (s : sensors_std R) (i : nat) : noise R :=
  match speed s with Common n => n | PerAxis nx ny nz => nth nx [:: nx; ny; nz] i end.

Section Says.
Variables (R : rcfType) (pi : R) (b2i : R -> R -> R -> R * R * R -> R * R * R).

Lemma diagonal_independent f z u n ty t : independent (Measurement z (diagonal f) u n ty t : measurement R 12).
Proof. by move=> i j /negbTE h; rewrite mxE h. Qed.

Lemma in_list i z c (l : seq (nat * (R * R))) (f g : nat -> R) :
  (forall p, List.In p l -> (p.1 < 12)%N /\ f p.1 = p.2.1 /\ g p.1 = p.2.2) ->
  List.In (i, (z, c)) l -> vector f (inord i) 0 = z /\ diagonal g (inord i) (inord i) = c.
Proof. by move=> h /h /= [hi [<- <-]]; rewrite !mxE eqxx !inordK. Qed.
End Says.

(** ** C94 *)
Theorem C94_depth : forall (R : rcfType) b2i (s : sensors_std R) v roll pitch yaw arm,
  says (from_depth b2i s v roll pitch yaw arm) (d_t v)
    [:: (2%N, (d_depth v + (b2i roll pitch yaw arm).2,
         either (0 < d_std v) (d_std v) (offset (position_z s) + factor (position_z s) * d_depth v)))].
Proof.
move=> R b2i s v roll pitch yaw arm; rewrite /from_depth; case: (b2i _ _ _ _) => [[a b] c].
split=> //; split=> //; split; first exact: diagonal_independent.
split=> // i z k; apply: in_list => p [<-|//]; split=> //; split=> //.
by rewrite /put /= /either; case: ifP => // _; rewrite addrC mulrC.
Qed.
Print Assumptions C94_depth.

(** The type under which accepted and rejected measurements are counted: 0 depth, 1 DVL, 2 USBL, 3 orientation. *)
Theorem C94_types : forall (R : rcfType) (pi : R) b2i (s : sensors_std R) d v u o roll pitch yaw arm,
  m_type (from_depth b2i s d roll pitch yaw arm) = 0%N /\ m_type (from_dvl s v) = 1%N /\
  m_type (from_usbl b2i s u roll pitch yaw arm) = 2%N /\ m_type (from_orientation pi s o) = 3%N.
Proof.
move=> R pi b2i s d v u o roll pitch yaw arm; rewrite /from_depth /from_dvl /from_usbl /from_orientation.
case: (b2i _ _ _ _) => [[a b] c]; split=> //; split; first by case: (speed s) => [n|nx ny nz]; case: ifP.
by split; case: ifP.
Qed.
Print Assumptions C94_types.
Theorem C94_velocity : forall (R : rcfType) (s : sensors_std R) v,
  let sd i reported x := either (0 < v_x_std v) reported (offset (axis s i) + factor (axis s i) * `|x|) in
  says (from_dvl s v) (v_t v)
    [:: (6%N, (v_x v, sd 0%N (v_x_std v) (v_x v))); (7%N, (v_y v, sd 1%N (v_y_std v) (v_y v)));
        (8%N, (v_z v, sd 2%N (v_z_std v) (v_z v)))].
Proof.
move=> R s v sd; rewrite /from_dvl.
have E : match speed s with Common n => (n, n, n) | PerAxis nx ny nz => (nx, ny, nz) end = (axis s 0, axis s 1, axis s 2).
  by rewrite /axis; case: (speed s).
rewrite E; case g: (0 < v_x_std v);
  (split=> //; split=> //; split; first exact: diagonal_independent);
  (split=> // i z k; apply: in_list => p); rewrite /sd /either g /=;
  do ![case=> [<-|]] => //; rewrite /put /=; do !split=> //; by rewrite addrC mulrC.
Qed.
Print Assumptions C94_velocity.

Theorem C94_usbl : forall (R : rcfType) b2i (s : sensors_std R) v roll pitch yaw arm,
  let range := Num.sqrt (u_north v ^+ 2 + u_east v ^+ 2 + u_depth v ^+ 2) in
  let sd reported := either (0 < u_north_std v) reported (offset (position_xy s) + factor (position_xy s) * range) in
  says (from_usbl b2i s v roll pitch yaw arm) (u_t v)
    [:: (0%N, (u_north v + (b2i roll pitch yaw arm).1.1, sd (u_north_std v)));
        (1%N, (u_east v + (b2i roll pitch yaw arm).1.2, sd (u_east_std v)))].
Proof.
move=> R b2i s v roll pitch yaw arm range sd; rewrite /from_usbl; case: (b2i _ _ _ _) => [[a b] c].
case g: (0 < u_north_std v);
  (split=> //; split=> //; split; first exact: diagonal_independent);
  (split=> // i z k; apply: in_list => p); rewrite /sd /either g /=;
  do ![case=> [<-|]] => //.
Qed.
Print Assumptions C94_usbl.

Theorem C94_orientation : forall (R : rcfType) (pi : R) (s : sensors_std R) v,
  let rad x := x * pi / 180%:R in
  let sd reported x := either (0 < o_roll_std v) (rad reported) (rad (offset (orientation s) + factor (orientation s) * x)) in
  says (from_orientation pi s v) (o_t v)
    [:: (3%N, (rad (o_roll v), sd (o_roll_std v) (o_roll v))); (4%N, (rad (o_pitch v), sd (o_pitch_std v) (o_pitch v)));
        (5%N, (rad (o_yaw v), sd (o_yaw_std v) (o_yaw v)))].
Proof.
move=> R pi s v rad sd; rewrite /from_orientation.
case g: (0 < o_roll_std v);
  (split=> //; split=> //; split; first exact: diagonal_independent);
  (split=> // i z k; apply: in_list => p); rewrite /sd /either g /=;
  do ![case=> [<-|]] => //; rewrite /put /= /rad; do !split=> //; by rewrite [_ * factor _]mulrC.
Qed.
Print Assumptions C94_orientation.

Section Builder.
Variables (R : rcfType) (pi : R) (b2i : R -> R -> R -> R * R * R -> R * R * R) (s : sensors_std R) (ua da : R * R * R).

Lemma builder : good_builder (@stamp R) (build pi b2i s ua da).
Proof.
move=> kd [v|v|v|v] x /=.
- by have [-> [_ [h _]]] := C94_orientation pi s v.
- by have [-> [_ [h _]]] := C94_usbl b2i s v (angle pi x 3) (angle pi x 4) (angle pi x 5) ua.
- by have [-> [_ [h _]]] := C94_depth b2i s v (angle pi x 3) (angle pi x 4) (angle pi x 5) da.
- by have [-> [_ [h _]]] := C94_velocity s v.
Qed.
End Builder.

(** So whole runs on sensor samples finish, whatever the samples, the noise models and the mounting
    offsets, with covariance matrices throughout; in time order, each sample at its own time. *)
Theorem C94_run : forall (R : rcfType) (pi : R) b2i (s : sensors_std R) ua da (wrap : R -> R)
    (transfer jacobian : R -> 'cV[R]_12 -> 'M[R]_12) start endt x P Q thr (i : input R (sample R)),
  psd P -> psd Q ->
  exists ps i' k, run wrap transfer jacobian (@stamp R) (build pi b2i s ua da) start endt x P Q thr i = Some (ps, i', k) /\
    every (fun e => psd (e_P e)) (f_states k) /\
    (input_in_order (@stamp R) i -> sorted <=%R (start :: map (@p_time R (sample R)) ps) /\ every (stamped (@stamp R)) ps /\
       recorded_times (f_states k) = start :: map (@p_time R (sample R)) ps).
Proof.
move=> R pi b2i s ua da wrap tr ja start endt x P Q thr i pP pQ.
have gb := builder pi b2i s ua da.
have [ps [i' [k [E h]]]] := C18_completes wrap tr ja start endt x thr i gb pP pQ.
exists ps, i', k; split=> //; split=> // so.
by have [h1 [_ [h2 [h3 _]]]] := C18_time_order gb pP pQ so E.
Qed.
Print Assumptions C94_run.

(** Example: a depth of 100 m without a standard deviation, a noise model of 0.1 m and one per mille: 0.2 m. *)
Example C94_ex : forall (R : rcfType) (n : noise R),
  says (from_depth (fun _ _ _ a => a) (SensorsStd (Noise 1000%:R^-1 10%:R^-1) n n (Common n)) (DepthS 7%:R 100%:R 0) 0 0 0 (0, 0, 1))
    7%:R [:: (2%N, (101%:R, 25%:R^-1))].
Proof.
move=> R n; have [h1 [h2 [h3 [h4 h5]]]] := C94_depth (fun _ _ _ a => a) (SensorsStd (Noise 1000%:R^-1 10%:R^-1) n n (Common n)) (DepthS 7%:R 100%:R 0) 0 0 0 ((0, 0, 1) : R * R * R).
split=> //; split=> //; split=> //; split=> // i z c [[<- <- <-]|//].
have [-> ->] := h5 _ _ _ (or_introl (erefl _)); rewrite /= /either ltxx; split; first by rewrite -mulrSr.
suff -> : 10%:R^-1 + 1000%:R^-1 * 100%:R = 5%:R^-1 :> R by rewrite exprVn -natrX.
apply: (mulfI (_ : 1000%:R != 0 :> R)); first by rewrite pnatr_eq0.
rewrite mulrDr mulrA divff ?pnatr_eq0 // mul1r.
have -> : 1000%:R = 100%:R * 10%:R :> R by rewrite -natrM.
by rewrite mulfK ?pnatr_eq0 // -natrD; apply: (mulIf (_ : 5%:R != 0 :> R)); rewrite ?pnatr_eq0 // divfK ?pnatr_eq0 // -!natrM.
Qed.

(** ** C95 *)
Section Refuted.
Variables (R : rcfType) (pi : R).

Definition plain (f o : R) : sensors_std R := SensorsStd (Noise f o) (Noise f o) (Noise f o) (Common (Noise f o)).
Lemma cov_of (m : measurement R 12) t l i z c : says m t l -> List.In (i, (z, c)) l -> m_cov m (inord i) (inord i) = c.
Proof. by move=> [_ [_ [_ [_ h]]]] /h[]. Qed.
End Refuted.

(** False: "a component without reported standard deviation gets that of the noise model".  Only the one of x is
    looked at. *)
Theorem C95_each_axis_refuted : forall R : rcfType, exists (s : sensors_std R) v,
  0 < v_x_std v /\ v_y_std v = 0 /\ 0 < factor (axis s 1) /\ 0 < offset (axis s 1) /\
  m_cov (from_dvl s v) (inord 7) (inord 7) = 0.
Proof.
move=> R; exists (plain 1 1), (DvlS 0 1 1 1 1 0 1); do ?[split; first by rewrite //= ltr01].
rewrite (cov_of (C94_velocity _ _) (or_intror (or_introl (erefl _)))) /either /= ltr01; exact: expr0n.
Qed.
Print Assumptions C95_each_axis_refuted.

(** False: "a positive noise model gives a positive variance": a roll of -10 degrees with offset 1 and factor 0.1. *)
Theorem C95_sign_refuted : forall (R : rcfType) (pi : R), exists (s : sensors_std R) v,
  0 < factor (orientation s) /\ 0 < offset (orientation s) /\ m_cov (from_orientation pi s v) (inord 3) (inord 3) = 0.
Proof.
move=> R pi; exists (plain (10%:R^-1) 1), (OriS 0 (- 10%:R) 0 0 0 0 0).
split; first by rewrite /= invr_gt0 ltr0n.
split; first exact: ltr01.
rewrite (cov_of (C94_orientation _ _ _) (or_introl (erefl _))) /either /= ltxx mulrN mulVf ?pnatr_eq0 // subrr !mul0r.
exact: expr0n.
Qed.
Print Assumptions C95_sign_refuted.

(** False: "headings 360 degrees apart are equally uncertain". *)
Theorem C95_heading_refuted : forall (R : rcfType) (pi : R), 0 < pi -> exists (s : sensors_std R) v w,
  0 < factor (orientation s) /\ 0 < offset (orientation s) /\ o_yaw w = o_yaw v + 360%:R /\
  m_cov (from_orientation pi s v) (inord 5) (inord 5) < m_cov (from_orientation pi s w) (inord 5) (inord 5).
Proof.
move=> R pi p; exists (plain 1 1), (OriS 0 0 0 0 0 0 0), (OriS 0 0 0 360%:R 0 0 0).
split; first exact: ltr01. split; first exact: ltr01. split; first by rewrite /= add0r.
rewrite !(cov_of (C94_orientation _ _ _) (or_intror (or_intror (or_introl (erefl _))))) /either /= ltxx mulr0 addr0 !mul1r.
have h : 0 < pi / 180%:R by rewrite divr_gt0 ?ltr0n.
rewrite -mulrA; move: (pi / _) h => q h; rewrite [_ * q]mulrC exprMn ltr_pmulr ?exprn_gt0 // -[1 in X in X < _](expr1n _ 2) ltr_pexpn2r ?nnegrE ?ler01 //.
  by rewrite addrC -[1]/(1%:R) -natrD (ltr_nat R 1).
by rewrite addr_ge0 ?ler01 ?ler0n.
Qed.
Print Assumptions C95_heading_refuted.

(** False: "the uncertainty of a USBL fix does not depend on the choice of the origin". *)
Theorem C95_origin_refuted : forall (R : rcfType) b2i, exists (s : sensors_std R) v w roll pitch yaw arm,
  u_depth v = u_depth w /\ u_north w = u_north v + 1 /\ u_east v = u_east w /\
  m_cov (from_usbl b2i s v roll pitch yaw arm) (inord 0) (inord 0) <> m_cov (from_usbl b2i s w roll pitch yaw arm) (inord 0) (inord 0).
Proof.
move=> R b2i; exists (plain 1 0), (UsblS 0 0 0 0 0 0), (UsblS 0 1 0 0 0 0), 0, 0, 0, (0, 0, 0).
split=> //; split; first by rewrite /= add0r. split=> //.
rewrite !(cov_of (C94_usbl _ _ _ _ _ _ _) (or_introl (erefl _))) /either /= ltxx !mul1r !add0r !expr0n /= !addr0 expr1n sqrtr0 sqrtr1 expr0n expr1n.
by apply/eqP; rewrite eq_sym oner_eq0.
Qed.
Print Assumptions C95_origin_refuted.

(** ** C96 *)
Section Published.
Variables (R : rcfType) (pi : R).
Hypothesis pi_pos : 0 < pi.

Lemma psd_diag (P : 'M[R]_12) i : psd P -> 0 <= P i i.
Proof.
move=> [_ h]; have := h (delta_mx i 0); congr (0 <= _).
by rewrite trmx_delta -rowE -colE !mxE.
Qed.
Lemma half_turn : 180%:R / pi * (pi / 180%:R) = 1 :> R.
Proof. by rewrite mulrA divfK ?gt_eqF // divff // pnatr_eq0. Qed.
End Published.

(** The published standard deviations are the square roots of the variances, those of angles and
    angular rates in degrees. *)
Theorem C96_std : forall (R : rcfType) (pi : R) (k : ekf_state R 12) i, 0 < pi -> psd (e_P k) -> (i < 12)%N ->
  let sd := s_std (to_synced pi k) i in
  0 <= sd /\ (sd * (if (2 < i < 6)%N || (8 < i)%N then pi / 180%:R else 1)) ^+ 2 = e_P k (inord i) (inord i).
Proof.
move=> R pi k i p pP hi sd; have d := psd_diag (inord i) pP.
rewrite /sd /= /std_of max_r //.
have -> : (i \in [:: 3; 4; 5; 9; 10; 11])%N = (2 < i < 6)%N || (8 < i)%N.
  by move: hi; clear; case: i => [|[|[|[|[|[|[|[|[|[|[|[|i]]]]]]]]]]]].
case: ifP => _; last by rewrite mulr1 sqr_sqrtr // sqrtr_ge0.
split; first by rewrite mulr_ge0 ?sqrtr_ge0 ?divr_ge0 ?ler0n // ltW.
by rewrite mulrAC half_turn // mul1r sqr_sqrtr.
Qed.
Print Assumptions C96_std.

(** Reading a published state back gives the same state. *)
Theorem C96_round_trip : forall (R : rcfType) (pi : R) (k : ekf_state R 12), 0 < pi -> of_synced pi (to_synced pi k) = k.
Proof.
move=> R pi [t x P] p; rewrite /of_synced /=; congr EkfState.
have E y : y * 180%:R / pi * pi / 180%:R = y :> R by rewrite divfK ?gt_eqF // mulfK // pnatr_eq0.
apply/matrixP => i j; rewrite mxE ord1 !E.
have -> : i = inord i by rewrite inord_val.
by case: i => [[|[|[|[|[|[|[|[|[|[|[|[|//]]]]]]]]]]]] hi] /=; rewrite !inordK.
Qed.
Print Assumptions C96_round_trip.

(** A run starts at the position, attitude and velocity of the dead reckoning. *)
Theorem C96_start : forall (R : rcfType) (pi : R) (b : synced R) P, 0 < pi ->
  let b' := to_synced pi (EkfState (s_t b) (build_state pi b) P) in
  s_t b' = s_t b /\ s_north b' = s_north b /\ s_east b' = s_east b /\ s_depth b' = s_depth b /\
  s_roll b' = s_roll b /\ s_pitch b' = s_pitch b /\ s_yaw b' = s_yaw b /\
  s_vx b' = s_vx b /\ s_vy b' = s_vy b /\ s_vz b' = s_vz b /\ s_vroll b' = 0 /\ s_vpitch b' = 0 /\ s_vyaw b' = 0.
Proof.
move=> R pi b P p b'.
have E y : y * pi / 180%:R * 180%:R / pi = y :> R by rewrite divfK ?pnatr_eq0 // mulfK // gt_eqF.
by rewrite /b' /to_synced /build_state /= !mxE !inordK //= !E !mul0r.
Qed.
Print Assumptions C96_start.

(** Example: north variance 4, heading variance one square radian. *)
Example C96_ex : forall (R : rcfType) (pi : R), 0 < pi ->
  let k := EkfState 0 0 (diagonal (put 0 4%:R (put 5 1 (@zero R)))) in
  s_std (to_synced pi k) 0 = 2%:R /\ s_std (to_synced pi k) 5 = 180%:R / pi.
Proof.
move=> R pi p k; rewrite /k /= /std_of /= !mxE !eqxx !inordK // /put /=.
rewrite !max_r ?ler01 ?ler0n // sqrtr1 mulr1; split=> //.
have -> : 4%:R = 2%:R ^+ 2 :> R by rewrite -natrX.
by rewrite sqrtr_sqr ger0_norm ?ler0n.
Qed.
