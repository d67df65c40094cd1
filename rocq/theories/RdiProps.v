(** C33: RDI logs. *)
From Verif Require Import PyBase RdiModel.
Open Scope Q_scope.

(** ** Specification: an ensemble, the record it carries for each category, and the order
    of its lines in a PD6 log. *)
Record ensemble := mkens {
  e_pitch : Q; e_roll : Q; e_heading : Q; e_t : Q;
  e_lock : option (Q * Q * Q * Q);     (** bottom track velocity, when its status is "A" *)
  e_range : option Q }.
Definition bi_of (e : ensemble) : line :=
  match e_lock e with Some (x, y, z, err) => BI true x y z err | None => BI false 0 0 0 0 end.
Definition bd_of (e : ensemble) : line := match e_range e with Some r => BD r | None => Other end.
Definition pd6 (e : ensemble) : list line :=
  [SA (e_pitch e) (e_roll e) (e_heading e); TS (e_t e); bi_of e; Other; Other; bd_of e].
(** The same with the attitude line after the timestamp. *)
Definition time_first (e : ensemble) : list line :=
  [TS (e_t e); SA (e_pitch e) (e_roll e) (e_heading e); bi_of e; Other; Other; bd_of e].

Section Spec.
  Variable radians : Q -> Q.
  Variable rotate : Q -> Q -> Q * Q.
  Variable ot_std : option Q.
  Definition attitude_of (e : ensemble) : attitude := mkatt (radians (e_roll e)) (radians (e_pitch e)) (radians (e_heading e)).
  Definition velocity_of (e : ensemble) : option velocity :=
    match e_lock e with
    | Some (x, y, z, err) => Some (mkvel (fst (rotate (x * (1 # 1000)) (y * (1 # 1000)))) (snd (rotate (x * (1 # 1000)) (y * (1 # 1000))))
                                         (z * (1 # 1000)) (err * (1 # 1000)))
    | None => None
    end.
  Definition record_of (c : category) (e : ensemble) : list output :=
    match c with
    | Velocity => match velocity_of e with Some v => [OutVelocity (e_t e) (e_t e) v] | None => [] end
    | Orientation => match ot_std with Some _ => [OutOrientation (e_t e) (attitude_of e)] | None => [] end
    | Altitude => match e_lock e, e_range e with Some _, Some r => [OutAltitude (e_t e) (e_t e) r] | _, _ => [] end
    end.

  Notation run := (run radians rotate ot_std).
  Notation parse := (parse_rdi radians rotate ot_std).

  Definition emit_v (t : Q) (v : option velocity) : list output := match v with Some v => [OutVelocity t t v] | None => [] end.
  Definition emit_l (t : Q) (a : option Q) : list output := match a with Some a => [OutAltitude t t a] | None => [] end.
  Definition emit_o (t : Q) (a : attitude) : list output := match ot_std with Some _ => [OutOrientation t a] | None => [] end.
  Definition range_of (e : ensemble) : option Q := match e_lock e, e_range e with Some _, Some r => Some r | _, _ => None end.

  Lemma one_velocity : forall f e s t v rest, f = pd6 \/ f = time_first ->
    b_t s = Some t -> b_dvl s = Some t -> b_v s = v ->
    exists s', run Velocity s (f e ++ rest) = emit_v t v ++ run Velocity s' rest /\
      b_t s' = Some (e_t e) /\ b_dvl s' = Some (e_t e) /\ b_v s' = velocity_of e.
  Proof.
    intros f e [bt bd bv ot oa lt la ll av] t v rest F E1 E2 E3. cbn in E1, E2, E3. subst.
    unfold velocity_of. destruct F as [-> | ->];
      unfold pd6, time_first, bi_of, bd_of; destruct v, (e_lock e) as [[[[x y] z] err]|], (e_range e); cbn -[Qmult];
      try (destruct (rotate (x * (1 # 1000)) (y * (1 # 1000))) eqn:R); cbn -[Qmult];
      eexists; (split; [reflexivity|]); repeat split.
  Qed.
  Lemma one_altitude : forall f e s t a rest, f = pd6 \/ f = time_first ->
    l_t s = Some t -> l_at s = Some t -> l_alt s = a ->
    exists s', run Altitude s (f e ++ rest) = emit_l t a ++ run Altitude s' rest /\
      l_t s' = Some (e_t e) /\ l_at s' = Some (e_t e) /\ l_alt s' = range_of e.
  Proof.
    intros f e [bt bd bv ot oa lt la ll av] t v rest F E1 E2 E3. cbn in E1, E2, E3. subst.
    unfold range_of. destruct F as [-> | ->];
      unfold pd6, time_first, bi_of, bd_of; destruct v, (e_lock e) as [[[[x y] z] err]|], (e_range e); cbn -[Qmult];
      try (destruct (rotate (x * (1 # 1000)) (y * (1 # 1000))) eqn:R); cbn -[Qmult];
      eexists; (split; [reflexivity|]); repeat split.
  Qed.
  Lemma one_attitude_time_first : forall e s t a rest, o_t s = Some t -> o_a s = Some a ->
    exists s', run Orientation s (time_first e ++ rest) = emit_o t a ++ run Orientation s' rest /\
      o_t s' = Some (e_t e) /\ o_a s' = Some (attitude_of e).
  Proof.
    intros e [bt bd bv ot oa lt la ll av] t a rest E1 E2. cbn in E1, E2. subst. unfold emit_o, attitude_of.
    unfold time_first, bi_of, bd_of; destruct ot_std, (e_lock e) as [[[[x y] z] err]|], (e_range e); cbn -[Qmult];
      try (destruct (rotate (x * (1 # 1000)) (y * (1 # 1000))) eqn:R); cbn -[Qmult];
      try (destruct av); eexists; (split; [reflexivity|]); repeat split.
  Qed.
  Lemma one_attitude_pd6 : forall e s t rest, o_t s = Some t ->
    exists s', run Orientation s (pd6 e ++ rest) = emit_o t (attitude_of e) ++ run Orientation s' rest /\ o_t s' = Some (e_t e).
  Proof.
    intros e [bt bd bv ot oa lt la ll av] t rest E1. cbn in E1. subst. unfold emit_o, attitude_of.
    unfold pd6, bi_of, bd_of; destruct ot_std, (e_lock e) as [[[[x y] z] err]|], (e_range e); cbn -[Qmult];
      try (destruct (rotate (x * (1 # 1000)) (y * (1 # 1000))) eqn:R); cbn -[Qmult];
      try (destruct av); eexists; (split; [reflexivity|]); repeat split.
  Qed.

  Lemma removelast_cons2 : forall A (a b : A) l, removelast (a :: b :: l) = a :: removelast (b :: l).
  Proof. reflexivity. Qed.

  Lemma many_velocity : forall f, f = pd6 \/ f = time_first -> forall es e0 s,
    b_t s = Some (e_t e0) -> b_dvl s = Some (e_t e0) -> b_v s = velocity_of e0 ->
    run Velocity s (flat_map f es) = flat_map (record_of Velocity) (removelast (e0 :: es)).
  Proof.
    intros f F. induction es as [|e es IH]; intros e0 s A B C; [reflexivity|].
    cbn [flat_map]. destruct (one_velocity f e s _ _ (flat_map f es) F A B C) as (s' & -> & A' & B' & C').
    rewrite removelast_cons2. cbn [flat_map]. rewrite (IH e s' A' B' C'). reflexivity.
  Qed.
  Lemma many_altitude : forall f, f = pd6 \/ f = time_first -> forall es e0 s,
    l_t s = Some (e_t e0) -> l_at s = Some (e_t e0) -> l_alt s = range_of e0 ->
    run Altitude s (flat_map f es) = flat_map (record_of Altitude) (removelast (e0 :: es)).
  Proof.
    intros f F. induction es as [|e es IH]; intros e0 s A B C; [reflexivity|].
    cbn [flat_map]. destruct (one_altitude f e s _ _ (flat_map f es) F A B C) as (s' & -> & A' & B' & C').
    rewrite removelast_cons2. cbn [flat_map]. rewrite (IH e s' A' B' C'). f_equal.
    unfold emit_l, range_of, record_of. destruct (e_lock e0), (e_range e0); reflexivity.
  Qed.
  Lemma many_attitude : forall es e0 s, o_t s = Some (e_t e0) -> o_a s = Some (attitude_of e0) ->
    run Orientation s (flat_map time_first es) = flat_map (record_of Orientation) (removelast (e0 :: es)).
  Proof.
    induction es as [|e es IH]; intros e0 s A B; [reflexivity|].
    cbn [flat_map]. destruct (one_attitude_time_first e s _ _ (flat_map time_first es) A B) as (s' & -> & A' & B').
    rewrite removelast_cons2. cbn [flat_map]. rewrite (IH e s' A' B'). reflexivity.
  Qed.
  (** Each attitude under the timestamp of the ensemble before it. *)
  Fixpoint shifted (e0 : ensemble) (es : list ensemble) : list output :=
    match es with [] => [] | e :: r => OutOrientation (e_t e0) (attitude_of e) :: shifted e r end.
  Lemma many_shifted : ot_std <> None -> forall es e0 s, o_t s = Some (e_t e0) -> run Orientation s (flat_map pd6 es) = shifted e0 es.
  Proof.
    intro ST. induction es as [|e es IH]; intros e0 s A; [reflexivity|].
    cbn [flat_map]. destruct (one_attitude_pd6 e s _ (flat_map pd6 es) A) as (s' & -> & A').
    rewrite (IH e s' A'). cbn [shifted]. unfold emit_o. destruct ot_std; [reflexivity|congruence].
  Qed.

  Lemma parse_velocity : forall f, f = pd6 \/ f = time_first -> forall es,
    parse Velocity (flat_map f es) = flat_map (record_of Velocity) (removelast es).
  Proof.
    intros f F [|e es]; [reflexivity|]. unfold parse_rdi. cbn [flat_map].
    destruct F as [-> | ->]; [set (rest := flat_map pd6 es)|set (rest := flat_map time_first es)]; unfold pd6, time_first, bi_of, bd_of;
      destruct (e_lock e) as [[[[x y] z] err]|] eqn:L, (e_range e); cbn -[Qmult flat_map removelast rest];
      try (destruct (rotate (x * (1 # 1000)) (y * (1 # 1000))) eqn:R); cbn -[Qmult flat_map removelast rest];
      (subst rest; apply many_velocity; [auto|reflexivity|reflexivity|unfold velocity_of; rewrite L; try rewrite R; reflexivity]).
  Qed.
  Lemma parse_altitude : forall f, f = pd6 \/ f = time_first -> forall es,
    parse Altitude (flat_map f es) = flat_map (record_of Altitude) (removelast es).
  Proof.
    intros f F [|e es]; [reflexivity|]. unfold parse_rdi. cbn [flat_map].
    destruct F as [-> | ->]; [set (rest := flat_map pd6 es)|set (rest := flat_map time_first es)]; unfold pd6, time_first, bi_of, bd_of;
      destruct (e_lock e) as [[[[x y] z] err]|] eqn:L, (e_range e) eqn:G; cbn -[Qmult flat_map removelast rest];
      try (destruct (rotate (x * (1 # 1000)) (y * (1 # 1000))) eqn:R); cbn -[Qmult flat_map removelast rest];
      (subst rest; apply many_altitude; [auto|reflexivity|reflexivity|unfold range_of; rewrite L; try rewrite G; reflexivity]).
  Qed.
  Lemma parse_attitude_time_first : forall es,
    parse Orientation (flat_map time_first es) = flat_map (record_of Orientation) (removelast es).
  Proof.
    intros [|e es]; [reflexivity|]. unfold parse_rdi. cbn [flat_map].
    set (rest := flat_map time_first es). unfold time_first, bi_of, bd_of;
      destruct (e_lock e) as [[[[x y] z] err]|] eqn:L, (e_range e) eqn:G; cbn -[Qmult flat_map removelast rest];
      try (destruct (rotate (x * (1 # 1000)) (y * (1 # 1000))) eqn:R); cbn -[Qmult flat_map removelast rest];
      (subst rest; apply many_attitude; reflexivity).
  Qed.
  Lemma parse_attitude_pd6 : ot_std <> None -> forall e es, parse Orientation (flat_map pd6 (e :: es)) = shifted e es.
  Proof.
    intros ST e es. unfold parse_rdi. cbn [flat_map].
    set (rest := flat_map pd6 es). unfold pd6, bi_of, bd_of;
      destruct (e_lock e) as [[[[x y] z] err]|] eqn:L, (e_range e) eqn:G; cbn -[Qmult flat_map removelast rest];
      try (destruct (rotate (x * (1 # 1000)) (y * (1 # 1000))) eqn:R); cbn -[Qmult flat_map removelast rest];
      (subst rest; apply many_shifted; [exact ST|reflexivity]).
  Qed.
End Spec.

(** Velocities and altitudes: one record per ensemble with bottom lock, except that the
    last ensemble of the log is never reported. *)
Theorem C33_velocity_altitude : forall radians rotate ot_std es c, c = Velocity \/ c = Altitude ->
  parse_rdi radians rotate ot_std c (flat_map pd6 es) = flat_map (record_of radians rotate ot_std c) (removelast es).
Proof. intros radians rotate ot_std es c [-> | ->]; [apply parse_velocity|apply parse_altitude]; auto. Qed.
Print Assumptions C33_velocity_altitude.

(** Attitudes, when the attitude line follows the timestamp line. *)
Theorem C33_time_first : forall radians rotate ot_std es c,
  parse_rdi radians rotate ot_std c (flat_map time_first es) = flat_map (record_of radians rotate ot_std c) (removelast es).
Proof.
  intros radians rotate ot_std es []; [apply parse_velocity; auto|apply parse_attitude_time_first|apply parse_altitude; auto].
Qed.
Print Assumptions C33_time_first.

(** In PD6 order the attitude precedes the timestamp: each attitude is reported under the
    timestamp of the ensemble before it. *)
Theorem C133_orientation_shifted : forall radians rotate std e es,
  parse_rdi radians rotate (Some std) Orientation (flat_map pd6 (e :: es)) = shifted radians e es.
Proof. intros. apply parse_attitude_pd6. discriminate. Qed.
Print Assumptions C133_orientation_shifted.

Definition ens (h t : Q) : ensemble := mkens 0 0 h t (Some (1000, 0, 0, 10)) (Some 7).
Definition plain (x y : Q) : Q * Q := (x, y).
Definition id_rad (x : Q) : Q := x.

Theorem C133_orientation_refuted : exists es e, In e es /\ 
  In (OutOrientation (e_t e) (mkatt 0 0 90)) (parse_rdi id_rad plain (Some 0) Orientation (flat_map pd6 es)) /\
  (forall e', In e' es -> e_t e' = e_t e -> e_heading e' = 0).
Proof.
  exists [ens 0 100; ens 90 101], (ens 0 100). split; [now left|]. split; [left; reflexivity|].
  intros e' [<-|[<-|[]]] H; [reflexivity|discriminate H].
Qed.
Print Assumptions C133_orientation_refuted.

Theorem C133_last_refuted : exists es e, In e es /\ e_lock e <> None /\ e_range e <> None /\
  forall c, c = Velocity \/ c = Altitude ->
    record_of id_rad plain (Some 0) c e <> [] /\
    forall x, In x (parse_rdi id_rad plain (Some 0) c (flat_map pd6 es)) -> ~ In x (record_of id_rad plain (Some 0) c e).
Proof.
  exists [ens 0 100; ens 0 101], (ens 0 101). split; [right; now left|]. split; [discriminate|]. split; [discriminate|].
  intros c [-> | ->]; (split; [discriminate|]); intros x [<-|[]] [H|[]]; discriminate H.
Qed.
Print Assumptions C133_last_refuted.

Example C33_example :
  parse_rdi id_rad plain (Some 0) Velocity (flat_map pd6 [ens 0 100; mkens 0 0 0 101 None (Some 3); ens 0 102; ens 0 103]) =
    [OutVelocity 100 100 (mkvel (1000 * (1 # 1000)) (0 * (1 # 1000)) (0 * (1 # 1000)) (10 * (1 # 1000)));
     OutVelocity 102 102 (mkvel (1000 * (1 # 1000)) (0 * (1 # 1000)) (0 * (1 # 1000)) (10 * (1 # 1000)))] /\
  parse_rdi id_rad plain (Some 0) Altitude (flat_map pd6 [ens 0 100; mkens 0 0 0 101 None (Some 3); ens 0 102; ens 0 103]) =
    [OutAltitude 100 100 7; OutAltitude 102 102 7].
Proof. split; reflexivity. Qed.
