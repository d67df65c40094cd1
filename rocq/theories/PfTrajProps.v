(** C23: the particles' trajectories. *)
From Verif Require Import PyBase PfTrajModel PfTrajProofs.
From Verif Require PfProofs.
Open Scope Q_scope.

(** Whatever the filter does (propagations, sorting, resampling by deep copies), the
    array recorded at propagation i holds, at the end, the position computed at that
    propagation, but the depth, attitude and velocity drawn for propagation i + 1. *)
Theorem C23_recorded_content : forall disp n prior t os,
  (forall o, In o os -> legal n o) ->
  exists h ps gs, execs disp os (set_prior n prior t) = Some (h, ps) /\
    ref_execs disp os (ref_prior n prior t) = Some gs /\
    Forall2 (fun p g => traj_time p = times g /\
      trajectory h p = map Some (smear (hist g)) /\ nth_error h (loc p) = Some (cur g)) ps gs.
Proof.
  intros disp n prior t os L.
  assert (LN : length (snd (set_prior n prior t)) = n) by (cbn; now rewrite map_length, seq_length).
  destruct (execs_rep disp os (fst (set_prior n prior t)) (snd (set_prior n prior t)) (ref_prior n prior t))
    as (h & ps & gs & E & G & [F _]).
  - apply prior_rep.
  - now rewrite LN.
  - exists h, ps, gs. split; [exact E|]. split; [exact G|].
    eapply PfProofs.Forall2_impl; [|exact F]. intros p g (H1 & H2 & H3 & H4 & _). auto.
Qed.
Print Assumptions C23_recorded_content.

(** In particular the recorded easting and northing are right, and so is the whole
    last entry. *)
Theorem C23_position_kept : forall h i r s,
  nth_error h i = Some (r, s) ->
  exists s', nth_error (smear h) i = Some s' /\ px s' = px s /\ py s' = py s /\ palt s' = palt s /\
    (S i = length h -> s' = s) /\
    (forall r' s2, nth_error h (S i) = Some (r', s2) ->
       pz s' = rz r' /\ proll s' = rroll r' /\ ppitch s' = rpitch r' /\ pyaw s' = ryaw r' /\
       pvx s' = rvx r' /\ pvy s' = rvy r' /\ pvz s' = rvz r').
Proof.
  intros h i r s H. rewrite (smear_nth h i r s H). eexists. split; [reflexivity|].
  destruct (nth_error h (S i)) as [[r' s2]|] eqn:E.
  - split; [reflexivity|]. split; [reflexivity|]. split; [reflexivity|]. split.
    + intro L. assert (S i < length h)%nat by (apply nth_error_Some; rewrite E; discriminate). lia.
    + intros r2 s3 X. injection X as <- <-. repeat split.
  - repeat split; discriminate.
Qed.
Print Assumptions C23_position_kept.

(** The altitude of every recorded state is the altitude of the prior: the altitude
    set by [set_movement] is never copied into a particle. *)
Theorem C123_altitude_frozen : forall disp n prior t os gs g r s,
  ref_execs disp os (ref_prior n prior t) = Some gs -> In g gs -> In (r, s) (hist g) -> palt s = palt prior.
Proof.
  intros disp n prior t os gs g r s E G H.
  assert (F : Forall (alt_ok (palt prior)) gs).
  { eapply alt_execs; [|exact E]. apply Forall_forall. intros x Hx. apply repeat_spec in Hx. subst. split; [reflexivity|intros ? ? []]. }
  rewrite Forall_forall in F. destruct (F g G) as [_ F2]. now apply (F2 r).
Qed.
Print Assumptions C123_altitude_frozen.

Definition still (dt : Q) (s : pstate) : Q * Q * Q := (pvx s * dt, pvy s * dt, pvz s * dt).
Definition p0 : pstate := mkS 0 0 0 0 0 0 0 0 0 5.

(** One particle, two propagations at depths 10 and 20: the first trajectory entry
    ends up with depth 20, although the state had depth 10 right after the first. *)
Theorem C123_depth_refuted : exists os h p g s,
  (forall o, In o os -> legal 1 o) /\
  execs still os (set_prior 1 p0 0) = Some (h, [p]) /\ ref_execs still os (ref_prior 1 p0 0) = Some [g] /\
  (exists r s2 rest, hist g = (r, s) :: s2 :: rest) /\ pz s == 10 /\
  exists s', nth_error (trajectory h p) 0 = Some (Some s') /\ ~ pz s' == 10.
Proof.
  exists [Propagate 1 [mkR 10 0 0 0 1 0 0]; Propagate 1 [mkR 20 0 0 0 1 0 0]].
  eexists; eexists; eexists; eexists. split; [|split; [|split; [|split; [|split]]]].
  - intros o [<-|[<-|[]]]; reflexivity.
  - cbn. reflexivity.
  - cbn. reflexivity.
  - cbn. eexists; eexists; eexists. reflexivity.
  - reflexivity.
  - eexists. split; [reflexivity|]. cbn. discriminate.
Qed.
Print Assumptions C123_depth_refuted.

(** Resampling both particles from the first one, then propagating: the copies do
    not disturb each other. *)
Example C23_example :
  let os := [Propagate 1 [mkR 10 0 0 0 1 0 0; mkR 11 0 0 0 2 0 0]; Sort [1%nat; 0%nat];
             Resample [0%nat; 0%nat]; Propagate 1 [mkR 20 0 0 0 3 0 0; mkR 30 0 0 0 4 0 0]] in
  exists h p q, execs still os (set_prior 2 p0 0) = Some (h, [p; q]) /\
    map (option_map (fun s => (Qred (px s), Qred (pz s), palt s))) (trajectory h p) = [Some (2, 20, 5); Some (5, 20, 5)] /\
    map (option_map (fun s => (Qred (px s), Qred (pz s), palt s))) (trajectory h q) = [Some (2, 30, 5); Some (6, 30, 5)].
Proof. cbn zeta. eexists; eexists; eexists. split; [vm_compute; reflexivity|]. split; vm_compute; reflexivity. Qed.

