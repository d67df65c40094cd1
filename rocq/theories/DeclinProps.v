(** C317 and C318: the magnetic declination of a USBL record. *)
From Coq Require Import Reals Lra.
From Verif Require Import DeclinModel.
Open Scope R_scope.

(** A position at a distance and a bearing, clockwise from north. *)
Definition at_bearing (n e distance bearing : R) : Prop :=
  n = distance * cos bearing /\ e = distance * sin bearing.

Section Props.
  Variable latlon : R -> R -> R -> R -> R * R.

  (** The bearing grows by the declination, the distance stays, latitude and longitude are those of
      the new position, and everything else is kept. *)
  Theorem C317_bearing : forall u n e d la lo distance bearing,
    northings u = Some n -> eastings u = Some e -> declination u = Some d ->
    latitude_reference u = Some la -> longitude_reference u = Some lo ->
    at_bearing n e distance bearing ->
    exists n' e' v, apply_declination latlon u = (v, true) /\
    northings v = Some n' /\ eastings v = Some e' /\ at_bearing n' e' distance (bearing + d) /\
    n' * n' + e' * e' = n * n + e * e /\
    latitude v = Some (fst (latlon la lo e' n')) /\ longitude v = Some (snd (latlon la lo e' n')) /\
    stamp v = stamp u /\ northings_std v = northings_std u /\ eastings_std v = eastings_std u /\
    declination v = declination u /\ latitude_reference v = latitude_reference u /\
    longitude_reference v = longitude_reference u.
  Proof.
    intros u n e d la lo distance bearing N E D LA LO (-> & ->).
    unfold apply_declination. rewrite N, E, D, LA, LO.
    eexists _, _, _. split; [reflexivity |]. cbn.
    split; [reflexivity |]. split; [reflexivity |]. split.
    { split; [rewrite cos_plus | rewrite sin_plus]; ring. }
    split.
    { pose proof (sin2_cos2 d) as S. unfold Rsqr in S.
      transitivity ((distance * cos bearing * (distance * cos bearing) + distance * sin bearing * (distance * sin bearing))
        * (sin d * sin d + cos d * cos d)); [ring | rewrite S; ring]. }
    repeat split; try reflexivity; congruence.
  Qed.

  (** Two declinations one after the other are their sum; the opposite one undoes it. *)
  Theorem C317_twice : forall u v w d d',
    apply_declination latlon (set_magnetic_declination u (Some d)) = (v, true) ->
    apply_declination latlon (set_magnetic_declination v (Some d')) = (w, true) ->
    exists x, apply_declination latlon (set_magnetic_declination u (Some (d + d'))) = (x, true) /\
    northings w = northings x /\ eastings w = eastings x /\ latitude w = latitude x /\ longitude w = longitude x /\
    (d' = - d -> northings w = northings u /\ eastings w = eastings u).
  Proof.
    intros u v w d d' H K. unfold apply_declination in *. cbn in *.
    destruct (northings u) as [n |]; [| discriminate]. destruct (eastings u) as [e |]; [| discriminate].
    destruct (latitude_reference u) as [la |] eqn:LA; [| discriminate].
    destruct (longitude_reference u) as [lo |] eqn:LO; [| discriminate].
    injection H as <-. cbn in K. rewrite LA, LO in K. injection K as <-.
    eexists. split; [reflexivity |]. cbn.
    set (n1 := n * cos d - e * sin d). set (e1 := n * sin d + e * cos d).
    assert (n1 * cos d' - e1 * sin d' = n * cos (d + d') - e * sin (d + d')) as EN
      by (rewrite cos_plus, sin_plus; unfold n1, e1; ring).
    assert (n1 * sin d' + e1 * cos d' = n * sin (d + d') + e * cos (d + d')) as EE
      by (rewrite cos_plus, sin_plus; unfold n1, e1; ring).
    rewrite EN, EE. repeat (split; [reflexivity |]). intros ->.
    replace (d + - d) with 0 by ring. rewrite cos_0, sin_0. split; f_equal; ring.
  Qed.

  (** When it returns, and that a record without position or declination is left alone. *)
  Theorem C317_raises : forall u,
    (snd (apply_declination latlon u) = true <->
     northings u <> None /\ eastings u <> None /\ declination u <> None /\
     latitude_reference u <> None /\ longitude_reference u <> None) /\
    (northings u = None \/ eastings u = None \/ declination u = None -> fst (apply_declination latlon u) = u) /\
    (snd (apply_declination latlon u) = true -> valid (fst (apply_declination latlon u)) = given (stamp u)) /\
    valid (clear u) = false /\ snd (apply_declination latlon (clear u)) = false.
  Proof.
    intro u. unfold apply_declination, valid. cbn.
    destruct (northings u) as [n |], (eastings u) as [e |], (declination u) as [d |];
      try (split; [split; [discriminate | intros (A & B & C & _); congruence] |];
           split; [reflexivity |]; split; [discriminate |]; split; reflexivity).
    destruct (latitude_reference u) as [la |], (longitude_reference u) as [lo |]; cbn;
      (split; [split; [try discriminate; intros _; repeat split; discriminate | try reflexivity; intros (_ & _ & _ & A & B); congruence] |];
       split; [intros [A | [A | A]]; discriminate |]; split; [try discriminate; reflexivity |]; split; reflexivity).
  Qed.
End Props.

(** A quarter turn: from the north to the east. *)
Definition north10 (sn se : R) (ref : option R) : usbl :=
  mkusbl (Some 0) None None (Some 10) (Some 0) (Some sn) (Some se) (Some (PI / 2)) ref ref.

Example C317_ex : exists v, apply_declination (fun la lo e n => (la + n, lo + e)) (north10 1 1 (Some 50)) = (v, true) /\
  northings v = Some 0 /\ eastings v = Some 10 /\ latitude v = Some 50 /\ longitude v = Some 60 /\
  valid (north10 1 1 (Some 50)) = false /\ valid v = true.
Proof.
  eexists. split; [reflexivity |]. cbn. rewrite cos_PI2, sin_PI2. repeat split; f_equal; lra.
Qed.

(** ** C318 *)

(** The uncertainties should turn with the position: after a quarter turn that to the north is what
    that to the east was.  They stay. *)
Theorem C318_std_refuted : exists latlon u v sn se d, apply_declination latlon u = (v, true) /\
  northings_std u = Some sn /\ eastings_std u = Some se /\ declination u = Some d /\ 0 < sn /\ 0 < se /\
  northings_std v = Some sn /\
  sn * sn <> sn * sn * (cos d * cos d) + se * se * (sin d * sin d).
Proof.
  exists (fun la lo e n => (la + n, lo + e)), (north10 1 4 (Some 50)). eexists _, 1, 4, (PI / 2).
  split; [reflexivity |]. cbn. rewrite cos_PI2, sin_PI2. repeat split; lra.
Qed.

(** A call that is repeated turns the position again, though the declination is the same. *)
Theorem C318_again_refuted : exists latlon u v w, apply_declination latlon u = (v, true) /\
  apply_declination latlon v = (w, true) /\ northings v = Some 0 /\ northings w = Some (-10).
Proof.
  exists (fun la lo e n => (la + n, lo + e)), (north10 1 1 (Some 50)). eexists _, _.
  split; [reflexivity |]. split; [reflexivity |]. cbn. rewrite cos_PI2, sin_PI2. split; f_equal; lra.
Qed.

(** A record made without a reference raises, but only after its position has been turned. *)
Theorem C318_half_refuted : exists latlon u v, apply_declination latlon u = (v, false) /\
  northings u = Some 10 /\ northings v = Some 0 /\ eastings v = Some 10 /\ latitude v = None.
Proof.
  exists (fun la lo e n => (la + n, lo + e)), (north10 1 1 None). eexists.
  split; [reflexivity |]. cbn. rewrite cos_PI2, sin_PI2. repeat split; f_equal; lra.
Qed.

Print Assumptions C317_bearing.
Print Assumptions C317_twice.
Print Assumptions C317_raises.
Print Assumptions C318_std_refuted.
Print Assumptions C318_again_refuted.
Print Assumptions C318_half_refuted.
