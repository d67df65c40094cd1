(** C19: EKF poses and camera images. *)
From Verif Require Import PyBase InterpModel InterpSpec InterpProofs UsblSpec ListFacts EkfCamModel EkfCamProofs.
Open Scope Q_scope.

(** Each entry of the new list is made from an image and a state of the same
    time, images and states in their order and each at most once. *)
Theorem C19_own_state : forall (C E : Type) (ct : C -> Q) (et : E -> Q) cams ekf,
  exists r, update_camera_list C E ct et cams ekf = Some r /\
    subseq (map fst r) cams /\ subseq (map snd r) ekf /\ forall c e, In (c, e) r -> ct c == et e.
Proof.
  intros C E ct et cams ekf. destruct (pair_total C E ct et (S (length cams + length ekf)) cams ekf) as [r H]; [lia|].
  exists r. split; [exact H|]. now apply pair_sound in H.
Qed.
Print Assumptions C19_own_state.

(** No image with a state is lost: with one image per time stamp each image gets
    the first state of its time, whatever the other images do. *)
Theorem C19_no_image_lost : forall (C E : Type) (ct : C -> Q) (et : E -> Q) cams ekf r c e,
  increasing ct cams -> nondecreasing et ekf -> update_camera_list C E ct et cams ekf = Some r ->
  In c cams -> first_at C E ct et ekf c e -> In (c, e) r.
Proof. intros. eapply pair_complete; eassumption. Qed.
Print Assumptions C19_no_image_lost.

Example C19_example :
  let cams := [(1, 10%Z); (3, 20%Z); (4, 30%Z)] in let ekf := [(0, 1%Z); (1, 2%Z); (2, 3%Z); (4, 4%Z); (4, 5%Z)] in
  increasing fst cams /\ nondecreasing fst ekf /\
  update_camera_list _ _ fst fst cams ekf = Some [((1, 10%Z), (1, 2%Z)); ((4, 30%Z), (4, 4%Z))].
Proof.
  cbn zeta. split; [now apply increasing_chain|split; [now apply nondecreasing_chain|reflexivity]].
Qed.

(** Refuted for two images with the same time stamp: the second is lost. *)
Theorem C119_same_stamp_refuted : exists (cams ekf : list (Q * Z)) r c e,
  nondecreasing fst cams /\ increasing fst ekf /\ update_camera_list _ _ fst fst cams ekf = Some r /\
  In c cams /\ first_at _ _ fst fst ekf c e /\ ~ In c (map fst r).
Proof.
  exists [(1, 10%Z); (1, 20%Z); (2, 30%Z)], [(1, 1%Z); (2, 2%Z)]. eexists. exists (1, 20%Z), (1, 1%Z).
  split; [|split; [|split; [reflexivity|split; [right; left; reflexivity|split]]]].
  - now apply nondecreasing_chain.
  - now apply increasing_chain.
  - exists [], [(2, 2%Z)]. split; [reflexivity|split; [reflexivity|intros x []]].
  - cbn. intros [X|[X|[]]]; discriminate.
Qed.
Print Assumptions C119_same_stamp_refuted.

(** Altitude of the EKF states: from the dead-reckoning samples around them, for
    states within the span of the dead reckoning. *)
Theorem C19_altitude_bracketed : forall dr ts t0 a0 tn an,
  increasing fst dr -> (2 <= length dr)%nat -> is_first dr (t0, a0) -> is_last dr (tn, an) ->
  nondecreasing (fun t => t) ts -> (forall t, In t ts -> t0 <= t <= tn) ->
  exists r, save_ekf_to_list dr ts = Some r /\ Forall2 (bracketed dr) ts r.
Proof.
  intros dr ts t0 a0 tn an HI HL [l F] [l' L] HT HR.
  assert (N0 : nth_error dr 0 = Some (t0, a0)) by (rewrite F; reflexivity).
  eapply altitudes_spec with (t0 := t0) (tn := tn); eauto; try lia.
  - exists an. rewrite L, app_length. cbn. rewrite nth_error_app2 by lia.
    replace (length l' + 1 - 1 - length l')%nat with 0%nat by lia. reflexivity.
  - intros t p Ht Hp. change (1 - 1)%nat with 0%nat in Hp. rewrite N0 in Hp. injection Hp as <-. cbn. now apply HR.
Qed.
Print Assumptions C19_altitude_bracketed.

Example C19_altitude_example :
  save_ekf_to_list [(0, 10); (2, 20); (4, 40)] [0; 1; 1; 3] = Some [interpolate 0 0 2 10 20; interpolate 1 0 2 10 20; interpolate 1 0 2 10 20; interpolate 3 2 4 20 40]
  /\ interpolate 3 2 4 20 40 == 30.
Proof. split; reflexivity. Qed.

(** Refuted beyond the last dead-reckoning sample: IndexError, all states lost. *)
Theorem C119_after_dead_reckoning_refuted : exists dr ts,
  increasing fst dr /\ (2 <= length dr)%nat /\ In 3 ts /\ save_ekf_to_list dr ts = None.
Proof.
  exists [(0, 10); (2, 20)], [1; 3]. split; [|split; [cbn; lia|split; [right; now left|reflexivity]]].
  now apply increasing_chain.
Qed.
Print Assumptions C119_after_dead_reckoning_refuted.
