(** C28: BioCam clock correction, whatever straight line the regression returns. *)
From Verif Require Import PyBase BiocamModel BiocamProofs.
Open Scope Q_scope.

(** There are affine clock models for camera 1 and for cameras 2 and 3, with the drift
    of the regression, such that every record gets the estimates of its own camera
    times, no estimate is later than the recorded computer time, and each model meets
    some recorded computer time exactly. *)
Theorem C28_clock : forall linregress l r, correct_timestamps linregress l = Some r ->
  exists f g m1 m2, affine f m1 /\ affine g m2 /\
    m1 = fst (linregress (cam1_times l) (cam1_offsets l)) /\
    m2 = fst (linregress (cam2_times l ++ cam3_times l) (cam2_offsets l ++ cam3_offsets l)) /\
    Forall2 (corrected f g) l r /\
    (exists x, In x l /\ tight1 f x) /\ (exists x, In x l /\ tight2 g x).
Proof.
  intros lr l r H. destruct (correct_spec lr l r H) as (m1 & c1 & m2 & c2 & M1 & M2 & F & T1 & T2).
  exists (predict m1 c1), (predict m2 c2), m1, m2. repeat split; auto using predict_affine.
Qed.
Print Assumptions C28_clock.

(** A drift above -100% keeps the frames in order. *)
Theorem C28_order : forall f m, affine f m -> -1 < m -> forall x y, x < y -> f x < f y.
Proof.
  intros f m A M x y L. specialize (A y x). assert (0 < (m + 1) * (y - x)) by (apply Qmult_lt_0_compat; lra). lra.
Qed.
Print Assumptions C28_order.

(** The correction succeeds exactly on lists with at least two stereo pairs. *)
Theorem C28_succeeds : forall linregress l,
  (exists r, correct_timestamps linregress l = Some r) <-> (2 <= length (cam1_times l))%nat.
Proof.
  intros lr l. split; [|apply correct_succeeds]. intros [r H].
  destruct (Nat.lt_ge_cases (length (cam1_times l)) 2) as [L|L]; [|exact L].
  rewrite (correct_needs_two lr l L) in H. discriminate.
Qed.
Print Assumptions C28_succeeds.
(** So a dive with one stereo pair, and any number of laser images, is not corrected
    but stops the parser. *)
Theorem C128_single_pair_refuted : exists linregress l, (10 <= length l)%nat /\ correct_timestamps linregress l = None.
Proof.
  exists (fun _ _ => (0, 0)), (StereoFrame 11 1 12 2 :: repeat (LaserFrame 13 3) 10). split; [cbn; lia|reflexivity].
Qed.
Print Assumptions C128_single_pair_refuted.

Example C28_example :
  correct_timestamps (fun _ _ => (1 # 10, 5))
    [StereoFrame 110 100 111 100; LaserFrame 120 (110 # 1); OtherFrame; StereoFrame 130 120 129 120] <> None /\
  option_map (map (fun s => match s with StampStereo a b c => [Qred a; Qred b; Qred c] | StampLaser a b => [Qred a; Qred b] | Untouched => [] end))
    (correct_timestamps (fun _ _ => (1 # 10, 5))
      [StereoFrame 110 100 111 100; LaserFrame 120 (110 # 1); OtherFrame; StereoFrame 130 120 129 120]) =
  Some [[108; 108; 107]; [118; 118]; []; [130; 130; 129]].
Proof. split; [discriminate|vm_compute; reflexivity]. Qed.
