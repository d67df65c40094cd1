(** C27: independence of earlier dives; C29: stereo pairs. *)
From Verif Require Import PyBase UsblSpec StereoModel StereoProofs.
Open Scope Q_scope.

(** ** C29 *)
(** For a dive parsed alone: the pairs are in the order of the left images; each one is
    a left image with a nearest right image, close enough; every left image with a
    close enough right image is paired. *)
Theorem C29_pairs : forall (N : Type) k tol (c : cameras N), (right_list k c <> [] \/ left_images c = []) ->
  exists ps, parse_alone k tol c = Some ps /\
    subseq (map fst ps) (left_images c) /\
    (forall a b, In (a, b) ps -> nearest (right_list k c) a b /\ close k tol (distance a b)) /\
    (forall a b, In a (left_images c) -> In b (right_list k c) -> close k tol (distance a b) -> exists b', In (a, b') ps).
Proof.
  intros N k tol c H. destruct (parse_alone_spec k tol c H) as (ps & E & P). exists ps.
  split; [exact E|]. split; [eapply paired_order; exact P|]. split.
  - intros a b I. now apply (paired_each _ _ _ _ _ P) in I.
  - exact (paired_complete _ _ _ _ _ P).
Qed.
Print Assumptions C29_pairs.

(** A single right image is paired with two left images. *)
Theorem C129_right_once_refuted : exists k (c : cameras nat) a a' b ps, parse_alone k tolerance c = Some ps /\
  ps = [(a, b); (a', b)] /\ i_name a <> i_name a'.
Proof.
  exists AcfrImages, (mkCams [mkImg 10 1%nat; mkImg (1002 # 100) 2%nat] [mkImg (1001 # 100) 7%nat]),
    (mkImg 10 1%nat), (mkImg (1002 # 100) 2%nat), (mkImg (1001 # 100) 7%nat). eexists.
  split; [vm_compute; reflexivity|]. split; [reflexivity|discriminate].
Qed.
Print Assumptions C129_right_once_refuted.

(** Without any right image the BioCam and NTNU parsers raise instead of reporting
    nothing. *)
Theorem C129_no_right_image_refuted : exists k (c : cameras nat), right_images c = [] /\ parse_alone k tolerance c = None.
Proof. exists BiocamImages, (mkCams [mkImg 10 1%nat] []). split; reflexivity. Qed.
Print Assumptions C129_no_right_image_refuted.
(** They do so whenever there is a left image. *)
Theorem C129_no_right_image : forall (N : Type) tol (c : cameras N), right_images c = [] -> left_images c <> [] ->
  parse_alone BiocamImages tol c = None /\ parse_alone NtnuImages tol c = None.
Proof. intros N tol c R L. split; apply parse_alone_crash; auto; unfold right_list; now rewrite R. Qed.
Print Assumptions C129_no_right_image.

(** ** C27 *)
(** Only the first dive of an invocation is sure to be parsed as if alone. *)
Theorem C27_first_dive : forall (N : Type) k tol (c : cameras N) ds r rs,
  parse_all k tol ([], []) (c :: ds) = r :: rs -> r = parse_alone k tol c.
Proof. intros N k tol c ds r rs H. cbn in H. now injection H as <-. Qed.
Print Assumptions C27_first_dive.
(** Dives without images before it do not matter either. *)
Theorem C27_after_empty_dives : forall (N : Type) k tol (c : cameras N) es,
  (forall e, In e es -> left_images e = [] /\ right_images e = []) ->
  last (parse_all k tol ([], []) (es ++ [c])) None = parse_alone k tol c.
Proof.
  intros N k tol c es. induction es as [|e es IH]; intro H; [reflexivity|].
  cbn [app parse_all]. destruct (H e (or_introl eq_refl)) as [L R].
  unfold parse_images at 1. unfold right_list. rewrite R, L. cbn [map app fst snd].
  rewrite <- IH by (intros; apply H; now right).
  replace (match k with AcfrImages => [] | _ => @nil (image N) end) with (@nil (image N)) by now destruct k. cbn [map].
  destruct es; reflexivity.
Qed.
Print Assumptions C27_after_empty_dives.

(** The second of two dives gets the first one's timestamps. *)
Theorem C127_independent_refuted : exists k (c1 c2 : cameras nat) r1 r2, parse_all k tolerance ([], []) [c1; c2] = [r1; r2] /\
  r2 <> parse_alone k tolerance c2 /\
  parse_alone k tolerance c2 = Some [(mkImg 200 5%nat, mkImg 200 6%nat)] /\
  r2 = Some [(mkImg 100 5%nat, mkImg 100 6%nat)].
Proof.
  exists AcfrImages, (mkCams [mkImg 100 1%nat] [mkImg 100 2%nat]), (mkCams [mkImg 200 5%nat] [mkImg 200 6%nat]).
  eexists. eexists. split; [vm_compute; reflexivity|]. split; [discriminate|]. split; reflexivity.
Qed.
Print Assumptions C127_independent_refuted.

(** And this is what always happens: a dive with no more images than the one before
    reports only timestamps of that earlier dive. *)
Theorem C27_second_dive_stale : forall (N : Type) k tol (c1 c2 : cameras N) r1 ps,
  parse_all k tol ([], []) [c1; c2] = [r1; Some ps] ->
  (length (left_images c2) <= length (left_images c1))%nat ->
  (length (right_list k c2) <= length (right_list k c1))%nat ->
  forall a b, In (a, b) ps -> In (i_t a) (map i_t (left_images c1)) /\ In (i_t b) (map i_t (right_list k c1)).
Proof.
  intros N k tol c1 c2 r1 ps H L R a b I. cbn in H. injection H as _ H.
  refine (parse_images_stale k tol (map i_t (left_images c1), map i_t (right_list k c1)) c2 ps H _ _ a b I);
    cbn; now rewrite map_length.
Qed.
Print Assumptions C27_second_dive_stale.

(** Even pairs that do not exist are made up: images taken a minute apart are paired
    with the previous dive's timestamps. *)
Theorem C127_false_pair_refuted : exists k (c1 c2 : cameras nat) r1 p, parse_alone k tolerance c2 = Some [] /\
  parse_all k tolerance ([], []) [c1; c2] = [r1; Some [p]].
Proof.
  exists BiocamImages, (mkCams [mkImg 100 1%nat] [mkImg 100 2%nat]), (mkCams [mkImg 200 5%nat] [mkImg 260 6%nat]).
  eexists. eexists. split; vm_compute; reflexivity.
Qed.
Print Assumptions C127_false_pair_refuted.

Example C29_example : parse_alone AcfrImages tolerance
  (mkCams [mkImg 10 1%nat; mkImg 20 2%nat; mkImg 30 3%nat; mkImg 40 4%nat]
          [mkImg (3002 # 100) 13%nat; mkImg (1005 # 100) 11%nat; mkImg (998 # 100) 10%nat; mkImg (2006 # 100) 12%nat; mkImg (4005 # 100) 14%nat]) =
  Some [(mkImg 10 1%nat, mkImg (998 # 100) 10%nat); (mkImg 30 3%nat, mkImg (3002 # 100) 13%nat); (mkImg 40 4%nat, mkImg (4005 # 100) 14%nat)].
Proof. vm_compute. reflexivity. Qed.
