(** C275, C276: the images of ROS bags. *)
From Coq Require Import List NArith QArith String Reals Lra Psatz Lia Bool.
From Verif Require Import RosModel RosProps LoaderModel LoaderProps RosImgModel.
Import ListNotations.
Open Scope R_scope.

(** ** Specification *)
(** The messages of a topic in the bags that open, in their order. *)
Definition of_topic (topic : string) (bags : list (option (list message))) : list message :=
  flat_map (fun b => match b with Some l => filter (fun m => String.eqb (m_topic m) topic) l | None => [] end) bags.
(** A message that answers for the time [t]: stamped less than 5 ms away, and recorded no more than half a second away. *)
Definition answers (tz t : R) (m : message) : Prop :=
  Rabs (time_of tz (m_stamp m) - t) < 0.005 /\ Rabs (m_recorded m - tz - t) <= 0.5.
(** A message's image with each value divided by 2 to the power of the depth. *)
Definition shows (bits : N) (m : message) (l : loaded) : Prop := match l with
  | Image qs => Forall2 (fun q v => (q * inject_Z (2 ^ Z.of_N bits) == inject_Z (Z.of_N v))%Q) qs (m_image m)
  | _ => False
  end.
Definition all_open (bags : list (option (list message))) : Prop := Forall (fun b => b <> None) bags.
(** The first of the messages that has the property, or none has. *)
Inductive first_of {A} (P : A -> Prop) : list A -> option A -> Prop :=
| first_none : first_of P [] None
| first_here m l : P m -> first_of P (m :: l) (Some m)
| first_later m l r : ~ P m -> first_of P l r -> first_of P (m :: l) r.

(** ** Proofs *)
Lemma first_app_none : forall {A} (P : A -> Prop) a b r, first_of P a None -> first_of P b r -> first_of P (a ++ b) r.
Proof. intros A P a b r H. remember None as n eqn:E. induction H; intros K; [exact K|discriminate|]. cbn. apply first_later; [assumption|]. now apply IHfirst_of. Qed.
Lemma first_app_some : forall {A} (P : A -> Prop) a b m, first_of P a (Some m) -> first_of P (a ++ b) (Some m).
Proof. intros A P a b m H. remember (Some m) as n eqn:E. induction H; [discriminate|injection E as ->; now apply first_here|]. cbn. apply first_later; [assumption|]. now apply IHfirst_of. Qed.
Lemma first_in : forall {A} (P : A -> Prop) l m, first_of P l (Some m) -> In m l /\ P m.
Proof. intros A P l m H. remember (Some m) as n eqn:E. induction H; [discriminate|injection E as ->; split; [now left|assumption]|]. destruct (IHfirst_of E). split; [now right|assumption]. Qed.
Lemma first_no : forall {A} (P : A -> Prop) l, first_of P l None -> forall m, In m l -> ~ P m.
Proof. intros A P l H. remember None as n eqn:E. induction H; intros k K; [destruct K|discriminate|]. destruct K as [ -> |K]; [assumption|]. now apply IHfirst_of. Qed.

Lemma search_spec : forall bits topic tz t bag, exists r, first_of (answers tz t) (on_topic topic bag) r /\
  search bits topic tz t bag = option_map (fun m => map (rosbag_value bits) (m_image m)) r.
Proof.
  intros bits topic tz t. induction bag as [|m bag (r & F & E)]; cbn [search on_topic filter]; [exists None; split; [constructor|reflexivity]|].
  destruct (String.eqb (m_topic m) topic); [|exists r; split; [exact F|exact E]].
  assert ((search bits topic tz t bag = option_map (fun m => map (rosbag_value bits) (m_image m)) r) -> ~ answers tz t m -> exists r0, first_of (answers tz t) (m :: on_topic topic bag) r0 /\ search bits topic tz t bag = option_map (fun m => map (rosbag_value bits) (m_image m)) r0) as Skip.
  { intros E' N. exists r. split; [now apply first_later|exact E']. }
  fold (on_topic topic bag). unfold SEARCH_TOL, TOL. destruct (Rle_dec _ (m_recorded m)) as [A|A]; [|apply Skip; [exact E|intros [_ K]; unfold Rabs in K; destruct (Rcase_abs _); lra]].
  destruct (Rle_dec (m_recorded m) _) as [B|B]; [|apply Skip; [exact E|intros [_ K]; unfold Rabs in K; destruct (Rcase_abs _); lra]].
  rewrite epoch_time. destruct (Rlt_dec _ _) as [C|C]; [|apply Skip; [exact E|intros [K _]; lra]].
  exists (Some m). split; [|reflexivity]. apply first_here. split; [lra|]. unfold Rabs. destruct (Rcase_abs _); lra.
Qed.
Lemma load_spec : forall bits topic tz t bags, all_open bags -> exists r, first_of (answers tz t) (of_topic topic bags) r /\
  load_from bits topic tz t bags = match r with Some m => Image (map (rosbag_value bits) (m_image m)) | None => Missing end.
Proof.
  intros bits topic tz t bags O. induction O as [|[bag|] bags B O (r & F & E)]; cbn [load_from of_topic flat_map]; [exists None; split; [constructor|reflexivity]| |congruence].
  destruct (search_spec bits topic tz t bag) as ([m|] & G & ->); cbn [option_map].
  - exists (Some m). split; [|reflexivity]. now apply first_app_some.
  - exists r. split; [|exact E]. now apply first_app_none.
Qed.
Lemma image_shows : forall bits m, shows bits m (Image (map (rosbag_value bits) (m_image m))).
Proof.
  intros bits m. unfold shows. induction (m_image m) as [|v l IH]; cbn [map]; constructor; [|exact IH].
  unfold rosbag_value, scaled. apply Qmult_div_l || (rewrite Qmult_comm; apply Qmult_div_r). intros K. assert (0 < inject_Z (2 ^ Z.of_N bits))%Q as P. { unfold Qlt. cbn. pose proof (Z.pow_pos_nonneg 2 (Z.of_N bits)). lia. } rewrite K in P. discriminate P.
Qed.
Lemma bag_cameras : forall tz bag out, read_bag (camera_from_ros tz) camera_valid (fun c => c) camera_clear Oplab camera_new bag out =
  (camera_new, (out ++ map (fun m => mkcam (Some (time_of tz (m_stamp m))) (Some (time_of tz (m_stamp m)))) bag)%list).
Proof.
  intros tz. induction bag as [|m bag IH]; intros out; cbn [read_bag map]; [now rewrite app_nil_r|].
  unfold camera_from_ros at 1. cbn [camera_valid cam_file cam_t is andb]. unfold export. cbn [camera_valid cam_file cam_t is andb]. change (camera_clear _) with camera_new. rewrite IH, <- app_assoc, !epoch_time. reflexivity.
Qed.

(** ** C275 *)
(** auv_nav lists one camera record for each message of the topic. *)
Theorem C275_parse : forall topic tz bags, Forall2 (fun c m => cam_t c = Some (time_of tz (m_stamp m)) /\ cam_file c = cam_t c) (parse_images Oplab topic tz bags) (of_topic topic bags).
Proof.
  intros topic tz bags. unfold parse_images.
  assert (forall out, topic_worker (camera_from_ros tz) camera_valid (fun c => c) camera_clear Oplab camera_new (map (option_map (on_topic topic)) bags) out =
    (out ++ map (fun m => mkcam (Some (time_of tz (m_stamp m))) (Some (time_of tz (m_stamp m)))) (of_topic topic bags))%list) as E.
  { induction bags as [|[bag|] bags IH]; intros out; cbn [map option_map topic_worker of_topic flat_map]; [now rewrite app_nil_r| |apply IH].
    rewrite bag_cameras, IH, map_app, app_assoc. reflexivity. }
  rewrite E. cbn [app]. clear E. induction (of_topic topic bags) as [|m l IH]; cbn [map]; constructor; [split; reflexivity|exact IH].
Qed.
Print Assumptions C275_parse.
(** The loader gives the first message that answers for the time, over all the bags, and misses only if none does. *)
Theorem C275_load : forall bits topic tz t bags, all_open bags ->
  exists r, first_of (answers tz t) (of_topic topic bags) r /\
    match r with Some m => shows bits m (load_from bits topic tz t bags) | None => load_from bits topic tz t bags = Missing end.
Proof.
  intros bits topic tz t bags O. destruct (load_spec bits topic tz t bags O) as ([m|] & F & ->); [exists (Some m)|exists None]; (split; [exact F|]); [apply image_shows|reflexivity].
Qed.
Print Assumptions C275_load.
Theorem C275_missing : forall bits topic tz t bags, all_open bags ->
  (load_from bits topic tz t bags = Missing <-> forall m, In m (of_topic topic bags) -> ~ answers tz t m).
Proof.
  intros bits topic tz t bags O. destruct (load_spec bits topic tz t bags O) as ([m|] & F & ->); split; intros H; try discriminate.
  - apply first_in in F as [I A]. destruct (H m I A).
  - now apply first_no.
  - reflexivity.
Qed.
Print Assumptions C275_missing.
(** Images 5 ms or more apart, each recorded within half a second of its stamp: every record of auv_nav leads back to its image, whatever other
    topics the bags hold, with the offset that auv_nav used. *)
Definition apart (tz : R) (a b : message) : Prop := 0.005 <= Rabs (time_of tz (m_stamp a) - time_of tz (m_stamp b)).
Definition prompt (m : message) : Prop := Rabs (m_recorded m - time_of 0 (m_stamp m)) <= 0.5.
Lemma first_self : forall tz l a m b, l = (a ++ m :: b)%list -> ForallOrdPairs (apart tz) l -> Forall prompt l -> first_of (answers tz (time_of tz (m_stamp m))) l (Some m).
Proof.
  intros tz l a. revert l. induction a as [|x a IH]; intros l m b -> P Q; cbn [app] in *.
  - apply first_here. split; [rewrite Rminus_diag_eq by reflexivity; rewrite Rabs_R0; lra|]. inversion Q as [|? ? K _]; subst. unfold prompt in K. replace (m_recorded m - tz - time_of tz (m_stamp m)) with (m_recorded m - time_of 0 (m_stamp m)) by (unfold time_of; ring). exact K.
  - inversion P as [|? ? F P']; subst. inversion Q as [|? ? _ Q']; subst. apply first_later; [|now apply (IH _ m b)].
    intros [K _]. assert (apart tz x m) as D by (rewrite Forall_forall in F; apply F, in_elt). unfold apart in D. lra.
Qed.
Theorem C275_round_trip : forall bits topic tz bags, all_open bags ->
  ForallOrdPairs (apart tz) (of_topic topic bags) -> Forall prompt (of_topic topic bags) ->
  Forall2 (fun c m => exists t, cam_t c = Some t /\ shows bits m (call_rosbag (mkloader Rosbag (Some bits) tz) topic bags t)) (parse_images Oplab topic tz bags) (of_topic topic bags).
Proof.
  intros bits topic tz bags O P Q. pose proof (C275_parse topic tz bags) as H.
  assert (forall m, In m (of_topic topic bags) -> load_from bits topic tz (time_of tz (m_stamp m)) bags = Image (map (rosbag_value bits) (m_image m))) as L.
  { intros m I. apply in_split in I as (a & b & E). pose proof (first_self tz _ a m b E P Q) as F. destruct (load_spec bits topic tz (time_of tz (m_stamp m)) bags O) as (r & G & ->).
    assert (r = Some m) as ->; [|reflexivity]. clear - F G. remember (Some m) as n eqn:E. revert G. induction F as [|x l X|x l n' X F IH]; intros G; [discriminate| |]; inversion G; subst; try tauto; try congruence. }
  clear P Q. induction H as [|c m cs ms [C _] H IH]; constructor.
  - eexists. split; [exact C|]. cbn. rewrite (L m) by now left. apply image_shows.
  - apply IH. intros k K. apply L. now right.
Qed.
Print Assumptions C275_round_trip.
(** The loader follows the extension of the camera's images; without a depth, nothing is loaded. *)
Theorem C275_loader : forall extension bits entry l, set_up extension bits entry = Some l ->
  l_bits l = bits /\ (l_kind l = Rosbag <-> extension = "bag"%string) /\ (l_kind l = Xviii <-> extension = "raw"%string).
Proof.
  intros e bits entry l. unfold set_up. destruct (String.eqb_spec e "raw") as [ -> |N1]; [intros [= <-]; cbn; repeat split; discriminate|].
  destruct (String.eqb_spec e "bag") as [ -> |N2].
  - destruct (attribute "timezone" entry) as [z|]; [|discriminate]. destruct (attribute "timeoffset" entry) as [o|]; [|discriminate]. intros [= <-]. cbn. repeat split; discriminate.
  - intros [= <-]. cbn. repeat split; try discriminate; congruence.
Qed.
Print Assumptions C275_loader.
Theorem C275_no_depth : forall k tz topic bags t read_bit values,
  call_rosbag (mkloader k None tz) topic bags t = Failure /\ call_default (mkloader k None tz) read_bit values = Failure.
Proof. split; reflexivity. Qed.
Print Assumptions C275_no_depth.
(** Other images are loaded by their depth: a value less deep than the camera's is divided by 2 to the power of the camera's depth, one as deep or deeper is cut to it. *)
Theorem C275_default : forall extension b entry l read_bit values, set_up extension (Some b) entry = Some l -> extension <> "raw"%string -> extension <> "bag"%string -> (b <= 24)%N -> Forall (fun v => (v < 2 ^ read_bit)%N) values ->
  exists out, call_default l read_bit values = Image out /\
  Forall2 (fun v x => ((read_bit <= b)%N -> (x == inject_Z (Z.of_N v) / inject_Z (2 ^ Z.of_N b))%Q) /\
    ((b <= read_bit)%N -> (x <= inject_Z (Z.of_N v) / inject_Z (2 ^ Z.of_N read_bit) /\ inject_Z (Z.of_N v) / inject_Z (2 ^ Z.of_N read_bit) < x + 1 / inject_Z (2 ^ Z.of_N b))%Q)) values out.
Proof.
  intros e b entry l rb values H N1 N2 B V. unfold set_up in H. destruct (String.eqb_spec e "raw") as [?|_]; [contradiction|]. destruct (String.eqb_spec e "bag") as [?|_]; [contradiction|]. injection H as <-.
  eexists. split; [reflexivity|]. induction V as [|v values Hv V IH]; [constructor|]. cbn [map]. constructor; [|exact IH]. destruct (C47_default rb b v B Hv) as (_ & D & E). unfold scaled in D, E. split; [exact E|exact D].
Qed.
Print Assumptions C275_default.

(** ** C276 *)
(** The search of two bags, step by step. *)
Ltac decide_times := unfold SEARCH_TOL, TOL, ros_stamp_to_epoch, time_of, Rabs; cbn [m_topic m_recorded m_stamp m_image secs nsecs String.eqb Ascii.eqb Bool.eqb];
  repeat (match goal with |- context [if Rle_dec ?a ?b then _ else _] => destruct (Rle_dec a b); try lra
    | |- context [Rcase_abs ?a] => destruct (Rcase_abs a); try lra
    | |- context [if Rlt_dec ?a ?b then _ else _] => destruct (Rlt_dec a b); try lra end).
(** correct_images cannot be set up for images in a bag, whatever the mission says: the image entry has no attribute of that name. *)
Theorem C276_set_up_refuted : exists extension, forall bits timezone timeoffset, set_up extension bits (image_entry timezone timeoffset) = None.
Proof. exists "bag"%string. reflexivity. Qed.
Print Assumptions C276_set_up_refuted.
(** With that attribute there, the loader's offset is not auv_nav's unless the zone is UTC: by hours, so that no image is found. *)
Theorem C276_zone_refuted : exists timezone, forall timeoffset bits m, prompt m ->
  exists l t, set_up "bag" (Some bits) (("timeoffset"%string, timeoffset) :: image_entry timezone timeoffset) = Some l /\
    parse_images Oplab (m_topic m) (tz_offset timezone (offset_s timezone timeoffset)) [Some [m]] = [mkcam (Some t) (Some t)] /\
    call_rosbag l (m_topic m) [Some [m]] t = Missing.
Proof.
  exists 1. intros o bits m P. eexists. eexists. split; [reflexivity|]. split.
  - pose proof (C275_parse (m_topic m) (tz_offset 1 (offset_s 1 o)) [Some [m]]) as H. unfold of_topic in H. cbn [flat_map filter] in H. rewrite String.eqb_refl in H. cbn [app] in H.
    inversion H as [|[c f] ? cs ? [C F] R]; subst. inversion R; subst. cbn in C, F. rewrite F, C. reflexivity.
  - cbn [call_rosbag l_bits l_kind l_tz]. apply C275_missing; [constructor; [discriminate|constructor]|]. intros m' I [A _]. unfold of_topic in I. cbn [flat_map filter] in I. rewrite String.eqb_refl in I. destruct I as [ <- |[]].
    unfold time_of, tz_offset, offset_s, Rabs in A. destruct (Rcase_abs _) in A; lra.
Qed.
Print Assumptions C276_zone_refuted.
(** Of two images less than 5 ms apart, both records lead to the first. *)
Theorem C276_close_refuted : exists topic bags a b, Forall prompt (of_topic topic bags) /\ of_topic topic bags = [a; b] /\ m_image a <> m_image b /\
  exists t, parse_images Oplab topic 0 bags = [mkcam (Some 10) (Some 10); mkcam (Some t) (Some t)] /\ shows 8 a (load_from 8 topic 0 t bags) /\ ~ shows 8 b (load_from 8 topic 0 t bags).
Proof.
  exists "image"%string, [Some [mkmessage "image" 10 (mkstamp 10 0) [1%N]; mkmessage "image" 10 (mkstamp 10 4000000) [2%N]]].
  exists (mkmessage "image" 10 (mkstamp 10 0) [1%N]), (mkmessage "image" 10 (mkstamp 10 4000000) [2%N]).
  split; [repeat constructor; unfold prompt, time_of, Rabs; cbn; destruct (Rcase_abs _); lra|]. split; [reflexivity|]. split; [discriminate|]. exists (10 + 4000000 * (1 / 1000000000)).
  assert (load_from 8 "image" 0 (10 + 4000000 * (1 / 1000000000)) [Some [mkmessage "image" 10 (mkstamp 10 0) [1%N]; mkmessage "image" 10 (mkstamp 10 4000000) [2%N]]] = Image [rosbag_value 8 1]) as E.
  { cbn [load_from search]. decide_times. reflexivity. }
  split; [|rewrite E; split].
  - cbn. unfold ros_stamp_to_epoch. cbn. repeat (f_equal; try lra).
  - repeat constructor.
  - intros H. inversion H as [|? ? ? ? K _]; subst. discriminate K.
Qed.
Print Assumptions C276_close_refuted.
(** An image recorded more than half a second after its stamp is not found. *)
Theorem C276_late_refuted : exists topic m t, of_topic topic [Some [m]] = [m] /\ parse_images Oplab topic 0 [Some [m]] = [mkcam (Some t) (Some t)] /\
  forall bits, load_from bits topic 0 t [Some [m]] = Missing.
Proof.
  exists "image"%string, (mkmessage "image" 10.6 (mkstamp 10 0) [1%N]), 10. split; [reflexivity|]. split; [cbn; unfold ros_stamp_to_epoch; cbn; repeat (f_equal; try lra)|].
  intros bits. cbn [load_from search]. decide_times. reflexivity.
Qed.
Print Assumptions C276_late_refuted.
(** auv_nav passes over a bag that does not open; the loader raises, even for an image of the next bag. *)
Theorem C276_unopened_refuted : exists topic bags t, parse_images Oplab topic 0 bags = [mkcam (Some t) (Some t)] /\
  (exists bits m, shows bits m (load_from bits topic 0 t (tl bags))) /\ forall bits, load_from bits topic 0 t bags = Failure.
Proof.
  exists "image"%string, [None; Some [mkmessage "image" 10 (mkstamp 10 0) [1%N]]], 10. split; [cbn; unfold ros_stamp_to_epoch; cbn; repeat (f_equal; try lra)|]. split; [|reflexivity].
  exists 8%N, (mkmessage "image" 10 (mkstamp 10 0) [1%N]). assert (load_from 8 "image" 0 10 [Some [mkmessage "image" 10 (mkstamp 10 0) [1%N]]] = Image [rosbag_value 8 1]) as E by (cbn [load_from search]; decide_times; reflexivity).
  cbn [tl]. rewrite E. repeat constructor.
Qed.
Print Assumptions C276_unopened_refuted.
(** With the format "acfr", no image of a bag is listed. *)
Theorem C276_acfr_refuted : exists f, forall topic tz bags, parse_images f topic tz bags = [].
Proof.
  exists Acfr. intros topic tz bags. unfold parse_images.
  assert (forall st, topic_worker (camera_from_ros tz) camera_valid (fun c => c) camera_clear Acfr st (map (option_map (on_topic topic)) bags) [] = []) as H; [|apply H].
  induction bags as [|[bag|] bags IH]; intros st; cbn [map option_map topic_worker]; [reflexivity| |apply IH]. destruct (on_topic topic bag) as [|m l]; cbn [read_bag]; [apply IH|]. cbn. apply IH.
Qed.
Print Assumptions C276_acfr_refuted.

(** ** Examples *)
Definition two : list (option (list message)) :=
  [Some [mkmessage "a" 3610.1 (mkstamp 3610 0) [255%N; 0%N]; mkmessage "b" 3610.2 (mkstamp 3610 0) [7%N]]; Some [mkmessage "a" 3611.4 (mkstamp 3611 500000000) [128%N; 64%N]]].
Example C275_example_parse : parse_images Oplab "a" 3600 two = [mkcam (Some 10) (Some 10); mkcam (Some 11.5) (Some 11.5)].
Proof. cbn. unfold ros_stamp_to_epoch. cbn. repeat (f_equal; try lra). Qed.
Example C275_example_load : load_from 8 "a" 3600 11.5 two = Image [rosbag_value 8 128; rosbag_value 8 64] /\ (rosbag_value 8 128 == 1 # 2)%Q /\ load_from 8 "b" 3600 11.5 two = Missing.
Proof. split; [|split]; [|reflexivity|]; unfold two; cbn [load_from search]; decide_times; reflexivity. Qed.
Example C275_example_apart : ForallOrdPairs (apart 3600) (of_topic "a" two) /\ Forall prompt (of_topic "a" two).
Proof. cbn. split; repeat constructor; unfold apart, prompt, time_of, Rabs; cbn; destruct (Rcase_abs _); lra. Qed.
