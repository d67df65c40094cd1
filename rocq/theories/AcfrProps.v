(** C34: pose files; C35: the combined raw file. *)
From Coq Require Import Ascii String.
From Verif Require Import PyBase PfProofs AcfrModel AcfrProofs.
Open Scope Q_scope.
Open Scope list_scope.

(** Stereo pose files: the origin, and every pair with its place, time and image names
    (without their folders); the right camera comes back at the left camera's place. *)
Theorem C34_stereo : forall degrees basename la lo c1 c2, exists p,
  parse_stereo degrees (write_stereo basename la lo c1 c2) = Some p /\ o_lat p = Some la /\ o_lon p = Some lo /\
  Forall2 (fun cc dd => same_place (c_pose (fst cc)) (c_pose (fst dd)) /\ same_place (c_pose (fst cc)) (c_pose (snd dd)) /\
             c_file (fst dd) = basename (c_file (fst cc)) /\ c_file (snd dd) = basename (c_file (snd cc)))
          (combine c1 c2) (map cameras (entries p)).
Proof.
  intros degrees basename la lo c1 c2. rewrite stereo_read_back. eexists. split; [reflexivity|]. split; [reflexivity|]. split; [reflexivity|].
  cbn [entries]. rewrite map_map. apply Forall2_map_r. intros [a b]. unfold same_place, cameras, stereo_ent. cbn. repeat split.
Qed.
Print Assumptions C34_stereo.

(** What happens to the attitude: it is written in degrees, converted to degrees again,
    and its axes are exchanged on reading only. *)
Theorem C134_stereo_attitude : forall degrees basename la lo c1 c2 p, parse_stereo degrees (write_stereo basename la lo c1 c2) = Some p ->
  Forall2 (fun cc dd => let o := c_pose (fst cc) in let r := c_pose (fst dd) in
             roll r = degrees (pitch o) /\ pitch r = - degrees (roll o) /\ yaw r = degrees (yaw o) + 90)
          (combine c1 c2) (map cameras (entries p)).
Proof.
  intros degrees basename la lo c1 c2 p H. rewrite stereo_read_back in H. injection H as <-.
  cbn [entries]. rewrite map_map. apply Forall2_map_r. intros [a b]. repeat split.
Qed.
Print Assumptions C134_stereo_attitude.

(** The lines after the header: two for the origin, then one per pair (or pose) numbered from
    zero. *)
Lemma number_nth : forall {A B} (f : Q -> A -> B) l i k, nth_error (number f i l) k = option_map (f (inject_Z (i + Z.of_nat k))) (nth_error l k).
Proof.
  intros A B f. induction l as [|a l IH]; intros i k; [now destruct k|]. destruct k as [|k]; cbn [number nth_error option_map]; [now rewrite Z.add_0_r|].
  rewrite IH. f_equal. f_equal. f_equal. lia.
Qed.
Theorem C34_numbering : forall basename la lo c1 c2 ps k,
  match nth_error (combine c1 c2) k with
  | Some (a, b) => exists rest, nth_error (write_stereo basename la lo c1 c2) (57 + k) = Some (Num (inject_Z (Z.of_nat k)) :: Num (t (c_pose a)) :: rest)
  | None => nth_error (write_stereo basename la lo c1 c2) (57 + k) = None
  end /\
  match nth_error ps k with
  | Some p => exists rest, nth_error (write_vehicle la lo ps) (45 + k) = Some (Num (inject_Z (Z.of_nat k)) :: Num (t p) :: rest)
  | None => nth_error (write_vehicle la lo ps) (45 + k) = None
  end.
Proof.
  intros basename la lo c1 c2 ps k. split.
  - assert (nth_error (write_stereo basename la lo c1 c2) (57 + k) = nth_error (number (stereo_line basename) 0 (combine c1 c2)) k) as -> by reflexivity.
    rewrite number_nth. destruct (nth_error (combine c1 c2) k) as [[a b]|]; [|reflexivity]. eexists. reflexivity.
  - assert (nth_error (write_vehicle la lo ps) (45 + k) = nth_error (number vehicle_line 0 ps) k) as -> by reflexivity.
    rewrite number_nth. destruct (nth_error ps k); [|reflexivity]. eexists. reflexivity.
Qed.
Print Assumptions C34_numbering.

(** Vehicle pose files: the header is one line shorter than the parser assumes, so the
    first pose is lost and the origin is wrong; the other places survive. *)
Theorem C34_vehicle : forall degrees la lo p0 ps, exists p,
  parse_vehicle degrees (write_vehicle la lo (p0 :: ps)) = Some p /\
  Forall2 same_place ps (map dead_reckoning (entries p)).
Proof.
  intros degrees la lo p0 ps. rewrite vehicle_read_back. eexists. split; [reflexivity|].
  cbn [entries]. rewrite map_map. apply Forall2_map_r. intros a. unfold same_place. cbn. repeat split.
Qed.
Print Assumptions C34_vehicle.
Theorem C134_vehicle_origin : forall degrees la lo p0 ps p, parse_vehicle degrees (write_vehicle la lo (p0 :: ps)) = Some p ->
  o_lat p = Some lo /\ o_lon p = Some (t p0) /\ length (entries p) = length ps.
Proof. intros degrees la lo p0 ps p H. rewrite vehicle_read_back in H. injection H as <-. cbn. rewrite map_length. auto. Qed.
Print Assumptions C134_vehicle_origin.

Definition to_degrees (x : Q) : Q := x * (57296 # 1000).
Definition p1 : pose := mkpose 100 50 (-1) 1 2 30 5 7 90 3.
Definition p2 : pose := mkpose 101 50 (-1) 1 3 30 5 7 90 3.
Theorem C134_vehicle_refuted : exists la lo ps p, ps <> [] /\ parse_vehicle to_degrees (write_vehicle la lo ps) = Some p /\
  o_lat p <> Some la /\ o_lon p <> Some lo /\ (length (entries p) < length ps)%nat /\
  forall q r, In q ps -> In r (map dead_reckoning (entries p)) -> ~ same_attitude q r.
Proof.
  exists 50, (-1), [p1; p2]. eexists. split; [discriminate|]. split; [apply vehicle_read_back|].
  split; [discriminate|]. split; [discriminate|]. split; [cbn; lia|].
  intros q r Q1 [<-|[]]. destruct Q1 as [<-|[<-|[]]]; intros (A & _); discriminate A.
Qed.
Print Assumptions C134_vehicle_refuted.

(** Even an attitude of zero comes back turned by 90 degrees from a stereo file, and the
    right camera loses its own pose. *)
Theorem C134_stereo_refuted : exists c1 c2 p, 
  parse_stereo to_degrees (write_stereo (fun s => s) 50 (-1) [c1] [c2]) = Some p /\
  (forall dd, In dd (map cameras (entries p)) -> ~ same_attitude (c_pose c1) (c_pose (fst dd)) /\ ~ same_place (c_pose c2) (c_pose (snd dd))).
Proof.
  exists (mkcam (mkpose 100 50 (-1) 1 2 30 0 0 0 3) "l.tif"%string), (mkcam (mkpose 100 50 (-1) 9 2 30 0 0 0 3) "r.tif"%string).
  eexists. split; [apply stereo_read_back|]. intros dd [<-|[]]. split.
  - intros (_ & _ & C). discriminate C.
  - intros (_ & _ & _ & C & _). discriminate C.
Qed.
Print Assumptions C134_stereo_refuted.

Example C34_example :
  option_map (fun p => (o_lat p, o_lon p, map (fun e => (e_t e, e_left e, e_alt e)) (entries p)))
    (parse_stereo to_degrees (write_stereo (fun s => s) 50 (-1) [mkcam p1 "a"%string; mkcam p2 "b"%string] [mkcam p1 "c"%string; mkcam p2 "d"%string])) =
  Some (Some 50, Some (-1), [(100, "a"%string, 3); (101, "b"%string, 3)]).
Proof. reflexivity. Qed.

(** ** C35 *)

(** An RDI line is written for a body velocity exactly when an altitude and an
    orientation have arrived since the last RDI line, and combines the latest of them. *)
Theorem C35_rdi_fresh : forall ms v, m_kind v = KBodyVelocity -> exists seg, since_last_rdi ms seg /\
  ((exists a o, last_of KAltitude seg a /\ last_of KOrientation seg o /\
      written (run_writer (ms ++ [v])) = written (run_writer ms) ++ [Rdi v a o]) \/
   ((~ (exists a, In a seg /\ m_kind a = KAltitude) \/ ~ (exists o, In o seg /\ m_kind o = KOrientation)) /\
      written (run_writer (ms ++ [v])) = written (run_writer ms))).
Proof.
  intros ms v K. destruct (state_fresh ms) as (seg & S & A & O). exists seg. split; [exact S|].
  rewrite run_snoc. unfold add. rewrite K.
  destruct (rdi_altitude (run_writer ms)) as [a|]; [destruct (rdi_orientation (run_writer ms)) as [o|]|].
  - left. exists a, o. auto.
  - right. split; [|reflexivity]. right. intro E. exact (last_of_some _ _ E O).
  - right. split; [|reflexivity]. left. intro E. exact (last_of_some _ _ E A).
Qed.
Print Assumptions C35_rdi_fresh.

(** Only body velocities cause RDI lines. *)
Theorem C35_rdi_velocity : forall ms v a o, In (Rdi v a o) (written (run_writer ms)) -> In v ms /\ m_kind v = KBodyVelocity.
Proof.
  intros ms v a o. induction ms as [|m ms IH] using rev_ind; [intros []|]. rewrite run_snoc. intro H.
  assert (In (Rdi v a o) (written (run_writer ms)) \/ (m = v /\ m_kind m = KBodyVelocity)) as [J|[-> K]].
  { unfold add in H. destruct (m_kind m) as [| | | | | | |[]];
      [destruct (rdi_altitude (run_writer ms)), (rdi_orientation (run_writer ms))| | | | | | | |]; cbn [written] in H;
      try (apply in_app_iff in H as [H|[H|[]]]; [auto|]); try discriminate; auto.
    injection H as -> _ _. auto. }
  - destruct (IH J). split; [apply in_app_iff; now left|assumption].
  - split; [apply in_app_iff; right; now left|exact K].
Qed.
Print Assumptions C35_rdi_velocity.

(** Depths, USBL fixes, orientations and images (but not laser images) are written once
    each, in order. *)
Theorem C35_others_in_order : forall ms, filter is_plain (written (run_writer ms)) = map Plain (filter own_line ms).
Proof. exact others_in_order. Qed.
Print Assumptions C35_others_in_order.

Example C35_example :
  written (run_writer [mkm KOrientation 0; mkm KAltitude 1; mkm KAltitude 2; mkm KBodyVelocity 3; mkm KBodyVelocity 4;
                       mkm KDepth 5; mkm (KCamera true) 6; mkm KOrientation 7; mkm KBodyVelocity 8; mkm KAltitude 9; mkm KBodyVelocity 10]) =
  [Plain (mkm KOrientation 0); Rdi (mkm KBodyVelocity 3) (mkm KAltitude 2) (mkm KOrientation 0); Plain (mkm KDepth 5);
   Plain (mkm KOrientation 7); Rdi (mkm KBodyVelocity 10) (mkm KAltitude 9) (mkm KOrientation 7)].
Proof. reflexivity. Qed.
