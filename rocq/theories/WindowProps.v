(** C39: the processing window. *)
From Verif Require Import PyBase InterpSpec WindowModel.

(** ** Specification *)
Fixpoint somes {A} (l : list (option A)) : list A := match l with [] => [] | Some a :: r => a :: somes r | None :: r => somes r end.
Definition in_window (lo hi : Q) (r : item) : Prop := (lo <= it_t r <= hi)%Q.
(** The records of one category in the window, in order. *)
Definition wanted (c : category) (lo hi : Q) (data : list (option item)) : list item :=
  filter (fun r => cat_eqb (it_cat r) c && inside lo hi r)%bool (somes data).
Lemma inside_iff : forall lo hi r, inside lo hi r = true <-> in_window lo hi r.
Proof. intros. unfold inside, in_window. rewrite Bool.andb_true_iff, !Qle_bool_iff. tauto. Qed.

Definition list_of (c : category) (ls : lists) : list used :=
  match c with Body => l_body ls | Inertial => l_inertial ls | Orient => l_orient ls | Depth => l_depth ls | Altitude => l_alt ls
             | Usbl => l_usbl ls | Image => l_cam1 ls | Laser => l_cam3 ls | Origin | Other => [] end.
Definition fresh_dvl (r : item) : bool := match it_dvl r with Some d => Qltb (Qabs (it_t r - d)) 1 | None => false end.

Definition kept (c : category) (r : item) : list item :=
  if cat_eqb (it_cat r) c then match c with Origin | Other => [] | Body => if fresh_dvl r then [r] else [] | _ => [r] end else [].
Lemma take_list : forall two ls r c, map snd (list_of c (take two ls r)) = map snd (list_of c ls) ++ kept c r.
Proof.
  intros two [b i o d a u c1 c2 c3] r c. unfold take, kept, fresh_dvl.
  destruct (it_cat r) eqn:E; destruct c; cbn [list_of cat_eqb l_body l_inertial l_orient l_depth l_alt l_usbl l_cam1 l_cam2 l_cam3];
    repeat match goal with
           | |- context [match it_dvl r with _ => _ end] => destruct (it_dvl r)
           | |- context [if Qltb ?x ?y then _ else _] => destruct (Qltb x y)
           | |- context [match it_cam2 r with _ => _ end] => destruct (it_cam2 r)
           | |- context [if two then _ else _] => destruct two
           end;
    cbn [list_of l_body l_inertial l_orient l_depth l_alt l_usbl l_cam1 l_cam2 l_cam3];
    rewrite ?map_app, ?app_nil_r; reflexivity.
Qed.
Lemma scan_list_aux : forall two lo hi data ls c,
  map snd (list_of c (fold_left (fun ls r => match r with None => ls | Some r => if inside lo hi r then take two ls r else ls end) data ls)) =
  map snd (list_of c ls) ++ flat_map (fun r => if inside lo hi r then kept c r else []) (somes data).
Proof.
  induction data as [|[r|] data IH]; intros ls c; cbn [fold_left somes flat_map].
  - now rewrite app_nil_r.
  - rewrite IH. destruct (inside lo hi r); [|reflexivity]. rewrite take_list. now rewrite <- app_assoc.
  - apply IH.
Qed.
Lemma scan_list : forall two lo hi data c, map snd (list_of c (scan two lo hi data)) = flat_map (fun r => if inside lo hi r then kept c r else []) (somes data).
Proof. intros. unfold scan. rewrite scan_list_aux. now destruct c. Qed.

Definition plain (c : category) : Prop := match c with Origin | Other | Body => False | _ => True end.

(** Exactly the records of the window, in order. *)
Theorem C39_exactly_the_window : forall two lo hi data c, plain c ->
  map snd (list_of c (scan two lo hi data)) = wanted c lo hi data.
Proof.
  intros two lo hi data c P. rewrite scan_list. unfold wanted. induction (somes data) as [|r l IH]; [reflexivity|].
  cbn [flat_map filter]. rewrite IH. unfold kept. destruct (inside lo hi r); [|rewrite Bool.andb_false_r; reflexivity].
  rewrite Bool.andb_true_r. destruct (cat_eqb (it_cat r) c); [|reflexivity]. destruct c; destruct P; reflexivity.
Qed.
Print Assumptions C39_exactly_the_window.
(** Body velocities: those whose DVL clock is less than one second off. *)
Theorem C39_body_velocity : forall two lo hi data,
  map snd (l_body (scan two lo hi data)) = filter fresh_dvl (wanted Body lo hi data).
Proof.
  intros. change (l_body (scan two lo hi data)) with (list_of Body (scan two lo hi data)). rewrite scan_list. unfold wanted.
  induction (somes data) as [|r l IH]; [reflexivity|]. cbn [flat_map filter]. rewrite IH. unfold kept.
  destruct (inside lo hi r); [|rewrite Bool.andb_false_r; reflexivity]. rewrite Bool.andb_true_r.
  destruct (cat_eqb (it_cat r) Body); [|reflexivity]. cbn [filter]. destruct (fresh_dvl r); reflexivity.
Qed.
Print Assumptions C39_body_velocity.

(** ** Time stamps *)
Lemma take_stamps : forall two lo hi ls r, in_window lo hi r ->
  (forall c u, plain c -> c <> Image -> c <> Laser -> In u (list_of c (take two ls r)) -> In u (list_of c ls) \/ (fst u = Some (it_t (snd u)) /\ snd u = r)) /\
  (forall u, In u (l_body (take two ls r)) -> In u (l_body ls) \/ (fst u = it_dvl r /\ snd u = r /\ fresh_dvl r = true)).
Proof.
  intros two lo hi [b i o d a us c1 c2 c3] r W. unfold take, fresh_dvl. split.
  - intros c u P N1 N2 I.
    destruct (it_cat r); destruct c; try destruct P; try congruence;
      cbn [list_of l_body l_inertial l_orient l_depth l_alt l_usbl l_cam1 l_cam2 l_cam3] in *;
      repeat match goal with
             | H : context [match it_dvl r with _ => _ end] |- _ => destruct (it_dvl r)
             | H : context [if Qltb ?x ?y then _ else _] |- _ => destruct (Qltb x y)
             | H : context [match it_cam2 r with _ => _ end] |- _ => destruct (it_cam2 r)
             | H : context [if two then _ else _] |- _ => destruct two
             end;
      cbn [list_of l_body l_inertial l_orient l_depth l_alt l_usbl l_cam1 l_cam2 l_cam3] in *; try (now left);
      (apply in_app_iff in I as [I|[<-|[]]]; [now left|now right]).
  - intros u I. destruct (it_cat r);
      repeat match goal with
             | H : context [match it_cam2 r with _ => _ end] |- _ => destruct (it_cam2 r)
             | H : context [if two then _ else _] |- _ => destruct two
             end; cbn [l_body] in *; try (now left).
    destruct (it_dvl r) as [dv|]; [|now left]. destruct (Qltb (Qabs (it_t r - dv)) 1) eqn:F; [|now left]. cbn [l_body] in I.
    apply in_app_iff in I as [I|[<-|[]]]; [now left|right]. now rewrite <- F.
Qed.

Lemma scan_stamps : forall two lo hi data c u, plain c -> c <> Image -> c <> Laser -> In u (list_of c (scan two lo hi data)) ->
  fst u = Some (it_t (snd u)) /\ in_window lo hi (snd u).
Proof.
  intros two lo hi data c u P N1 N2. unfold scan.
  assert (forall ls, (forall u, In u (list_of c ls) -> fst u = Some (it_t (snd u)) /\ in_window lo hi (snd u)) ->
    forall u, In u (list_of c (fold_left (fun ls r => match r with None => ls | Some r => if inside lo hi r then take two ls r else ls end) data ls)) ->
    fst u = Some (it_t (snd u)) /\ in_window lo hi (snd u)) as H.
  { induction data as [|[r|] data IH]; intros ls H v I; cbn [fold_left] in I; [now apply H| |now apply (IH ls)].
    destruct (inside lo hi r) eqn:E; [|now apply (IH ls)]. apply inside_iff in E. apply (IH (take two ls r)); [|exact I].
    intros w J. destruct (proj1 (take_stamps two lo hi ls r E) c w P N1 N2 J) as [J'|[J1 J2]]; [now apply H|].
    split; [exact J1|]. now rewrite J2. }
  intros I. apply (H empty); [|exact I]. intros v J. destruct c; destruct J.
Qed.
Theorem C39_stamps_inside : forall two lo hi data c u, plain c -> c <> Image -> c <> Laser ->
  In u (list_of c (scan two lo hi data)) -> exists t, fst u = Some t /\ (lo <= t <= hi)%Q.
Proof. intros two lo hi data c u P N1 N2 I. destruct (scan_stamps two lo hi data c u P N1 N2 I) as [E W]. now exists (it_t (snd u)). Qed.
Print Assumptions C39_stamps_inside.

(** Body velocities carry the DVL stamp, which can be up to a second outside. *)
Theorem C39_body_stamp : forall two lo hi data u, In u (l_body (scan two lo hi data)) ->
  exists t, fst u = Some t /\ (lo - 1 < t < hi + 1)%Q.
Proof.
  intros two lo hi data. unfold scan.
  assert (forall ls, (forall u, In u (l_body ls) -> exists t, fst u = Some t /\ (lo - 1 < t < hi + 1)%Q) ->
    forall u, In u (l_body (fold_left (fun ls r => match r with None => ls | Some r => if inside lo hi r then take two ls r else ls end) data ls)) ->
    exists t, fst u = Some t /\ (lo - 1 < t < hi + 1)%Q) as H.
  { induction data as [|[r|] data IH]; intros ls H v I; cbn [fold_left] in I; [now apply H| |now apply (IH ls)].
    destruct (inside lo hi r) eqn:E; [|now apply (IH ls)]. apply inside_iff in E. apply (IH (take two ls r)); [|exact I].
    intros w J. destruct (proj2 (take_stamps two lo hi ls r E) w J) as [J'|(J1 & J2 & J3)]; [now apply H|].
    unfold fresh_dvl in J3. destruct (it_dvl r) as [d|]; [|discriminate]. exists d. split; [exact J1|].
    apply Qltb_lt in J3. apply Qabs_Qlt_condition in J3. destruct E as [E1 E2]. lra. }
  intros u I. apply (H empty); [|exact I]. intros v [].
Qed.
Print Assumptions C39_body_stamp.
Definition rec (t : Q) (c : category) : item := mkitem t c None None None None false 0.
Definition outside (lo hi : Q) (u : used) : Prop := match fst u with Some t => (t < lo \/ hi < t)%Q | None => False end.
Theorem C139_body_stamp_refuted : exists data lo hi u, In u (l_body (scan true lo hi data)) /\ outside lo hi u.
Proof.
  exists [Some (mkitem 10 Body (Some (19 # 2)) None None None false 0)], 10, 20. eexists. split; [now left|]. left. reflexivity.
Qed.
Print Assumptions C139_body_stamp_refuted.
(** The second camera's own stamp can be outside too. *)
Theorem C139_camera2_refuted : exists data lo hi u, In u (l_cam2 (scan true lo hi data)) /\ outside lo hi u.
Proof.
  exists [Some (mkitem 20 Image None (Some 20) (Some (201 # 10)) None false 0)], 10, 20. eexists. split; [now left|]. right. reflexivity.
Qed.
Print Assumptions C139_camera2_refuted.
(** A laser record of parse_biocam_images.py:249-264, which has a "camera3" and no
    "filename", gets no stamp at all. *)
Theorem C139_biocam_laser_refuted : exists r, it_cat r = Laser /\ it_cam3 r = Some (it_t r) /\
  (forall lo hi, (lo <= it_t r <= hi)%Q -> l_cam3 (scan true lo hi [Some r]) = [(None, r)]).
Proof.
  exists (mkitem 15 Laser None None None (Some 15) false 0). split; [reflexivity|]. split; [reflexivity|].
  intros lo hi H. unfold scan. cbn [fold_left]. apply inside_iff in H. rewrite H. reflexivity.
Qed.
Print Assumptions C139_biocam_laser_refuted.
(** Images and lasers with a stamp of their own that equals the record's are inside. *)
Definition own_stamp (r : item) : Prop := match it_cam1 r with Some t => t == it_t r | None => it_file r = true end.
Lemma take_cams : forall two ls r c u, c = Image \/ c = Laser -> In u (list_of c (take two ls r)) ->
  In u (list_of c ls) \/ (u = (cam_stamp (it_cam1 r) r, r) /\ it_cat r = c).
Proof.
  intros two [b i o d a us c1 c2 c3] r c u C I. unfold take in I.
  destruct (it_cat r) eqn:E; destruct C as [-> | ->];
    cbn [list_of l_body l_inertial l_orient l_depth l_alt l_usbl l_cam1 l_cam2 l_cam3] in *;
    repeat match goal with
           | H : context [match it_dvl r with _ => _ end] |- _ => destruct (it_dvl r)
           | H : context [if Qltb ?x ?y then _ else _] |- _ => destruct (Qltb x y)
           | H : context [match it_cam2 r with _ => _ end] |- _ => destruct (it_cam2 r)
           | H : context [if two then _ else _] |- _ => destruct two
           end;
    cbn [list_of l_body l_inertial l_orient l_depth l_alt l_usbl l_cam1 l_cam2 l_cam3] in *; try (now left);
    (apply in_app_iff in I as [I|[<-|[]]]; [now left|now right]).
Qed.
Theorem C39_image_stamps : forall two lo hi data c u, c = Image \/ c = Laser ->
  (forall r, In (Some r) data -> it_cat r = c -> own_stamp r) ->
  In u (list_of c (scan two lo hi data)) -> exists t, fst u = Some t /\ (lo <= t <= hi)%Q.
Proof.
  intros two lo hi data c u C. unfold scan.
  assert (forall ls, (forall u, In u (list_of c ls) -> exists t, fst u = Some t /\ (lo <= t <= hi)%Q) ->
    (forall r, In (Some r) data -> it_cat r = c -> own_stamp r) ->
    forall u, In u (list_of c (fold_left (fun ls r => match r with None => ls | Some r => if inside lo hi r then take two ls r else ls end) data ls)) ->
    exists t, fst u = Some t /\ (lo <= t <= hi)%Q) as H.
  { induction data as [|[r|] data IH]; intros ls H O v I; cbn [fold_left] in I; [now apply H| |].
    - assert (forall r, In (Some r) data -> it_cat r = c -> own_stamp r) as O' by (intros r' I'; apply O; now right).
      destruct (inside lo hi r) eqn:E; [|now apply (IH ls)]. apply inside_iff in E. apply (IH (take two ls r)); [|exact O'|exact I].
      intros w J. apply take_cams in J as [J|[-> K]]; [now apply H| |exact C]. specialize (O r (or_introl eq_refl) K).
      unfold own_stamp in O. unfold cam_stamp. cbn [fst]. destruct (it_cam1 r) as [t|].
      + exists t. split; [reflexivity|]. destruct E. split; lra.
      + rewrite O. exists (it_t r). now split.
    - apply (IH ls); [exact H|intros r' I'; apply O; now right|exact I]. }
  intros O I. apply (H empty); [|exact O|exact I]. intros v J. destruct C as [-> | ->]; destruct J.
Qed.
Print Assumptions C39_image_stamps.

(** ** The default window *)
Lemma nd_between : forall (l : list item) a z r, nondecreasing it_t l -> nth_error l 0 = Some a -> nth_error l (length l - 1) = Some z -> In r l ->
  (it_t a <= it_t r <= it_t z)%Q.
Proof.
  intros l a z r H A Z I. apply In_nth_error in I as [k K]. split.
  - destruct k as [|k]; [assert (r = a) as -> by congruence; apply Qle_refl|]. apply (H 0%nat (S k)); [lia|assumption|assumption].
  - assert (k < length l)%nat by (apply nth_error_Some; congruence).
    destruct (Nat.eq_dec k (length l - 1)) as [->|E]; [assert (r = z) as -> by congruence; apply Qle_refl|].
    apply (H k (length l - 1)%nat); [lia|assumption|assumption].
Qed.
(** Without dates, every record after the origin is in the window if the file is in time
    order. *)
Theorem C39_default_window : forall two o rs ls, rs <> [] -> nondecreasing it_t rs ->
  process_window two None None (Some o :: map Some rs) = Some ls ->
  forall r c, In r rs -> plain c -> it_cat r = c -> In r (map snd (list_of c ls)).
Proof.
  intros two o rs ls N ND H r c I P K. destruct (exists_last N) as (mid & z & ->).
  assert (exists a, py_nth (Some o :: map Some (mid ++ [z])) 1 = Some (Some a) /\ (forall x, In x (mid ++ [z]) -> (it_t a <= it_t x <= it_t z)%Q)) as (a & HA & HB).
  { assert (nth_error (mid ++ [z]) (length (mid ++ [z]) - 1) = Some z) as LZ.
    { rewrite app_length. cbn [length]. rewrite nth_error_app2 by lia. now replace (length mid + 1 - 1 - length mid)%nat with 0%nat by lia. }
    destruct (nth_error (mid ++ [z]) 0) as [a|] eqn:A; [|destruct mid; discriminate].
    exists a. split; [|intros x J; now apply (nd_between (mid ++ [z]))]. destruct mid as [|m mid]; cbn [app nth_error] in A; [assert (a = z) as -> by congruence|assert (a = m) as -> by congruence]; reflexivity. }
  assert (py_nth (Some o :: map Some (mid ++ [z])) (-1) = Some (Some z)) as HZ.
  { rewrite map_app. cbn [map]. rewrite app_comm_cons. unfold py_nth. cbn [Z.ltb Z.compare]. rewrite app_length. cbn [length].
    destruct (Z.ltb_spec (-1 + Z.of_nat (S (length (map Some mid)) + 1)) 0); [lia|].
    rewrite nth_error_app2 by (cbn [length]; lia). cbn [length].
    replace (Z.to_nat (-1 + Z.of_nat (S (length (map Some mid)) + 1)) - S (length (map Some mid)))%nat with 0%nat by lia. reflexivity. }
  unfold process_window in H. rewrite HA, HZ in H. cbn [bound] in H.
  assert (ls = scan two (it_t a) (it_t z) (Some o :: map Some (mid ++ [z]))) as -> by congruence.
  rewrite C39_exactly_the_window by exact P. unfold wanted. apply filter_In. split.
  - cbn [somes]. right. clear - I. induction (mid ++ [z]) as [|x l IH]; [destruct I|]. cbn [map somes]. destruct I as [->|I]; [now left|right; now apply IH].
  - apply Bool.andb_true_iff. split; [rewrite K; now destruct c|]. apply inside_iff. apply HB. exact I.
Qed.
Print Assumptions C39_default_window.
(** parse_interlacer sorts the stamps as texts (C14): "100.0" comes before "99.0". *)
Theorem C139_default_window_refuted : exists o rs ls r, process_window true None None (Some o :: map Some rs) = Some ls /\
  In r rs /\ it_cat r = Depth /\ ~ In r (map snd (list_of Depth ls)).
Proof.
  exists (rec 0 Origin), [rec 100 Depth; rec 98 Depth; rec 99 Depth]. eexists. exists (rec 98 Depth).
  split; [reflexivity|]. split; [right; now left|]. split; [reflexivity|]. vm_compute. tauto.
Qed.
Print Assumptions C139_default_window_refuted.

Example C39_example : exists ls, process_window true (Some 11) None
    [Some (rec 0 Origin); Some (rec 10 Depth); Some (rec 12 Depth); None; Some (mkitem 13 Image None (Some 13) (Some 13) None false 7); Some (rec 14 Orient)] = Some ls /\
  map fst (l_depth ls) = [Some 12] /\ map fst (l_cam1 ls) = [Some 13] /\ map fst (l_cam2 ls) = [Some 13] /\ map fst (l_orient ls) = [Some 14].
Proof. eexists. split; [reflexivity|]. repeat split. Qed.
