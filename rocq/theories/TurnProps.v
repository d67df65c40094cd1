(** Examples for C233, and C234: what the path from the sensors to the poses does not guarantee. *)
From Verif Require Import TrackModel FramesProofs PlaceProps TrackSpec TrackProofs TrackProps DriftProps.
From Coq Require Import Psatz.
Open Scope R_scope.
Lemma nth_error_nil {A} i : @nth_error A [] i = None.
Proof. now destruct i. Qed.
Definition level : attitude := mkatt 0 0 0.
Ltac crunch := lazy -[Rplus Rmult Rinv Ropp Rdiv Rminus rlt IZR Req_EM_T sin cos PI sensor_at interpolate track_velocity attitude_between level].
Ltac run := crunch; repeat (match goal with |- context [rlt ?a ?b] => let E := fresh in
  first [assert (rlt a b = true) as E by (apply rlt_true; lra)|assert (rlt a b = false) as E by (apply rlt_false; lra)]; rewrite E; clear E end; crunch).
Ltac sorted := let i := fresh in let j := fresh in let a := fresh in let b := fresh in let L := fresh in let A := fresh in let B := fresh in
  intros i j a b L A B; destruct i as [|[|[|[|[|i]]]]]; destruct j as [|[|[|[|[|j]]]]]; try lia; cbn [nth_error] in A, B;
  try discriminate A; try discriminate B; try (rewrite nth_error_nil in A; discriminate A); try (rewrite nth_error_nil in B; discriminate B);
  injection A as <-; injection B as <-; cbn; lra.
Definition ex_mount : mounting := mkmount (0, 0, 0) (1, 0, 0) (0, 0, 0) (0, 1, 0).
Definition ex_motion : motion := mkmotion (0, 0, 5) (1, 0, 0) (2, 0, 0) level 20.
Definition ex_os : list orientation := [mko 0 level; mko 1 level; mko 2 level; mko 3 level].
Definition ex_vs : list velocity := [mkv 0 (1, 0, 0); mkv 3 (7, 0, 0)].
Lemma level_place p o : place p level o = vadd p o.
Proof. apply place_level. Qed.
(** A vehicle that goes north, faster and faster, and its images at 1, 1.5 and 2 seconds. *)
Example C233_ex : readable ex_os ex_vs [(0, 15); (3, 15)] [(0, 5); (3, 5)] (mkv 0 (1, 0, 0)) (mkv 3 (7, 0, 0)) /\ truthful ex_motion ex_mount ex_os ex_vs [(0, 15); (3, 15)] [(0, 5); (3, 5)] /\
  spanned ex_os (mkv 0 (1, 0, 0)) (mkv 3 (7, 0, 0)) = ex_os /\ in_order fst [(1, 1%nat); (3 / 2, 2%nat); (2, 3%nat)] /\
  (forall o o', adjacent ex_os o o' -> o_t o' - o_t o <= 1).
Proof.
  split; [|split; [|split; [|split]]].
  - constructor; [sorted|sorted|sorted|sorted|cbn; lia|cbn; lia|cbn; lia|cbn; lia|reflexivity|reflexivity].
  - unfold truthful. cbn [heading ex_motion seafloor ex_mount m_dvl m_depth].
    split; [|split; [|split]]; intros x I; cbn in I; repeat (destruct I as [<-|I]; [cbn [v_body v_t fst snd o_att]|]); try tauto; try reflexivity; rewrite level_place;
      unfold speed, position, ex_motion; cbn [place0 speed0 acceleration]; try (apply vec_eq); unfold vadd, vscale, vx, vy, vz; cbn [fst snd]; lra.
  - unfold spanned, ex_os. run. reflexivity.
  - sorted.
  - intros o o' (i & A & B). do 4 (destruct i as [|i]; cbn in A, B; [try discriminate; injection A as <-; injection B as <-; cbn; lra|]). cbn in A. destruct i; discriminate.
Qed.
(** The position of the second image is at most a quarter of a metre off, apart from the shift. *)
Example C233_sag_ex : exists c out s ll e, poses pair ex_mount (fun _ => (0, 0)) ex_os ex_vs [(0, 15); (3, 15)] [(0, 5); (3, 5)] [(1, 1%nat); (3 / 2, 2%nat); (2, 3%nat)] = Interpolated out /\
  In (2%nat, (s, ll)) out /\ at_t s = 3 / 2 /\ (north s, east s, depth s) = vadd (vadd c (15 / 4, 1, 5)) e /\ Rabs (vx e) <= 1 / 4 /\ vy e = 0 /\ vz e = 0.
Proof.
  destruct C233_ex as (Rd & T & Sp & O & G). rewrite <- Sp in G.
  destruct (C233_sag _ _ pair ex_motion ex_mount (fun _ => (0, 0)) _ _ _ _ _ _ [(1, 1%nat); (3 / 2, 2%nat); (2, 3%nat)] _ _ _ _ [mko 0 level; mko 1 level] (mko 2 level) (mko 3 level) _ _ 1 Rd ltac:(reflexivity) T Sp Sp G O eq_refl eq_refl
    ltac:(cbn; lra) ltac:(cbn; lra)) as (c & out & _ & E & H).
  destruct (H (3 / 2) 2%nat ltac:(cbn; tauto) ltac:(cbn; lra)) as (s & ll & e & I & H1 & _ & H2 & H3 & H4 & H5).
  exists c, out, s, ll, e. split; [exact E|]. split; [exact I|]. split; [exact H1|]. split; [|split; [|split]].
  - rewrite H2. f_equal. f_equal. change (heading ex_motion) with level. rewrite level_place. apply vec_eq; unfold position, ex_motion, ex_mount, vadd, vscale, vx, vy, vz; cbn [fst snd place0 speed0 acceleration m_sensor]; lra.
  - unfold ex_motion, vx in *. cbn [acceleration fst] in H4. rewrite (Rabs_pos_eq 2) in H4 by lra. lra.
  - unfold ex_motion in H5. cbn [acceleration vy fst snd] in H5. unfold vy in *. cbn [fst snd] in H5. rewrite Rabs_R0 in H5. assert (Rabs (snd (fst e)) = 0) by (pose proof (Rabs_pos (snd (fst e))); lra).
    destruct (Req_dec (snd (fst e)) 0) as [->|Ne]; [reflexivity|]. now apply Rabs_no_R0 in Ne.
  - exact H3.
Qed.

Lemma deg_90 : cos (90 * deg_to_rad) = 0 /\ sin (90 * deg_to_rad) = 1.
Proof. unfold deg_to_rad. replace (90 * (PI / 180)) with (PI / 2) by field. split; [apply cos_PI2|apply sin_PI2]. Qed.
Lemma deg_0 : cos (0 * deg_to_rad) = 1 /\ sin (0 * deg_to_rad) = 0.
Proof. rewrite Rmult_0_l. split; [apply cos_0|apply sin_0]. Qed.
Lemma deg_45 : cos (45 * deg_to_rad) <> 1 / 2.
Proof.
  unfold deg_to_rad. replace (45 * (PI / 180)) with (PI / 4) by field. intros E. pose proof (sin2_cos2 (PI / 4)) as S2. rewrite sin_cos_PI4, E in S2. unfold Rsqr in S2. lra.
Qed.
Lemma track_still w r : track_velocity (0, 0, 0) w (0, 0, 0) r = (0, 0, 0).
Proof.
  unfold track_velocity. destruct r as [[r1 r2] r3]. unfold turn, body_to_inertial, correct_lever_arm. apply vec_eq; unfold vx, vy, vz; cbn [fst snd]; ring.
Qed.
Definition quarter : attitude := mkatt 0 0 90.
Definition turn_os : list orientation := [mko 0 level; mko 1 quarter; mko 2 quarter; mko 3 quarter].
Lemma turn_still m : m_dvl m = (0, 0, 0) -> dead_reckoned m turn_os [mkv 0 (0, 0, 0); mkv 3 (0, 0, 0)] [(0, 15); (3, 15)] [(0, 5); (3, 5)] =
  Some ([mksample 0 level 0 0 5 15; mksample 1 quarter 0 0 5 15; mksample 2 quarter 0 0 5 15; mksample 3 quarter 0 0 5 15], false).
Proof.
  intros D. unfold dead_reckoned. rewrite D. lazy -[Rplus Rmult Rinv Ropp Rdiv Rminus rlt IZR Req_EM_T interpolate track_velocity level quarter roll pitch yaw].
  repeat (match goal with |- context [rlt ?a ?b] => let E := fresh in
    first [assert (rlt a b = true) as E by (apply rlt_true; cbn; lra)|assert (rlt a b = false) as E by (apply rlt_false; cbn; lra)]; rewrite E; clear E end;
    lazy -[Rplus Rmult Rinv Ropp Rdiv Rminus rlt IZR Req_EM_T interpolate track_velocity level quarter roll pitch yaw]).
  repeat (destruct (Req_EM_T _ _); [lra|]). lazy -[Rplus Rmult Rinv Ropp Rdiv Rminus rlt IZR Req_EM_T interpolate track_velocity level quarter roll pitch yaw].
  rewrite !interp_const, !track_still. assert (forall a, a * (0 + 0) / 2 + 0 = 0) as Z0 by (intros; field). rewrite !Z0. reflexivity.
Qed.
Definition ex_still : mounting := mkmount (0, 0, 0) (0, 0, 0) (0, 0, 0) (0, 0, 0).
(** A vehicle that stays where it is, and a DVL that reads a tenth of a metre per second. *)
Example C233_drift_ex : exists tr', dead_reckoned ex_still turn_os [mkv 0 (1 / 10, 0, 0); mkv 3 (1 / 10, 0, 0)] [(0, 15); (3, 15)] [(0, 5); (3, 5)] = Some (tr', false) /\ length tr' = 4%nat /\
  forall s, In s tr' -> sqrt ((0 - north s) * (0 - north s) + (0 - east s) * (0 - east s)) <= 1 / 10 * at_t s.
Proof.
  destruct (C233_drift (1 / 10) ex_still turn_os [mkv 0 (0, 0, 0); mkv 3 (0, 0, 0)] [mkv 0 (1 / 10, 0, 0); mkv 3 (1 / 10, 0, 0)] _ _ (mkv 0 (0, 0, 0)) _ _ ltac:(unfold turn_os; sorted) ltac:(sorted) ltac:(cbn; lia) eq_refl ltac:(lra)
    ltac:(repeat constructor; unfold norm2, dot, minus, vx, vy, vz; cbn; lra) (turn_still ex_still eq_refl)) as (tr' & f & E & Hf & F).
  cbn in Hf. injection Hf as <-. exists tr'. split; [exact E|]. split; [symmetry; exact (Forall2_length _ _ _ F)|]. intros s I.
  destruct (in_Forall2_r _ _ _ _ F I) as (s' & I' & T & _ & _ & _ & B). cbn in I'. rewrite <- T.
  destruct I' as [<-|[<-|[<-|[<-|[]]]]]; cbn [north east at_t] in *; rewrite Rminus_0_r in B; exact B.
Qed.
(** The log begins ten seconds later and the compass reads ninety degrees more: what was one metre north is one metre east. *)
Example C233_turned_ex : fst (turned_by 90 (1, 0)) = 0 /\ snd (turned_by 90 (1, 0)) = 1 /\ map (moved_o 10 90) (firstn 2 turn_os) = [mko (0 + 10) (mkatt 0 0 (0 + 90)); mko (1 + 10) (mkatt 0 0 (90 + 90))].
Proof.
  unfold turned_by, degrees_to_radians. replace (90 / 180 * PI) with (PI / 2) by field. rewrite ?cos_PI2, ?sin_PI2. cbn [fst snd].
  replace (90 * PI / 180) with (PI / 2) by field. rewrite ?cos_PI2, ?sin_PI2. split; [ring|]. split; [ring|reflexivity].
Qed.

(** ** C234 *)
(** Two orientations are not enough. *)
Theorem C234_two_refuted : exists M m os vs alts depths (sensors : list (R * nat)), acceleration M = (0, 0, 0) /\ truthful M m os vs alts depths /\ ascending o_t os /\ ascending v_t vs /\
  length os = 2%nat /\ (forall o, In o os -> 0 <= o_t o <= 3) /\ map v_t vs = [0; 3] /\ (forall s, In s sensors -> 0 <= fst s <= 1) /\
  poses pair m (fun _ => (0, 0)) os vs alts depths sensors = Raised.
Proof.
  exists (mkmotion (0, 0, 5) (1, 0, 0) (0, 0, 0) level 20), ex_mount, [mko 0 level; mko 1 level], [mkv 0 (1, 0, 0); mkv 3 (1, 0, 0)], [(0, 15); (3, 15)], [(0, 5); (3, 5)], [(1 / 2, 0%nat)].
  split; [reflexivity|]. split.
  { unfold truthful. cbn [heading seafloor ex_mount m_dvl m_depth].
    split; [|split; [|split]]; intros x I; cbn in I; repeat (destruct I as [<-|I]; [cbn [v_body v_t fst snd o_att]|]); try tauto; try reflexivity; rewrite level_place;
      unfold speed, position; cbn [place0 speed0 acceleration]; try (apply vec_eq); unfold vadd, vscale, vx, vy, vz; cbn [fst snd]; lra. }
  split; [sorted|]. split; [sorted|]. split; [reflexivity|]. split; [intros o [<-|[<-|[]]]; cbn; lra|]. split; [reflexivity|]. split; [intros s [<-|[]]; cbn; lra|].
  run. destruct (Req_EM_T (1 - 0) 0); reflexivity.
Qed.
Print Assumptions C234_two_refuted.

(** When exactly one orientation is before the first velocity, the first record of the track is deleted and the images before the second one
    are lost. *)
Theorem C234_first_refuted : exists M m os vs alts depths v0 vl (sensors : list (R * nat)) out, acceleration M = (0, 0, 0) /\ truthful M m os vs alts depths /\
  readable os vs alts depths v0 vl /\ In (1 / 2, 0%nat) sensors /\ in_order fst sensors /\ map o_t (spanned os v0 vl) = [0; 1; 2; 3] /\
  poses pair m (fun _ => (0, 0)) os vs alts depths sensors = Interpolated out /\ map fst out = [1%nat; 2%nat].
Proof.
  exists (mkmotion (0, 0, 5) (1, 0, 0) (0, 0, 0) level 20), ex_mount, [mko (-1) level; mko 0 level; mko 1 level; mko 2 level; mko 3 level], [mkv 0 (1, 0, 0); mkv 3 (1, 0, 0)],
    [(0, 15); (3, 15)], [(0, 5); (3, 5)], (mkv 0 (1, 0, 0)), (mkv 3 (1, 0, 0)), [(1 / 2, 0%nat); (3 / 2, 1%nat); (2, 2%nat)].
  eexists. split; [reflexivity|]. split.
  { unfold truthful. cbn [heading seafloor ex_mount m_dvl m_depth].
    split; [|split; [|split]]; intros x I; cbn in I; repeat (destruct I as [<-|I]; [cbn [v_body v_t fst snd o_att]|]); try tauto; try reflexivity; rewrite level_place;
      unfold speed, position; cbn [place0 speed0 acceleration]; try (apply vec_eq); unfold vadd, vscale, vx, vy, vz; cbn [fst snd]; lra. }
  split; [constructor; [sorted|sorted|sorted|sorted|cbn; lia|cbn; lia|cbn; lia|cbn; lia|reflexivity|reflexivity]|].
  split; [now left|]. split; [sorted|]. split; [run; reflexivity|].
  split. { run. repeat (destruct (Req_EM_T _ _); [lra|]). run. reflexivity. }
  reflexivity.
Qed.
Print Assumptions C234_first_refuted.

Lemma half_turn a b : at_t a = 0 -> at_t b = 1 -> att a = level -> att b = quarter -> attitude_between (1 / 2) a b = mkatt 0 0 45.
Proof.
  intros Ta Tb Ha Hb. unfold attitude_between, interpolate_yaw. rewrite Ta, Tb, Ha, Hb. unfold level, quarter. cbn [roll pitch yaw]. replace (90 - 0) with 90 by ring. rewrite (Rabs_pos_eq 90) by lra.
  assert (rlt 180 90 = false) as -> by (apply rlt_false; lra). unfold interpolate. destruct (Req_EM_T 1 0) as [F|_]; [lra|]. f_equal; field.
Qed.
(** The vehicle turns on the spot about its DVL, where its camera is too.  Whether the image is put there depends on the point that is
    called the origin. *)
Theorem C234_origin_refuted : exists m m' os vs alts depths (sensors : list (R * nat)) out out', (m_dvl m = m_dvl m' /\ m_depth m = m_depth m' /\ m_sensor m = m_sensor m') /\
  poses pair m (fun _ => (0, 0)) os vs alts depths sensors = Interpolated out /\ poses pair m' (fun _ => (0, 0)) os vs alts depths sensors = Interpolated out' /\
  exists p p', nth_error out 0 = Some (0%nat, p) /\ nth_error out' 0 = Some (0%nat, p') /\ north (fst p) = 0 /\ north (fst p') <> 0.
Proof.
  exists (mkmount (0, 0, 0) (0, 0, 0) (0, 0, 0) (0, 0, 0)), (mkmount (1, 0, 0) (0, 0, 0) (0, 0, 0) (0, 0, 0)), turn_os, [mkv 0 (0, 0, 0); mkv 3 (0, 0, 0)],
    [(0, 15); (3, 15)], [(0, 5); (3, 5)], [(1 / 2, 0%nat); (2, 1%nat)].
  eexists. eexists. split; [repeat split|]. split; [|split].
  - unfold poses. rewrite turn_still by reflexivity. run. reflexivity.
  - unfold poses. rewrite turn_still by reflexivity. run. reflexivity.
  - eexists. eexists. split; [reflexivity|]. split; [reflexivity|].
    rewrite !half_turn by reflexivity. unfold sensor_at, turn, minus, body_to_inertial, level, vx, vy, vz. cbn [fst snd roll pitch yaw north at_t].
    fold deg_to_rad. destruct deg_90 as [C90 S90], deg_0 as [C0 S0]. rewrite !C90, !S90, !C0, !S0. pose proof deg_45. unfold interpolate. destruct (Req_EM_T 1 0) as [F|_]; [lra|]. split; [field|]. intros E. apply H. field_simplify in E. lra.
Qed.
Print Assumptions C234_origin_refuted.

(** The vehicle turns on the spot at ninety degrees a second, its DVL one metre ahead of the axis.  The DVL stays on a circle two metres wide;
    its track does not. *)
Theorem C234_spot_refuted : exists m os vs alts depths tr flag a b, m_dvl m = (1, 0, 0) /\ (forall o, In o os -> o_att o = mkatt 0 0 (90 * o_t o)) /\
  (forall v, In v vs -> v_body v = (0, PI / 2, 0)) /\ dead_reckoned m os vs alts depths = Some (tr, flag) /\ In a tr /\ In b tr /\
  (north a - north b) * (north a - north b) + (east a - east b) * (east a - east b) > 2 * 2.
Proof.
  exists (mkmount (0, 0, 0) (1, 0, 0) (0, 0, 0) (0, 0, 0)), [mko 0 (mkatt 0 0 (90 * 0)); mko 1 (mkatt 0 0 (90 * 1)); mko 2 (mkatt 0 0 (90 * 2))], [mkv 0 (0, PI / 2, 0); mkv 2 (0, PI / 2, 0)],
    [(0, 15); (3, 15)], [(0, 5); (3, 5)].
  eexists. eexists. eexists. eexists. split; [reflexivity|]. split; [intros o [<-|[<-|[<-|[]]]]; reflexivity|]. split; [intros v [<-|[<-|[]]]; reflexivity|].
  split. { run. repeat (destruct (Req_EM_T _ _); [lra|]). run. reflexivity. }
  split; [left; reflexivity|]. split; [right; left; reflexivity|]. cbn [north east]. rewrite !interp_const.
  unfold track_velocity, turn, correct_lever_arm, body_to_inertial. cbn [roll pitch yaw].
  replace (90 * 1 * deg_to_rad) with (90 * deg_to_rad) by ring. replace (90 * 0 * deg_to_rad) with (0 * deg_to_rad) by ring.
  destruct deg_90 as [C90 S90], deg_0 as [C0 S0]. rewrite !C90, !S90, !C0, !S0.
  assert (3 < PI) as P by (pose proof PI2_3_2; lra).
  replace ((90 * 1 - 90 * 0) / (1 - 0) * deg_to_rad) with (PI / 2) by (unfold deg_to_rad; field).
  replace ((90 * 2 - 90 * 0) / (2 - 0) * deg_to_rad) with (PI / 2) by (unfold deg_to_rad; field).
  match goal with |- ?x * _ + ?y * _ > _ => replace x with (PI / 2) by field; replace y with (- PI / 2) by field end. nra.
Qed.
Print Assumptions C234_spot_refuted.
