(** C233, C234: the whole path from the sensors to the poses of the images. *)
From Verif Require Import TrackModel FramesProofs PlaceProps TrackSpec TrackProofs.
From Coq Require Import Psatz.
Open Scope R_scope.

(** ** Straight motion *)
(** The pose [x] of an image [nm] differs from where its camera was, apart from the fixed shift [c] of the whole track, by the sag between
    the orientations at times [t1] and [t2]. *)
Definition placed {L N} (m2ll : R -> R -> L) (M : motion) (m : mounting) (c : vec) (t t1 t2 : R) (x : N * (sample * L)) : Prop :=
  let s := fst (snd x) in
  at_t s = t /\ att s = heading M /\ snd (snd x) = m2ll (east s) (north s) /\
  (north s, east s, depth s) = vadd (vadd c (place (position M t) (heading M) (m_sensor m))) (vscale ((t - t1) * (t2 - t) / 2) (acceleration M)) /\
  altitude s = seafloor M - vz (place (position M t) (heading M) (m_sensor m)).

Lemma attitude_same t a b w : att a = w -> att b = w -> attitude_between t a b = w.
Proof.
  intros Ha Hb. unfold attitude_between. rewrite Ha, Hb. destruct w as [r p y]. cbn [roll pitch yaw]. rewrite !interp_const. f_equal. unfold interpolate_yaw.
  replace (y - y) with 0 by ring. rewrite Rabs_R0. destruct (rlt 180 0) eqn:E; [apply rlt_true in E; lra|]. apply interp_const.
Qed.
Lemma dr_centre_fields o d ds s : at_t (dr_centre o d ds s) = at_t s /\ att (dr_centre o d ds s) = att s.
Proof. unfold dr_centre. destruct (turn (att s) (minus o d)) as [[? ?] ?]; destruct (turn (att s) (minus o ds)) as [[? ?] ?]. split; reflexivity. Qed.

Lemma straight_pose {L N} (m2ll : R -> R -> L) M m (c : vec) (nm : N) t sa sb : vz (acceleration M) = 0 -> vz c = 0 -> att sa = heading M -> att sb = heading M -> at_t sa <> at_t sb ->
  (forall s, s = sa \/ s = sb -> dvl_and_depth (vadd c (position M (at_t s))) (seafloor M) (m_dvl m) (m_depth m) s) ->
  let a := dr_centre (m_origin m) (m_dvl m) (m_depth m) sa in let b := dr_centre (m_origin m) (m_dvl m) (m_depth m) sb in
  placed m2ll M m c t (at_t a) (at_t b) (nm, sensor_at m2ll (m_origin m) (m_sensor m) t (attitude_between t a b) a b).
Proof.
  intros Az Cz Ha Hb Nt H. cbv zeta. destruct (dr_centre_fields (m_origin m) (m_dvl m) (m_depth m) sa) as [A1 A2]. destruct (dr_centre_fields (m_origin m) (m_dvl m) (m_depth m) sb) as [B1 B2].
  rewrite (attitude_same t _ _ (heading M)) by congruence. rewrite A1, B1. set (k := (t - at_t sa) / (at_t sb - at_t sa)).
  assert (t = (1 - k) * at_t sa + k * at_t sb) as Tk by (unfold k; field; lra).
  pose proof (C88_camera_between L m2ll (m_origin m) (m_dvl m) (m_depth m) (m_sensor m) _ _ (seafloor M) k sa sb Nt ltac:(congruence) (H sa (or_introl eq_refl)) (H sb (or_intror eq_refl))) as X.
  cbv zeta in X. rewrite <- Tk, Hb in X. destruct X as [[X1 X2] X3].
  assert (at_t (fst (sensor_at m2ll (m_origin m) (m_sensor m) t (heading M) (dr_centre (m_origin m) (m_dvl m) (m_depth m) sa) (dr_centre (m_origin m) (m_dvl m) (m_depth m) sb))) = t /\
    att (fst (sensor_at m2ll (m_origin m) (m_sensor m) t (heading M) (dr_centre (m_origin m) (m_dvl m) (m_depth m) sa) (dr_centre (m_origin m) (m_dvl m) (m_depth m) sb))) = heading M) as [F1 F2].
  { unfold sensor_at. destruct (turn (heading M) (minus (m_origin m) (m_sensor m))) as [[? ?] ?]. split; reflexivity. }
  unfold placed. cbn [fst snd]. rewrite F2 in X1, X2. split; [exact F1|]. split; [exact F2|]. split; [exact X3|]. rewrite X1, X2, !turn_place.
  assert (vadd (vscale (1 - k) (vadd c (position M (at_t sa)))) (vscale k (vadd c (position M (at_t sb)))) =
    vadd (vadd c (position M t)) (vscale ((t - at_t sa) * (at_t sb - t) / 2) (acceleration M))) as ->.
  { unfold position, k. destruct (place0 M) as [[p1 p2] p3], (speed0 M) as [[s1 s2] s3], (acceleration M) as [[a1 a2] a3], c as [[c1 c2] c3].
    apply vec_eq; unfold vadd, vscale, vx, vy, vz; cbn [fst snd]; field; lra. }
  destruct (turn (heading M) (m_sensor m)) as [[o1 o2] o3], (position M t) as [[q1 q2] q3], (acceleration M) as [[a1 a2] a3], c as [[c1 c2] c3].
  unfold vadd, vscale, vx, vy, vz in *. cbn [fst snd] in *. subst a3 c3. split; [f_equal; [f_equal|]; ring|ring].
Qed.

(** The logs of a vehicle that does not turn and whose speed changes evenly: the poses are computed, and each is that of its camera, apart
    from one shift of the whole track and the sag. *)
Section Straight.
  Context {L N : Type} (m2ll : R -> R -> L) (M : motion) (m : mounting) (usbl : list sample -> R * R).
  Context (os : list orientation) (vs : list velocity) (alts depths : list reading) (v0 vl : velocity) (sensors : list (R * N)).

  Lemma straight_core first second third sp s0 sn : readable os vs alts depths v0 vl -> vz (acceleration M) = 0 -> truthful M m os vs alts depths ->
    spanned os v0 vl = first :: second :: third :: sp -> in_order fst sensors -> nth_error sensors 0 = Some s0 -> nth_error sensors (length sensors - 1) = Some sn ->
    exists u centre, let c := start_shift M m u (o_t first) in
      (forall tr, dead_reckoned m os vs alts depths = Some tr -> u = usbl (centre_track m (0, 0) tr)) /\
      poses m2ll m usbl os vs alts depths sensors = interpolate_sensor_list m2ll m sensors centre /\
      ascending at_t centre /\ (2 <= length centre)%nat /\
      (map at_t centre = map o_t (spanned os v0 vl) \/ map at_t centre = map o_t (tl (spanned os v0 vl))) /\
      forall t a b (nm : N), In a centre -> In b centre -> at_t a <> at_t b ->
        placed m2ll M m c t (at_t a) (at_t b) (nm, sensor_at m2ll (m_origin m) (m_sensor m) t (attitude_between t a b) a b).
  Proof.
    intros Rd Az T Sp O Hs Hn. destruct (centre_straight M m os vs alts depths v0 vl first (second :: third :: sp) Rd Az T Sp) as (tr & E & H).
    exists (usbl (centre_track m (0, 0) tr)), (centre_track m (usbl (centre_track m (0, 0) tr)) tr). cbv zeta.
    set (u := usbl (centre_track m (0, 0) tr)). destruct (H u) as [Tm Hx]. cbv zeta in *. clear H.
    split; [intros tr' E'; unfold u; congruence|]. split; [unfold poses; now rewrite E|].
    assert (ascending o_t (spanned os v0 vl)) as As by (apply asc_filter, (r_os _ _ _ _ _ _ Rd)).
    rewrite Sp in As |- *. split.
    { destruct Tm as [Tm|Tm]; symmetry in Tm; [exact (asc_map _ _ _ _ Tm As)|exact (asc_map _ _ _ _ Tm (asc_tl _ _ _ As))]. }
    split.
    { assert (length (map at_t (centre_track m u tr)) = length (centre_track m u tr)) as <- by apply map_length. destruct Tm as [->| ->]; cbn; lia. }
    split; [exact Tm|]. intros t a b nm Ia Ib Nt. destruct (Hx a Ia) as (sa & -> & A1 & A2 & A3). destruct (Hx b Ib) as (sb & -> & B1 & B2 & B3).
    apply straight_pose; [exact Az|reflexivity|exact A2|exact B2|now rewrite A1, B1|]. intros s [->| ->]; assumption.
  Qed.
End Straight.

Lemma times_in l l' x : map at_t l = map o_t l' -> In x l -> exists o, In o l' /\ o_t o = at_t x.
Proof. intros E I. apply (in_map at_t) in I. rewrite E in I. apply in_map_iff in I. destruct I as (o & H & I). eauto. Qed.

Theorem C233_straight : forall L N (m2ll : R -> R -> L) M m usbl os vs alts depths v0 vl (sensors : list (R * N)) first second third sp,
  readable os vs alts depths v0 vl -> vz (acceleration M) = 0 -> truthful M m os vs alts depths ->
  spanned os v0 vl = first :: second :: third :: sp -> in_order fst sensors -> sensors <> [] ->
  exists c, vz c = 0 /\
    ((forall tr, usbl tr = (0, 0)) -> c = minus (0, 0, vz (place (position M (o_t first)) (heading M) (m_dvl m))) (place (position M (o_t first)) (heading M) (m_dvl m))) /\
    match poses m2ll m usbl os vs alts depths sensors with
    | Raised => False
    | NoOverlap => (forall s, In s sensors -> fst s < o_t second) \/ (forall s, In s sensors -> o_t third < fst s)
    | Interpolated out => forall x, In x out -> exists t o1 o2, In (t, fst x) sensors /\ In o1 os /\ In o2 os /\ o_t o1 <> o_t o2 /\ placed m2ll M m c t (o_t o1) (o_t o2) x
    end.
Proof.
  intros L N m2ll M m usbl os vs alts depths v0 vl sensors first second third sp Rd Az T Sp O Ne.
  destruct (nth_some sensors 0) as [s0 Hs]; [destruct sensors; [congruence|cbn; lia]|].
  destruct (nth_some sensors (length sensors - 1)) as [sn Hn]; [destruct sensors; [congruence|cbn; lia]|].
  destruct (straight_core m2ll M m usbl os vs alts depths v0 vl sensors first second third sp s0 sn Rd Az T Sp O Hs Hn) as (u & centre & U & E & As & L2 & Tm & P). cbv zeta in *.
  exists (start_shift M m u (o_t first)). split; [reflexivity|]. split.
  { intros Z. destruct (centre_straight M m os vs alts depths v0 vl first (second :: third :: sp) Rd Az T Sp) as (tr & E' & _).
    rewrite (U tr E'), Z. unfold start_shift, minus. apply vec_eq; unfold vx, vy, vz; cbn [fst snd]; ring. }
  rewrite E. destruct (nth_some centre 0 ltac:(lia)) as [c0 H0]. destruct (nth_some centre (length centre - 1) ltac:(lia)) as [cn Hcn].
  assert (ascending o_t (spanned os v0 vl)) as Asp by (apply asc_filter, (r_os _ _ _ _ _ _ Rd)).
  (* the first of the track is not after the second orientation, the last not before the third *)
  assert (at_t c0 <= o_t second /\ o_t third <= at_t cn) as [Z1 Z2].
  { assert (nth_error (map at_t centre) 0 = Some (at_t c0)) as X by (now apply map_nth_error). assert (nth_error (map at_t centre) (length centre - 1) = Some (at_t cn)) as Y by (now apply map_nth_error).
    assert (length centre = length (map at_t centre)) as Lm by (now rewrite map_length). rewrite Lm in Y. rewrite Sp in *. destruct Tm as [Tm|Tm]; rewrite Tm in X, Y; cbn [tl] in *.
    - cbn in X. injection X as <-. split; [left; apply (Asp 0%nat 1%nat); [lia|reflexivity|reflexivity]|].
      rewrite map_length, nth_error_map in Y. cbn [length] in Y. replace (S (S (S (length sp))) - 1)%nat with (S (S (length sp))) in Y by lia.
      destruct (nth_error (first :: second :: third :: sp) (S (S (length sp)))) as [o|] eqn:Eo; [|discriminate]. injection Y as <-.
      apply (ord_hd o_t third (third :: sp)); [|cbn [nth_error] in Eo; exact (nth_error_In _ _ Eo)]. intros [|i] [|j] a b I Ha Hb; try lia; cbn in Ha, Hb.
      + injection Ha as <-. destruct j as [|j]; [injection Hb as <-; lra|]. left. apply (Asp 2%nat (S (S (S j)))); [lia|reflexivity|exact Hb].
      + left. apply (Asp (S (S i)) (S (S j))); [lia|exact Ha|exact Hb].
    - cbn in X. injection X as <-. split; [lra|].
      rewrite map_length, nth_error_map in Y. cbn [length] in Y. replace (S (S (length sp)) - 1)%nat with (S (length sp)) in Y by lia.
      destruct (nth_error (second :: third :: sp) (S (length sp))) as [o|] eqn:Eo; [|discriminate]. injection Y as <-.
      apply (ord_hd o_t third (third :: sp)); [|cbn [nth_error] in Eo; exact (nth_error_In _ _ Eo)]. intros [|i] [|j] a b I Ha Hb; try lia; cbn in Ha, Hb.
      + injection Ha as <-. destruct j as [|j]; [injection Hb as <-; lra|]. left. apply (Asp 2%nat (S (S (S j)))); [lia|reflexivity|exact Hb].
      + left. apply (Asp (S (S i)) (S (S j))); [lia|exact Ha|exact Hb]. }
  destruct (Rlt_dec (at_t cn) (fst s0)) as [X|X]; [|destruct (Rlt_dec (fst sn) (at_t c0)) as [Y|Y]].
  - replace (interpolate_sensor_list m2ll m sensors centre) with (@NoOverlap L N).
    + right. intros s I. assert (fst s0 <= fst s); [|lra]. apply In_nth_error in I. destruct I as [q I]. destruct q as [|q]; [replace s with s0 by congruence; lra|].
      apply (O 0%nat (S q)); [lia|exact Hs|exact I].
    + unfold interpolate_sensor_list, prev. rewrite H0, Hcn, Hs, Hn. apply rlt_true in X. now rewrite X.
  - replace (interpolate_sensor_list m2ll m sensors centre) with (@NoOverlap L N).
    + left. intros s I. assert (fst s <= fst sn); [|lra]. apply In_nth_error in I. destruct I as [q I]. pose proof (nth_lt _ _ _ I).
      destruct (Nat.eq_dec q (length sensors - 1)) as [->|Q]; [replace s with sn by congruence; lra|]. apply (O q (length sensors - 1)%nat); [lia|exact I|exact Hn].
    + unfold interpolate_sensor_list, prev. rewrite H0, Hcn, Hs, Hn. apply rlt_true in Y. now rewrite Y, Bool.orb_true_r.
  - destruct (isl_spec m2ll m sensors centre c0 cn s0 sn As L2 O H0 Hcn Hs Hn ltac:(lra) ltac:(lra)) as (out & kept & dropped & -> & K & F & _).
    intros x I. destruct (in_Forall2_r _ _ _ _ F I) as (s & Is & a & b & (Ia & Ib & Nt & ->) & _).
    assert (forall y, In y centre -> exists o, In o os /\ o_t o = at_t y) as Os.
    { intros y Iy. assert (exists o, In o (spanned os v0 vl) /\ o_t o = at_t y) as (o & Io & Ho).
      { destruct Tm as [Tm|Tm]; destruct (times_in _ _ y Tm Iy) as (o & Io & Ho); exists o; (split; [|exact Ho]); [exact Io|]. rewrite Sp in *. now right. }
      exists o. apply spanned_In in Io. tauto. }
    destruct (Os a Ia) as (o1 & I1 & T1). destruct (Os b Ib) as (o2 & I2 & T2). exists (fst s), o1, o2. cbn [fst].
    assert (In s sensors) as J. { assert (In s (kept ++ dropped)) as J by (apply in_app_iff; now left). rewrite <- K in J. apply filter_In in J. tauto. }
    split; [now rewrite <- surjective_pairing|]. split; [exact I1|]. split; [exact I2|]. rewrite T1, T2. split; [exact Nt|]. now apply P.
Qed.
Print Assumptions C233_straight.

Lemma coords (a b c : R) v : (a, b, c) = v -> a = vx v /\ b = vy v /\ c = vz v.
Proof. intros <-. repeat split. Qed.
(** Constant velocity: the images are where their cameras were, relative to each other. *)
Theorem C233_uniform : forall L N (m2ll : R -> R -> L) M m usbl os vs alts depths v0 vl (sensors : list (R * N)) first second third sp out,
  readable os vs alts depths v0 vl -> acceleration M = (0, 0, 0) -> truthful M m os vs alts depths ->
  spanned os v0 vl = first :: second :: third :: sp -> in_order fst sensors -> sensors <> [] ->
  poses m2ll m usbl os vs alts depths sensors = Interpolated out ->
  forall x y, In x out -> In y out -> let camera t := place (position M t) (heading M) (m_sensor m) in
    let p := fst (snd x) in let q := fst (snd y) in
    In (at_t p, fst x) sensors /\ att p = heading M /\ depth p = vz (camera (at_t p)) /\ altitude p = seafloor M - vz (camera (at_t p)) /\
    minus (north p, east p, depth p) (north q, east q, depth q) = minus (camera (at_t p)) (camera (at_t q)).
Proof.
  intros L N m2ll M m usbl os vs alts depths v0 vl sensors first second third sp out Rd Az T Sp O Ne E x y Ix Iy. cbv zeta.
  destruct (C233_straight L N m2ll M m usbl os vs alts depths v0 vl sensors first second third sp Rd ltac:(now rewrite Az) T Sp O Ne) as (c & Cz & _ & H). rewrite E in H.
  destruct (H x Ix) as (t & o1 & o2 & I & _ & _ & _ & P1 & P2 & P3 & P4 & P5). destruct (H y Iy) as (t' & o1' & o2' & I' & _ & _ & _ & Q1 & Q2 & Q3 & Q4 & Q5).
  rewrite Az in P4, Q4. rewrite P1, Q1. split; [exact I|]. split; [exact P2|].
  set (p := place (position M t) (heading M) (m_sensor m)) in *. set (q := place (position M t') (heading M) (m_sensor m)) in *.
  apply coords in P4, Q4. destruct P4 as (P6 & P7 & P8), Q4 as (Q6 & Q7 & Q8). clearbody p q. clear P3 Q3. rewrite P5, P6, P7, P8, Q6, Q7, Q8. unfold minus, vadd, vscale, vx, vy, vz in *. cbn [fst snd] in *. rewrite Cz.
  split; [ring|]. split; [reflexivity|]. f_equal; [f_equal|]; ring.
Qed.
Print Assumptions C233_uniform.

(** Constant acceleration: every image between the second and the last but one of the orientations that the velocities span is there, and
    off by at most an eighth of the acceleration times the square of the longest gap between orientations. *)
Lemma adjacent_times l l' a b : map at_t l = map o_t l' -> adjacent l a b -> exists o o', adjacent l' o o' /\ o_t o = at_t a /\ o_t o' = at_t b.
Proof.
  intros E (i & Ha & Hb). apply (map_nth_error at_t) in Ha, Hb. rewrite E in Ha, Hb. rewrite nth_error_map in Ha, Hb.
  destruct (nth_error l' i) as [o|] eqn:Eo; [|discriminate]. destruct (nth_error l' (S i)) as [o'|] eqn:Eo'; [|discriminate].
  injection Ha as Ha. injection Hb as Hb. exists o, o'. split; [exists i; split; assumption|]. split; assumption.
Qed.
Theorem C233_sag : forall L N (m2ll : R -> R -> L) M m usbl os vs alts depths v0 vl (sensors : list (R * N)) first second third sp pre pen last_ s0 sn gap,
  readable os vs alts depths v0 vl -> vz (acceleration M) = 0 -> truthful M m os vs alts depths ->
  spanned os v0 vl = first :: second :: third :: sp -> spanned os v0 vl = pre ++ [pen; last_] ->
  (forall o o', adjacent (spanned os v0 vl) o o' -> o_t o' - o_t o <= gap) ->
  in_order fst sensors -> nth_error sensors 0 = Some s0 -> nth_error sensors (length sensors - 1) = Some sn -> fst s0 <= o_t last_ -> o_t pen <= fst sn ->
  exists c out, vz c = 0 /\ poses m2ll m usbl os vs alts depths sensors = Interpolated out /\
    forall t nm, In (t, nm) sensors -> o_t second <= t <= o_t pen -> exists s ll e, In (nm, (s, ll)) out /\ at_t s = t /\ att s = heading M /\
      (north s, east s, depth s) = vadd (vadd c (place (position M t) (heading M) (m_sensor m))) e /\ vz e = 0 /\
      Rabs (vx e) <= Rabs (vx (acceleration M)) * gap ^ 2 / 8 /\ Rabs (vy e) <= Rabs (vy (acceleration M)) * gap ^ 2 / 8.
Proof.
  intros L N m2ll M m usbl os vs alts depths v0 vl sensors first second third sp pre pen last_ s0 sn gap Rd Az T Sp Sp' Gap O Hs Hn T0 Tn.
  destruct (straight_core m2ll M m usbl os vs alts depths v0 vl sensors first second third sp s0 sn Rd Az T Sp O Hs Hn) as (u & centre & U & E & As & L2 & Tm & P). cbv zeta in *.
  destruct (nth_some centre 0 ltac:(lia)) as [c0 H0]. destruct (nth_some centre (length centre - 1) ltac:(lia)) as [cn Hcn]. destruct (nth_some centre (length centre - 2) ltac:(lia)) as [cp Hcp].
  assert (ascending o_t (spanned os v0 vl)) as Asp by (apply asc_filter, (r_os _ _ _ _ _ _ Rd)).
  assert (nth_error (map at_t centre) 0 = Some (at_t c0)) as X0 by (now apply map_nth_error).
  assert (nth_error (map at_t centre) (length (map at_t centre) - 1) = Some (at_t cn)) as X1 by (rewrite map_length; now apply map_nth_error).
  assert (nth_error (map at_t centre) (length (map at_t centre) - 2) = Some (at_t cp)) as X2 by (rewrite map_length; now apply map_nth_error).
  assert (forall {A} (f : orientation -> A) p2 q2 r, nth_error (map f (r ++ [p2; q2])) (length (map f (r ++ [p2; q2])) - 1) = Some (f q2) /\ nth_error (map f (r ++ [p2; q2])) (length (map f (r ++ [p2; q2])) - 2) = Some (f p2)) as Ends.
  { intros A f p2 q2 r. rewrite map_length, app_length, map_app. cbn [length map]. rewrite !nth_error_app2 by (rewrite map_length; lia). rewrite map_length.
    replace (length r + 2 - 1 - length r)%nat with 1%nat by lia. replace (length r + 2 - 2 - length r)%nat with 0%nat by lia. split; reflexivity. }
  assert (at_t c0 <= o_t second /\ at_t cn = o_t last_ /\ at_t cp = o_t pen) as (Z0 & Z1 & Z2).
  { destruct Tm as [Tm|Tm]; rewrite Tm in X0, X1, X2.
    - rewrite Sp' in X1, X2. destruct (Ends _ o_t pen last_ pre) as [Y1 Y2]. rewrite Y1 in X1. rewrite Y2 in X2. injection X1 as <-. injection X2 as <-.
      rewrite Sp in X0. injection X0 as <-. split; [|split; reflexivity]. rewrite Sp in Asp. left. apply (Asp 0%nat 1%nat); [lia|reflexivity|reflexivity].
    - destruct pre as [|o pre]; [rewrite Sp' in Sp; discriminate|]. rewrite Sp' in X1, X2. cbn [tl app] in X1, X2. destruct (Ends _ o_t pen last_ pre) as [Y1 Y2]. rewrite Y1 in X1. rewrite Y2 in X2. injection X1 as <-. injection X2 as <-.
      rewrite Sp in X0. injection X0 as <-. split; [lra|split; reflexivity]. }
  assert (at_t c0 <= at_t cp) as Z3.
  { destruct (Nat.eq_dec (length centre - 2) 0) as [Q|Q]; [rewrite Q in Hcp; replace cp with c0 by congruence; lra|]. left. apply (As 0%nat (length centre - 2)%nat); [lia|exact H0|exact Hcp]. }
  destruct (isl_spec m2ll m sensors centre c0 cn s0 sn As L2 O H0 Hcn Hs Hn ltac:(lra) ltac:(lra)) as (out & kept & dropped & Eo & K & F & D).
  exists (start_shift M m u (o_t first)), out. split; [reflexivity|]. split; [now rewrite E|]. intros t nm I [T1 T2].
  assert (In (t, nm) (kept ++ dropped)) as J.
  { rewrite <- K. apply filter_In. split; [exact I|]. apply Bool.negb_true_iff, rlt_false. cbn [fst]. lra. }
  apply in_app_iff in J. destruct J as [J|J]; [|pose proof (D (t, nm) (length centre - 2)%nat cp J ltac:(lia) Hcp) as X; cbn [fst] in X; lra].
  destruct (in_Forall2_l _ _ _ _ F J) as (x & Ix & a & b & (Ia & Ib & Nt & ->) & Ar). cbn [fst snd] in *.
  assert (around centre t a b) as Ar' by (apply Ar; exists cp; split; [exact (nth_error_In _ _ Hcp)|lra]). clear Ar.
  pose proof (P t a b nm Ia Ib Nt) as (P1 & P2 & P3 & P4 & P5). cbn [fst snd] in *.
  destruct (sensor_at m2ll (m_origin m) (m_sensor m) t (attitude_between t a b) a b) as [s ll] eqn:Es. cbn [fst snd] in *.
  exists s, ll, (vscale ((t - at_t a) * (at_t b - t) / 2) (acceleration M)). split; [exact Ix|]. split; [exact P1|]. split; [exact P2|]. split; [exact P4|].
  split; [unfold vscale, vz at 1; cbn [snd]; rewrite Az; ring|].
  assert (0 <= (t - at_t a) * (at_t b - t) / 2 <= gap ^ 2 / 8) as [K1 K2].
  { destruct Ar' as [->|[Ad [A1 A2]]].
    - replace (at_t b - at_t b) with 0 by ring. split; [lra|]. pose proof (pow2_ge_0 gap). lra.
    - assert (at_t b - at_t a <= gap) as G.
      { destruct Tm as [Tm|Tm]; destruct (adjacent_times _ _ a b Tm Ad) as (o & o' & (i & Oi & Oi') & <- & <-); apply Gap; [exists i; split; assumption|].
        exists (S i). rewrite Sp in *. split; assumption. }
      assert (0 <= at_t b - at_t a) by lra. assert ((at_t b - at_t a) * (at_t b - at_t a) <= gap * gap) by nra.
      assert (4 * ((t - at_t a) * (at_t b - t)) <= (at_t b - at_t a) * (at_t b - at_t a)) by (pose proof (Rle_0_sqr ((t - at_t a) - (at_t b - t))) as Q; unfold Rsqr in Q; lra). split; [pose proof (Rmult_le_pos (t - at_t a) (at_t b - t)); lra|]. cbn [pow]. lra. }
  unfold vscale, vx, vy. cbn [fst snd]. rewrite !Rabs_mult, !(Rabs_pos_eq _ K1). split.
  - pose proof (Rabs_pos (fst (fst (acceleration M)))). nra.
  - pose proof (Rabs_pos (snd (fst (acceleration M)))). nra.
Qed.
Print Assumptions C233_sag.
