(** C01-C04: interpolation of navigation data
    (src/auv_nav/tools/interpolate.py). *)
From Verif Require Import PyBase InterpModel InterpSpec InterpProofs.
Open Scope Q_scope.

(** ** C01 *)

Theorem C01_exact_at_lower : forall xl xu yl yu, interpolate xl xl xu yl yu == yl.
Proof. exact interpolate_lower. Qed.
Print Assumptions C01_exact_at_lower.

Theorem C01_exact_at_upper : forall xl xu yl yu,
  ~ xu == xl -> interpolate xu xl xu yl yu == yu.
Proof. exact interpolate_upper. Qed.
Print Assumptions C01_exact_at_upper.

Theorem C01_equal_times_return_lower : forall xq xl xu yl yu,
  xu == xl -> interpolate xq xl xu yl yu = yl.
Proof. exact interpolate_same. Qed.
Print Assumptions C01_equal_times_return_lower.

Theorem C01_stays_in_bracket : forall xq xl xu yl yu,
  between xl xu xq -> between yl yu (interpolate xq xl xu yl yu).
Proof. exact interpolate_between. Qed.
Print Assumptions C01_stays_in_bracket.

Theorem C01_monotone : forall q1 q2 xl xu yl yu,
  xl < xu -> yl <= yu -> q1 <= q2 ->
  interpolate q1 xl xu yl yu <= interpolate q2 xl xu yl yu.
Proof. exact interpolate_monotone. Qed.
Print Assumptions C01_monotone.

Theorem C01_antitone : forall q1 q2 xl xu yl yu,
  xl < xu -> yu <= yl -> q1 <= q2 ->
  interpolate q2 xl xu yl yu <= interpolate q1 xl xu yl yu.
Proof. exact interpolate_antitone. Qed.
Print Assumptions C01_antitone.

Theorem C01_reproduces_affine_signals : forall xq xl xu a b,
  ~ xu == xl -> interpolate xq xl xu (a * xl + b) (a * xu + b) == a * xq + b.
Proof. exact interpolate_affine. Qed.
Print Assumptions C01_reproduces_affine_signals.

(** The altitude interpolated in a list of samples, at any time from the first to the last
    sample, is on the line between two neighbours around that time. *)
Theorem C01_altitude : forall data t first last,
  (2 <= length data)%nat -> increasing fst data -> is_first data first -> is_last data last -> fst first <= t <= fst last ->
  exists a b v, adjacent data a b /\ fst a <= t <= fst b /\ interpolate_altitude t data = Some v /\
    on_line (fst a) (snd a) (fst b) (snd b) t v.
Proof. exact interpolate_altitude_bracket. Qed.
Print Assumptions C01_altitude.

(** So is every field of a USBL fix between two fixes. *)
Theorem C01_usbl : forall t a b, ~ u_t b == u_t a ->
  u_t (interpolate_usbl t a b) = t /\
  forall g, In g [u_north; u_east; u_north_std; u_east_std; u_depth] ->
    on_line (u_t a) (g a) (u_t b) (g b) t (g (interpolate_usbl t a b)).
Proof.
  intros t a b E. split; [reflexivity|]. intros g G. cbn in G.
  repeat (destruct G as [<-|G]; [now apply interpolate_on_line|]). destruct G.
Qed.
Print Assumptions C01_usbl.

Example C01_altitude_example : option_map Qred (interpolate_altitude 13 [(0, 1); (10, 2); (20, 12)]) = Some 5.
Proof. reflexivity. Qed.

Example C01_example : interpolate 15 10 20 100 200 == 150 /\ between 10 20 15 /\ ~ 20 == 10.
Proof. split; [reflexivity|]. split; [left; split; discriminate|discriminate]. Qed.

(** ** C02 *)

(** Synchronisation of DVL/orientation samples (process.py uses it). *)
Theorem C02_dvl_heading_short_arc : forall t a b,
  d_t a < d_t b -> d_t a <= t <= d_t b ->
  0 <= d_yaw a <= 360 -> 0 <= d_yaw b <= 360 ->
  0 <= d_yaw (interpolate_dvl t a b) <= 360 /\
  on_short_arc (d_t a) (d_yaw a) (d_t b) (d_yaw b) t (d_yaw (interpolate_dvl t a b)).
Proof. intros t a b. exact (yaw_in_range_short_arc t (d_t a) (d_t b) (d_yaw a) (d_yaw b)). Qed.
Print Assumptions C02_dvl_heading_short_arc.

(** The pose a sensor gets between two track samples. *)
Theorem C02_sensor_heading_short_arc : forall b2i m2ll oo so lat lon t a b p,
  s_t a < s_t b -> s_t a <= t <= s_t b ->
  0 <= s_yaw a <= 360 -> 0 <= s_yaw b <= 360 ->
  pose_between b2i m2ll oo so lat lon t a b = Some p ->
  0 <= s_yaw p <= 360 /\ on_short_arc (s_t a) (s_yaw a) (s_t b) (s_yaw b) t (s_yaw p).
Proof.
  intros b2i m2ll oo so lat lon t a b p Hab Ht Ha Hb E.
  destruct (pose_between_segment b2i m2ll oo so lat lon t a b p) as (_ & _ & ->);
    [intro K; rewrite K in Hab; exact (Qlt_irrefl _ Hab)|exact E|].
  exact (yaw_in_range_short_arc t (s_t a) (s_t b) (s_yaw a) (s_yaw b) Hab Ht Ha Hb).
Qed.
Print Assumptions C02_sensor_heading_short_arc.

Definition flat_sample (t yaw : Q) : sample :=
  mkSample t 0 0 yaw 0 0 0 0 0 0 0 0 0 [] None.

Example C02_example :
  let a := mkDvl 0 0 0 0 0 0 350 in let b := mkDvl 10 0 0 0 0 0 10 in
  d_yaw (interpolate_dvl 5 a b) == 0 /\ d_yaw (interpolate_dvl 2 a b) == 354 /\
  d_yaw (interpolate_dvl 8 a b) == 6.
Proof. vm_compute. repeat split. Qed.

(** [interpolate_camera] has no wrap-around handling (lines 200-202): between
    headings 350 and 10, half way in time, it reports 180 (pointing backwards). *)
Theorem C102_camera_heading_refuted : exists t cams a b c,
  increasing s_t cams /\ adjacent cams a b /\ s_t a <= t <= s_t b /\
  s_yaw a == 350 /\ s_yaw b == 10 /\
  interpolate_camera t cams = Some c /\ s_yaw c == 180.
Proof.
  exists 15, [flat_sample 0 340; flat_sample 10 350; flat_sample 20 10].
  eexists (flat_sample 10 350), (flat_sample 20 10), _.
  split.
  { intros i j a b Hij Ha Hb.
    do 4 (destruct i as [|i]; [do 4 (destruct j as [|j]; [cbn in *; try lia; try discriminate;
      try (injection Ha as <-; injection Hb as <-; reflexivity)|]); cbn in *; try discriminate;
      destruct j; discriminate|]).
    destruct i; discriminate. }
  split; [exists 1%nat; split; reflexivity|]. split; [split; discriminate|].
  repeat split; reflexivity.
Qed.
Print Assumptions C102_camera_heading_refuted.

(** ** C03 *)

(** A retained sample that is not later than some track sample which itself is
    not later than the last sensor sample is interpolated inside its own
    bracket.  For the samples after the last such track sample see C103. *)
Theorem C03_bracketed :
  forall b2i m2ll oo so lat lon {Nm} (sensors : list (Q * Nm)) centre out last_sensor,
  increasing s_t centre -> nondecreasing fst sensors -> (2 <= length centre)%nat ->
  is_last sensors last_sensor ->
  interpolate_sensor_list b2i m2ll oo so lat lon sensors centre = Interpolated out ->
  forall nm p, In (nm, p) out ->
    (exists c, In c centre /\ s_t p <= s_t c /\ s_t c <= fst last_sensor) ->
    (exists a b, adjacent centre a b /\ s_t a <= s_t p <= s_t b /\
                 pose_on_segment b2i m2ll oo so lat lon a b p /\
                 (forall c, nth_error centre 0 = Some c -> s_t c < s_t p -> uncertainty_on_segment a b p)) /\
    In (s_t p, nm) sensors.
Proof. intros b2i m2ll oo so lat lon Nm. exact (isl_bracket b2i m2ll oo so lat lon). Qed.
Print Assumptions C03_bracketed.

(** The samples before the track start are removed; the retained ones
    are a prefix of the rest in the original order, with their own time and
    name; every removed one is later than the last but one track sample. *)
Theorem C03_retained_prefix :
  forall b2i m2ll oo so lat lon {Nm} (sensors : list (Q * Nm)) centre out first,
  nondecreasing fst sensors -> is_first centre first ->
  interpolate_sensor_list b2i m2ll oo so lat lon sensors centre = Interpolated out ->
  exists dropped,
    filter (fun s => Qle_bool (s_t first) (fst s)) sensors =
      map (fun np => (s_t (snd np), fst np)) out ++ dropped /\
    forall s k c, In s dropped -> (k < length centre - 1)%nat -> nth_error centre k = Some c ->
      s_t c < fst s.
Proof. intros b2i m2ll oo so lat lon Nm. exact (isl_retained b2i m2ll oo so lat lon). Qed.
Print Assumptions C03_retained_prefix.

(** Together: if the sensor record reaches the last but one track sample, the
    call succeeds and every sample from the first to the last but one track
    sample is kept and interpolated inside its own bracket. *)
Theorem C03_in_range :
  forall b2i m2ll oo so lat lon {Nm} (sensors : list (Q * Nm)) centre pre first last_but_one last_one first_sensor last_sensor,
  increasing s_t centre -> nondecreasing fst sensors ->
  (forall c, In c centre -> s_cov c = None) \/ (forall c, In c centre -> s_cov c <> None) ->
  is_first centre first -> centre = pre ++ [last_but_one; last_one] ->
  is_first sensors first_sensor -> is_last sensors last_sensor ->
  fst first_sensor <= s_t last_one -> s_t last_but_one <= fst last_sensor ->
  exists out, interpolate_sensor_list b2i m2ll oo so lat lon sensors centre = Interpolated out /\
    forall t nm, In (t, nm) sensors -> s_t first <= t <= s_t last_but_one ->
      exists p, In (nm, p) out /\ s_t p = t /\
        exists a b, adjacent centre a b /\ s_t a <= t <= s_t b /\
          pose_on_segment b2i m2ll oo so lat lon a b p /\
          (s_t first < t -> uncertainty_on_segment a b p).
Proof.
  intros b2i m2ll oo so lat lon Nm sensors centre pre c0 cp cl s0 sn Inc Nd C F E Fs Ls A B.
  assert (2 <= length centre)%nat as Hl by (rewrite E, app_length; cbn; lia).
  assert (is_last centre cl) as Lc by (exists (pre ++ [cp]); rewrite <- app_assoc; exact E).
  assert (nth_error centre (length centre - 2) = Some cp) as Np.
  { rewrite E, app_length. cbn [length]. rewrite nth_error_app2 by lia. now replace (length pre + 2 - 2 - length pre)%nat with 0%nat by lia. }
  assert (nth_error centre 0 = Some c0) as N0 by (destruct F as [r ->]; reflexivity).
  assert (s_t c0 <= s_t cp) as L0.
  { destruct (Nat.eq_dec (length centre - 2) 0) as [Z|Z]; [rewrite Z in Np; replace cp with c0 by congruence; lra|].
    apply Qlt_le_weak, (Inc 0%nat (length centre - 2)%nat); [lia|exact N0|exact Np]. }
  destruct (isl_total b2i m2ll oo so lat lon sensors centre c0 cl s0 sn Inc C Hl F Lc Fs Ls A) as [out Ho]; [lra|].
  exists out. split; [exact Ho|]. intros t nm I [T0 T1].
  destruct (isl_retained b2i m2ll oo so lat lon sensors centre out c0 Nd F Ho) as (d & D1 & D2).
  assert (In (t, nm) (filter (fun s => Qle_bool (s_t c0) (fst s)) sensors)) as J by (apply filter_In; split; [exact I|now apply Qle_bool_iff]).
  rewrite D1 in J. apply in_app_iff in J. destruct J as [J|J].
  2:{ pose proof (D2 (t, nm) (length centre - 2)%nat cp J ltac:(lia) Np) as K. cbn in K. lra. }
  apply in_map_iff in J. destruct J as ([nm' p] & J1 & J2). cbn in J1. injection J1 as <- <-. exists p. split; [exact J2|]. split; [reflexivity|].
  destruct (isl_bracket b2i m2ll oo so lat lon sensors centre out sn Inc Nd Hl Ls Ho nm' p J2) as [(a & b & K1 & K2 & K3 & K4) _].
  { exists cp. split; [apply (nth_error_In _ _ Np)|]. split; [exact T1|exact B]. }
  exists a, b. split; [exact K1|]. split; [exact K2|]. split; [exact K3|]. intros L. now apply (K4 c0).
Qed.
Print Assumptions C03_in_range.

Definition no_rotation : Q -> Q -> Q -> Q -> Q -> Q -> Q * Q * Q := fun _ _ _ x y z => (x, y, z).
Definition no_geo : Q -> Q -> Q -> Q -> Q * Q := fun _ _ e n => (n, e).
Definition moving (t : Q) : sample := mkSample t 0 0 90 1 0 0 5 (2 * t) 0 10 0 0 [] None.
(** A track moving north at 2 m/s, sampled every 10 s. *)
Definition track3 := [moving 0; moving 10; moving 20].

Lemma track3_increasing : increasing s_t track3.
Proof.
  intros i j a b Hij Ha Hb.
  do 3 (destruct i as [|i]; [do 3 (destruct j as [|j]; [cbn in *; try lia;
      try (injection Ha as <-; injection Hb as <-; reflexivity)|]); destruct j; discriminate|]).
  destruct i; discriminate.
Qed.

(** Standard deviations and covariance on the segment. *)
Definition unsure (t s c : Q) : sample := mkSample t 0 0 350 1 0 0 5 0 0 10 0 0 [Some s; None] (Some [c]).
Example C03_uncertainty_example : exists p,
  pose_between no_rotation no_geo (0,0,0) (0,0,0) 0 0 5 (unsure 0 2 10) (unsure 10 4 30) = Some p /\
  map (option_map Qred) (s_stds p) = [Some 3; None] /\ option_map (map Qred) (s_cov p) = Some [20] /\
  uncertainty_on_segment (unsure 0 2 10) (unsure 10 4 30) p.
Proof.
  eexists. split; [vm_compute; reflexivity|]. split; [reflexivity|]. split; [reflexivity|].
  apply (pose_between_uncertainty no_rotation no_geo (0,0,0) (0,0,0) 0 0 5); [reflexivity|split; discriminate|reflexivity].
Qed.

Example C03_example : exists out,
  interpolate_sensor_list no_rotation no_geo (0,0,0) (0,0,0) 0 0
    [(-5, 0%nat); (5, 1%nat); (15, 2%nat); (25, 3%nat)] track3 = Interpolated out /\
  map fst out = [1; 2]%nat /\ map (fun np => Qred (s_north (snd np))) out = [10; 30].
Proof. eexists. split; [vm_compute; reflexivity|]. split; reflexivity. Qed.

(** Two sensor samples inside the last track interval (15 s and 18 s, track end
    20 s): line 353 deletes the second one, although it is inside the mission. *)
Theorem C103_in_range_sample_dropped_refuted :
  exists (sensors : list (Q * nat)) out,
    increasing s_t track3 /\ increasing fst sensors /\
    interpolate_sensor_list no_rotation no_geo (0,0,0) (0,0,0) 0 0 sensors track3
      = Interpolated out /\
    In (18, 2%nat) sensors /\ s_t (moving 0) <= 18 <= s_t (moving 20) /\
    ~ In 2%nat (map fst out).
Proof.
  exists [(5, 0%nat); (15, 1%nat); (18, 2%nat); (25, 3%nat)]. eexists.
  split; [exact track3_increasing|]. split.
  { intros i j a b Hij Ha Hb.
    do 4 (destruct i as [|i]; [do 4 (destruct j as [|j]; [cbn in *; try lia;
      try (injection Ha as <-; injection Hb as <-; reflexivity)|]); destruct j; discriminate|]).
    destruct i; discriminate. }
  split; [vm_compute; reflexivity|]. split; [cbn; auto|]. split; [split; discriminate|].
  cbn. intros [H|[H|[]]]; discriminate.
Qed.
Print Assumptions C103_in_range_sample_dropped_refuted.

(** Sensors that stop before the end of the track (last sensor 18 s < 20 s): the
    test at lines 375-376 keeps [j] at 1, so the samples at 15 s and 18 s are
    extrapolated from the interval [0, 10].  Here the vehicle turns back at
    10 s; the reported position keeps going. *)
Theorem C103_extrapolated_refuted :
  exists (sensors : list (Q * nat)) centre out p,
    increasing s_t centre /\ increasing fst sensors /\
    interpolate_sensor_list no_rotation no_geo (0,0,0) (0,0,0) 0 0 sensors centre
      = Interpolated out /\
    map (fun c => (s_t c, s_north c)) centre = [(0, 0); (10, 100); (20, 0)] /\
    In (2%nat, p) out /\ s_t p == 18 /\ s_north p == 180.
Proof.
  exists [(5, 0%nat); (15, 1%nat); (18, 2%nat)].
  exists [mkSample 0 0 0 90 1 0 0 5 0 0 10 0 0 [] None; mkSample 10 0 0 90 1 0 0 5 100 0 10 0 0 [] None;
          mkSample 20 0 0 90 1 0 0 5 0 0 10 0 0 [] None].
  do 2 eexists.
  split.
  { intros i j a b Hij Ha Hb.
    do 3 (destruct i as [|i]; [do 3 (destruct j as [|j]; [cbn in *; try lia;
      try (injection Ha as <-; injection Hb as <-; reflexivity)|]); destruct j; discriminate|]).
    destruct i; discriminate. }
  split.
  { intros i j a b Hij Ha Hb.
    do 3 (destruct i as [|i]; [do 3 (destruct j as [|j]; [cbn in *; try lia;
      try (injection Ha as <-; injection Hb as <-; reflexivity)|]); destruct j; discriminate|]).
    destruct i; discriminate. }
  split; [vm_compute; reflexivity|]. split; [reflexivity|].
  split; [right; right; left; reflexivity|]. split; reflexivity.
Qed.
Print Assumptions C103_extrapolated_refuted.

(** All sensors inside the first track interval: [j] stays 0, so index j-1 is
    -1, the *end* of the track. At 5 s, between positions 0 (at 0 s) and 100 (at
    10 s), the sample is interpolated between the first and the last track
    sample and placed at position 0. *)
Theorem C103_mixes_track_ends_refuted :
  exists (sensors : list (Q * nat)) centre out p,
    increasing s_t centre /\
    map (fun c => (s_t c, s_north c)) centre = [(0, 0); (10, 100); (20, 0)] /\
    interpolate_sensor_list no_rotation no_geo (0,0,0) (0,0,0) 0 0 sensors centre
      = Interpolated out /\
    In (0%nat, p) out /\ s_t p == 5 /\ s_north p == 0.
Proof.
  exists [(5, 0%nat)].
  exists [mkSample 0 0 0 90 1 0 0 5 0 0 10 0 0 [] None; mkSample 10 0 0 90 1 0 0 5 100 0 10 0 0 [] None;
          mkSample 20 0 0 90 1 0 0 5 0 0 10 0 0 [] None].
  do 2 eexists.
  split.
  { intros i j a b Hij Ha Hb.
    do 3 (destruct i as [|i]; [do 3 (destruct j as [|j]; [cbn in *; try lia;
      try (injection Ha as <-; injection Hb as <-; reflexivity)|]); destruct j; discriminate|]).
    destruct i; discriminate. }
  split; [reflexivity|]. split; [vm_compute; reflexivity|].
  split; [left; reflexivity|]. split; reflexivity.
Qed.
Print Assumptions C103_mixes_track_ends_refuted.

(** ** C04 *)

(** Queries after the second sample.  Before it see C104. *)
Theorem C04_camera_bracket : forall t cams,
  increasing s_t cams ->
  (exists b, nth_error cams 1 = Some b /\ s_t b < t) ->
  (exists b, In b cams /\ t <= s_t b) ->
  exists c, interpolate_camera t cams = Some c /\
  exists a b, adjacent cams a b /\ s_t a <= t <= s_t b /\ s_t c = t /\
    (forall g, In g [s_roll; s_pitch; s_yaw; s_vx; s_vy; s_vz; s_alt; s_north; s_east;
                     s_depth; s_lat; s_lon] ->
       on_line (s_t a) (g a) (s_t b) (g b) t (g c)).
Proof.
  intros t cams Inc B L. assert (exists c, interpolate_camera t cams = Some c) as [c Hc].
  { unfold interpolate_camera. destruct (first_not_before_spec cams t 0) as (K & _); [destruct B as (b & B & _); now destruct cams|]. cbn zeta in K.
    destruct (nth_error cams (first_not_before cams t 0)) as [c2|] eqn:E; [eexists; reflexivity|]. apply nth_error_None in E. lia. }
  exists c. split; [exact Hc|]. now apply interpolate_camera_bracket.
Qed.
Print Assumptions C04_camera_bracket.

Example C04_example : exists c,
  interpolate_camera 15 track3 = Some c /\ s_north c == 30 /\ s_t (moving 10) < 15.
Proof. eexists. split; [vm_compute; reflexivity|]. split; reflexivity. Qed.

(** Between the first two samples the guard [i > 1] (should be [i > 0]) makes the
    camera jump to the second sample: at 1 s the reported position is the one
    of 10 s. *)
Theorem C104_first_bracket_refuted : exists t a b c,
  increasing s_t track3 /\ adjacent track3 a b /\ s_t a < t < s_t b /\
  interpolate_camera t track3 = Some c /\ s_north c == s_north b /\
  ~ on_line (s_t a) (s_north a) (s_t b) (s_north b) t (s_north c).
Proof.
  exists 1, (moving 0), (moving 10). eexists.
  split; [exact track3_increasing|]. split; [exists 0%nat; split; reflexivity|].
  split; [split; reflexivity|]. split; [vm_compute; reflexivity|].
  split; [reflexivity|]. unfold on_line. vm_compute. discriminate.
Qed.
Print Assumptions C104_first_bracket_refuted.
