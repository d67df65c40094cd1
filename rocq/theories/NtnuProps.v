(** C84: the NTNU DVL parser. *)
From Verif Require Import PyBase TimeModel.
From Coq Require Import Reals Lra.
From Verif Require Import FramesModel NtnuModel.
Open Scope R_scope.

(** Every row of every file, in order, with the date of its file. *)
Definition all_rows (files : list nfile) : list (nfile * nrow) := flat_map (fun f => map (pair f) (f_rows f)) files.
(** Time of a row in the computer's zone. *)
Definition time_of (machine : Z) (p : nfile * nrow) : R :=
  let '(f, r) := p in IZR (utc_seconds (f_year f) (f_month f) (f_day f) 0 0 0) + IZR (3600 * n_hour r + 60 * n_min r + n_sec r) + IZR (n_us r) * / 1000000 - IZR machine.
(** The DVL's velocity turned about the vertical by the mounting angle, in degrees. *)
Definition turned (angle : R) (r : nrow) : R * R * R :=
  let a := angle * (PI / 180) in (n_u r * cos a - n_v r * sin a, n_u r * sin a + n_v r * cos a, n_z r).
Definition in_range (v : R * R * R) : Prop := let '(x, y, z) := v in Rabs x <= 32 /\ Rabs y <= 32 /\ Rabs z <= 32.
Definition velocity_of (machine : Z) (angle factor offset : R) (p : nfile * nrow) (m : nvelocity) : Prop :=
  nv_t m = time_of machine p /\ (nv_x m, nv_y m, nv_z m) = turned angle (snd p) /\
  nv_x_std m = Rabs (nv_x m) * factor + offset /\ nv_y_std m = Rabs (nv_y m) * factor + offset /\ nv_z_std m = Rabs (nv_z m) * factor + offset.

(** [out] is what the usable rows give, in the order of the rows. *)
Inductive reported {A V} (usable : A -> Prop) (gives : A -> V -> Prop) : list A -> list V -> Prop :=
| rep_nil : reported usable gives [] []
| rep_use a l m out : usable a -> gives a m -> reported usable gives l out -> reported usable gives (a :: l) (m :: out)
| rep_skip a l out : ~ usable a -> reported usable gives l out -> reported usable gives (a :: l) out.

Lemma stamp_time : forall machine f r, stamp machine f r = time_of machine (f, r).
Proof.
  intros machine f r. unfold stamp, time_of, utc_seconds. f_equal. unfold Rdiv. f_equal. rewrite <- plus_IZR. f_equal. lia.
Qed.
Lemma turn_row : forall angle r, body_to_inertial 0 0 angle (n_u r, n_v r, n_z r) = turned angle r.
Proof.
  intros angle r. unfold body_to_inertial, turned, deg_to_rad. rewrite Rmult_0_l, cos_0, sin_0. f_equal; [f_equal|]; ring.
Qed.
Lemma beyond_spec : forall v, beyond v = true <-> ~ Rabs v <= 32.
Proof.
  intros v. unfold beyond. destruct (Rlt_dec 32 v) as [A|A].
  - split; [|easy]. intros _. rewrite Rabs_right by lra. lra.
  - destruct (Rlt_dec v (-32)) as [B|B].
    + split; [|easy]. intros _. rewrite Rabs_left by lra. lra.
    + split; [discriminate|]. intros H. destruct H. apply Rabs_le. lra.
Qed.
Lemma from_row_spec : forall machine angle factor offset f r,
  (in_range (turned angle r) -> exists m, from_row machine angle factor offset f r = Some m /\ velocity_of machine angle factor offset (f, r) m) /\
  (~ in_range (turned angle r) -> from_row machine angle factor offset f r = None).
Proof.
  intros machine angle factor offset f r. unfold from_row, velocity_of. rewrite turn_row. destruct (turned angle r) as [[x y] z] eqn:T. cbn [snd]. rewrite T. split.
  - intros (A & B & C). destruct (beyond x) eqn:X; [now apply beyond_spec in X|]. destruct (beyond y) eqn:Y; [now apply beyond_spec in Y|].
    destruct (beyond z) eqn:Z; [now apply beyond_spec in Z|]. cbn [orb]. eexists. split; [reflexivity|]. cbn. rewrite stamp_time. auto.
  - intros N. destruct (beyond x || beyond y || beyond z)%bool eqn:E; [reflexivity|]. destruct N.
    apply Bool.orb_false_elim in E. destruct E as [E Z]. apply Bool.orb_false_elim in E. destruct E as [X Y].
    assert (forall v, beyond v = false -> Rabs v <= 32) as K.
    { intros v V. destruct (Rle_dec (Rabs v) 32) as [L|L]; [exact L|]. apply beyond_spec in L. congruence. }
    repeat split; now apply K.
Qed.
Lemma in_range_dec : forall v, in_range v \/ ~ in_range v.
Proof.
  intros [[x y] z]. cbn. destruct (Rle_dec (Rabs x) 32), (Rle_dec (Rabs y) 32), (Rle_dec (Rabs z) 32); tauto.
Qed.
Lemma reported_app : forall {A V} u (g : A -> V -> Prop) l1 o1 l2 o2, reported u g l1 o1 -> reported u g l2 o2 -> reported u g (l1 ++ l2) (o1 ++ o2).
Proof. intros A V u g l1 o1 l2 o2 H1 H2. induction H1; [exact H2| |]; cbn [app]; now constructor. Qed.

Theorem C84_velocity : forall machine angle factor offset files,
  reported (fun p => in_range (turned angle (snd p))) (velocity_of machine angle factor offset) (all_rows files)
           (parse_velocity machine angle factor offset files).
Proof.
  intros machine angle factor offset. induction files as [|f files IH]; [constructor|]. cbn [all_rows parse_velocity flat_map].
  apply reported_app; [|exact IH]. clear. induction (f_rows f) as [|r rows IH]; [constructor|]. cbn [map rows_velocity].
  destruct (from_row_spec machine angle factor offset f r) as [Y N]. destruct (in_range_dec (turned angle r)) as [D|D].
  - destruct (Y D) as (m & -> & V). now constructor.
  - rewrite (N D). now constructor.
Qed.
Print Assumptions C84_velocity.
(** The turn keeps the speed over ground and the vertical speed. *)
Theorem C84_speed : forall machine angle factor offset files m, In m (parse_velocity machine angle factor offset files) ->
  exists p, In p (all_rows files) /\ nv_x m * nv_x m + nv_y m * nv_y m = n_u (snd p) * n_u (snd p) + n_v (snd p) * n_v (snd p) /\ nv_z m = n_z (snd p).
Proof.
  intros machine angle factor offset files m M. pose proof (C84_velocity machine angle factor offset files) as R.
  assert (exists p, In p (all_rows files) /\ velocity_of machine angle factor offset p m) as (p & P & V).
  { induction R; [destruct M| |].
    - destruct M as [<-|M]; [exists a; split; [now left|assumption]|]. destruct (IHR M) as (p & P & V). exists p. split; [now right|exact V].
    - destruct (IHR M) as (p & P & V). exists p. split; [now right|exact V]. }
  exists p. split; [exact P|]. destruct V as (_ & E & _). unfold turned in E. injection E as -> -> ->. split; [|reflexivity].
  set (a := angle * (PI / 180)). pose proof (sin2_cos2 a) as K. unfold Rsqr in K.
  transitivity ((n_u (snd p) * n_u (snd p) + n_v (snd p) * n_v (snd p)) * (sin a * sin a + cos a * cos a)); [ring|rewrite K; ring].
Qed.
Print Assumptions C84_speed.
(** One altitude for every row: the mean of the left and the aft beam. *)
Theorem C84_altitude : forall machine factor files,
  Forall2 (fun p m => na_t m = time_of machine p /\ 2 * na_alt m = n_alt1 (snd p) + n_alt3 (snd p) /\ na_std m = na_alt m * factor)
          (all_rows files) (parse_altitude machine factor files).
Proof.
  intros machine factor. induction files as [|f files IH]; [constructor|]. cbn [all_rows parse_altitude flat_map]. apply Forall2_app; [|exact IH].
  clear. induction (f_rows f) as [|r rows IH]; [constructor|]. cbn [map]. constructor; [|exact IH]. cbn. rewrite stamp_time. split; [reflexivity|]. split; [field|reflexivity].
Qed.
Print Assumptions C84_altitude.

(** ** C85: rows without bottom lock, files across midnight *)
(** The DVL sends -32 when it has no bottom lock (parse_ntnu_dvl.py:119); these rows are reported as a
    velocity of -32 m/s. *)
Definition no_lock : nrow := mknrow 10 0 0 0 (-32) (-32) (-32) 0 0.
Theorem C85_no_lock_refuted : exists f r m, In r (f_rows f) /\ n_u r = -32 /\ n_v r = -32 /\ n_z r = -32 /\
  parse_velocity 0 0 0 1 [f] = [m] /\ nv_x m = -32.
Proof.
  exists (mknfile 2022 5 1 [no_lock]), no_lock. pose proof (C84_velocity 0 0 0 1 [mknfile 2022 5 1 [no_lock]]) as R.
  assert (turned 0 no_lock = (-32, -32, -32)) as T.
  { unfold turned. cbn. rewrite Rmult_0_l, cos_0, sin_0. repeat f_equal; ring. }
  cbn [all_rows flat_map map app] in R. set (out := parse_velocity 0 0 0 1 [mknfile 2022 5 1 [no_lock]]) in *. clearbody out.
  inversion R as [|a l m o U V R'|a l o U R']; subst; cbn [snd] in *.
  - inversion R'; subst. exists m. split; [now left|]. repeat (split; [reflexivity|]). destruct V as (_ & E & _). cbn [snd] in E. rewrite T in E. now injection E as -> _ _.
  - destruct U. rewrite T. unfold in_range. rewrite Rabs_left by lra. lra.
Qed.
Print Assumptions C85_no_lock_refuted.
(** A larger value in any direction is left out, so the check is only off by the value itself. *)
Theorem C85_lock_partial : forall machine angle factor offset files m, In m (parse_velocity machine angle factor offset files) ->
  -32 <= nv_x m <= 32 /\ -32 <= nv_y m <= 32 /\ -32 <= nv_z m <= 32.
Proof.
  intros machine angle factor offset files m M. pose proof (C84_velocity machine angle factor offset files) as R.
  assert (exists p, in_range (turned angle (snd p)) /\ velocity_of machine angle factor offset p m) as (p & P & V).
  { induction R; [destruct M| |].
    - destruct M as [<-|M]; [now exists a|now apply IHR].
    - now apply IHR. }
  destruct V as (_ & E & _). rewrite <- E in P. destruct P as (A & B & C).
  assert (forall v, Rabs v <= 32 -> -32 <= v <= 32) as K.
  { intros v H. pose proof (Rle_abs v). pose proof (Rle_abs (- v)) as W. rewrite Rabs_Ropp in W. lra. }
  repeat split; now apply K.
Qed.
Print Assumptions C85_lock_partial.
(** The rows of a file after midnight get the date before: their times are almost a day back. *)
Theorem C85_midnight_refuted : exists f a b m n, f_rows f = [a; b] /\
  (n_hour a, n_min a, n_sec a) = (23, 59, 59)%Z /\ (n_hour b, n_min b, n_sec b) = (0, 0, 0)%Z /\
  parse_altitude 0 1 [f] = [m; n] /\ na_t n < na_t m.
Proof.
  exists (mknfile 2022 5 1 [mknrow 23 59 59 0 0 0 0 2 4; mknrow 0 0 0 0 0 0 0 2 4]). do 4 eexists. split; [reflexivity|]. split; [reflexivity|]. split; [reflexivity|].
  split; [reflexivity|]. cbn [na_t altitude_row]. unfold stamp. cbn [f_year f_month f_day n_hour n_min n_sec n_us].
  pose proof (IZR_lt (utc_seconds 2022 5 1 0 0 0) (utc_seconds 2022 5 1 23 59 59) eq_refl). lra.
Qed.
Print Assumptions C85_midnight_refuted.
Theorem C85_zone_refuted : exists files, map na_t (parse_altitude 0 1 files) <> map na_t (parse_altitude 3600 1 files).
Proof.
  exists [mknfile 2022 5 1 [mknrow 23 59 59 0 0 0 0 2 4]]. cbn [parse_altitude map f_rows app altitude_row na_t]. unfold stamp. intros E. injection E as E. lra.
Qed.
Print Assumptions C85_zone_refuted.

Example C84_ex : in_range (turned 90 (mknrow 1 0 0 0 1 2 3 0 0)) /\ turned 90 (mknrow 1 0 0 0 1 2 3 0 0) = (-2, 1, 3).
Proof.
  assert (turned 90 (mknrow 1 0 0 0 1 2 3 0 0) = (-2, 1, 3)) as ->.
  { unfold turned. cbn [n_u n_v n_z]. replace (90 * (PI / 180)) with (PI / 2) by field. rewrite cos_PI2, sin_PI2. repeat f_equal; ring. }
  split; [|reflexivity]. unfold in_range. rewrite (Rabs_left (-2)) by lra. rewrite !Rabs_right by lra. lra.
Qed.
Example C84_ex_altitude : exists m, parse_altitude 0 (1/10) [mknfile 1970 1 1 [mknrow 0 0 1 500000 0 0 0 2 4]] = [m] /\ na_t m = 15 / 10 /\ na_alt m = 3.
Proof. eexists. split; [reflexivity|]. split; [change (IZR 1 + IZR 500000 / 1000000 - IZR 0 = 15 / 10)|change ((2 + 4) / 2 = 3)]; lra. Qed.
