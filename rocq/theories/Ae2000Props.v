(** C201, C202: the AE2000 parser. *)
From Coq Require Import Ascii String.
From Verif Require Import PyBase TimeModel TimeSpec TimeProofs TimeProps.
From Coq Require Import Reals Lra Sorted.
From Verif Require Import FramesModel FramesSpec FramesProps NtnuProps Ae2000Model.

(** ** The time column *)
(** A number written with [w] digits. *)
Definition numeral (w : nat) (n : Z) : Prop := (0 < w)%nat /\ (0 <= n < 10 ^ Z.of_nat w)%Z.
(** A date and a time of day are written with any numbers of digits, the milliseconds with three. *)
Inductive time_cell : option text -> option Q -> Prop :=
| cell_nan : time_cell None None
| cell_short wy y wm mo wd d wh h wi mi : numeral wy y -> numeral wm mo -> numeral wd d -> numeral wh h -> numeral wi mi ->
    time_cell (Some (pad wy y ++ "/"%char :: pad wm mo ++ "/"%char :: pad wd d ++ " "%char :: pad wh h ++ ":"%char :: pad wi mi)) None
| cell_full wy wm wd wh wi ws c n ms : seconds_after_1970 n c -> (c_y c <= 9999)%Z -> (0 <= ms < 1000)%Z ->
    numeral wy (c_y c) -> numeral wm (c_mo c) -> numeral wd (c_d c) -> numeral wh (c_h c) -> numeral wi (c_mi c) -> numeral ws (c_s c) ->
    time_cell (Some (pad wy (c_y c) ++ "/"%char :: pad wm (c_mo c) ++ "/"%char :: pad wd (c_d c) ++ " "%char :: pad wh (c_h c) ++ ":"%char :: pad wi (c_mi c) ++ ":"%char :: pad ws (c_s c) ++ "."%char :: pad 3 ms))
      (Some (inject_Z n + inject_Z ms / 1000)%Q).

Lemma digit_not : forall sep, (N_of_ascii sep < 48 \/ 57 < N_of_ascii sep)%N -> forall w n, ~ In sep (pad w n).
Proof.
  intros sep S. induction w as [|w IH]; intros n I; [destruct I|]. cbn [pad] in I. apply in_app_or in I. destruct I as [I|[I|[]]]; [exact (IH _ I)|].
  subst sep. unfold chr_digit in S. pose proof (Z.mod_pos_bound n 10 ltac:(lia)) as B. rewrite N_ascii_embedding in S by lia. lia.
Qed.
Lemma split_none : forall sep a, ~ In sep a -> split_at sep a = [a].
Proof.
  intros sep. induction a as [|c a IH]; intros N; [reflexivity|]. cbn [split_at]. destruct (Ascii.eqb_spec c sep) as [->|_]; [destruct N; now left|].
  rewrite IH by (intros I; apply N; now right). reflexivity.
Qed.
Lemma split_cons : forall sep a b, ~ In sep a -> split_at sep (a ++ sep :: b) = a :: split_at sep b.
Proof.
  intros sep. induction a as [|c a IH]; intros b N; cbn [app split_at]; [now rewrite Ascii.eqb_refl|].
  destruct (Ascii.eqb_spec c sep) as [->|_]; [destruct N; now left|]. rewrite IH by (intros I; apply N; now right). reflexivity.
Qed.
Lemma py_numeral : forall w n, numeral w n -> py_int (pad w n) = Some n.
Proof. intros [|w] n [W B]; [lia|]. now apply py_int_pad. Qed.
Lemma not_in_mid : forall (x c : ascii) a b, x <> c -> ~ In x a -> ~ In x b -> ~ In x (a ++ c :: b).
Proof. intros x c a b E A B I. apply in_app_or in I. destruct I as [I|[I|I]]; auto. Qed.
Ltac nodigit := apply digit_not; vm_compute; (left; reflexivity) || (right; reflexivity).
Ltac notin := repeat (apply not_in_mid; [discriminate|nodigit|]); nodigit.
(** Any such text is read as its time plus the offset, to the millisecond; a cell without seconds, or an empty one, makes the row be left out. *)
Theorem C201_time : forall offset cell t, time_cell cell t ->
  match t with None => read_time offset cell = Skips | Some t => exists u, read_time offset cell = At u /\ (u == t + offset)%Q end.
Proof.
  intros offset cell t H. destruct H as [|wy y wm mo wd d wh h wi mi Hy Hm Hd Hh Hi|wy wm wd wh wi ws c n ms N Y Hms Hy Hm Hd Hh Hi Hs]; [reflexivity| |].
  - cbn [read_time]. 
    replace (pad wy y ++ "/"%char :: pad wm mo ++ "/"%char :: pad wd d ++ " "%char :: pad wh h ++ ":"%char :: pad wi mi)
      with ((pad wy y ++ "/"%char :: pad wm mo ++ "/"%char :: pad wd d) ++ " "%char :: (pad wh h ++ ":"%char :: pad wi mi)) by (repeat (rewrite <- app_assoc; cbn [app]); reflexivity).
    rewrite split_cons by notin. rewrite (split_none " "%char) by notin. cbn [nth nth_error].
    rewrite !split_cons by notin. rewrite !split_none by notin. cbn [nth_error]. rewrite !py_numeral by assumption. reflexivity.
  - cbn [read_time]. 
    replace (pad wy (c_y c) ++ "/"%char :: pad wm (c_mo c) ++ "/"%char :: pad wd (c_d c) ++ " "%char :: pad wh (c_h c) ++ ":"%char :: pad wi (c_mi c) ++ ":"%char :: pad ws (c_s c) ++ "."%char :: pad 3 ms)
      with ((pad wy (c_y c) ++ "/"%char :: pad wm (c_mo c) ++ "/"%char :: pad wd (c_d c)) ++ " "%char :: (pad wh (c_h c) ++ ":"%char :: pad wi (c_mi c) ++ ":"%char :: (pad ws (c_s c) ++ "."%char :: pad 3 ms))) by (repeat (rewrite <- app_assoc; cbn [app]); reflexivity).
    rewrite split_cons by notin. rewrite (split_none " "%char) by notin. cbn [nth nth_error].
    rewrite !(split_cons "/"%char) by notin. rewrite (split_none "/"%char) by notin. cbn [nth_error]. rewrite !(split_cons ":"%char) by notin. rewrite (split_none ":"%char) by notin.
    rewrite (split_cons "."%char) by notin. rewrite (split_none "."%char) by notin. cbn [nth nth_error]. rewrite !py_numeral by assumption.
    rewrite py_int_pad by (cbn; lia). destruct (C09_counts_seconds n c N Y) as (e & -> & E). eexists. split; [reflexivity|]. rewrite E. reflexivity.
Qed.
Print Assumptions C201_time.

(** ** The rows *)
Open Scope R_scope.
Definition timed (rows : list arow) (ts : list (option Q)) : Prop := Forall2 (fun r t => time_cell (a_time r) t) rows ts.
Definition at_time (o : Q) (t : option Q) (u : Q) : Prop := exists q, t = Some q /\ (u == q + o)%Q.

Lemma loop_reported : forall {V} o (one : unit -> Q -> arow -> option (unit * option V)) (use : arow -> Prop) (gives : arow -> V -> Prop) (tv : V -> Q),
  (forall r t, exists v, one tt t r = Some (tt, v) /\ match v with Some v => use r /\ gives r v /\ tv v = t | None => ~ use r end) ->
  forall rows ts, timed rows ts -> exists out, loop o one tt rows = Some out /\
  reported (fun p => snd p <> None /\ use (fst p)) (fun p v => gives (fst p) v /\ at_time o (snd p) (tv v)) (combine rows ts) out.
Proof.
  intros V o one use gives tv H rows ts F. induction F as [|r t rows ts C F (out & E & R)]; [exists []; split; [reflexivity|constructor]|].
  cbn [loop combine]. pose proof (C201_time o _ _ C) as T. destruct t as [t|].
  - destruct T as (u & -> & U). destruct (H r u) as (v & -> & S). destruct v as [v|]; rewrite E.
    + destruct S as (S & G & <-). exists (v :: out). split; [reflexivity|]. constructor; cbn [fst snd]; [now split|split; [assumption|now exists t]|assumption].
    + exists out. split; [reflexivity|]. apply rep_skip; [|assumption]. now intros [_ A].
  - rewrite T. exists out. split; [assumption|]. apply rep_skip; [|assumption]. now intros [A _].
Qed.

(** Velocities: the rows with bottom lock and a time, in the order of the file; millimetres a second become metres
    a second, turned by the angles of the DVL on the vehicle. *)
Definition velocity_of (m : amission) (dvl : R * R * R) (r : arow) (v : avelocity) : Prop :=
  let '(roll, pitch, yaw) := dvl in
  (av_x v, av_y v, av_z v) = rot_z (yaw * PI / 180) (rot_y (pitch * PI / 180) (rot_x (roll * PI / 180) (a_surge r / 1000, a_sway r / 1000, a_heave r / 1000))) /\
  av_x_std v = Rabs (av_x v) * std_factor m + std_offset m /\ av_y_std v = Rabs (av_y v) * std_factor m + std_offset m /\ av_z_std v = Rabs (av_z v) * std_factor m + std_offset m.
Theorem C201_velocity : forall m dvl rows ts, timed rows ts -> exists out, parse_velocity m dvl rows = Some out /\
  reported (fun p => snd p <> None /\ a_valid (fst p) = Some 1%Z) (fun p v => velocity_of m dvl (fst p) v /\ at_time (off_velocity m) (snd p) (av_t v)) (combine rows ts) out.
Proof.
  intros m [[roll pitch] yaw] rows ts F. unfold parse_velocity. apply (loop_reported _ _ (fun r => a_valid r = Some 1%Z) (velocity_of m (roll, pitch, yaw)) av_t); [|exact F].
  intros r t. unfold one_velocity. destruct (a_valid r) as [[|[p|p|]|p]|]; try (eexists; split; [reflexivity|discriminate]).
  pose proof (C05_yaw_after_pitch_after_roll roll pitch yaw (a_surge r / 1000, a_sway r / 1000, a_heave r / 1000)) as E.
  destruct (body_to_inertial _ _ _ _) as [[x y] z]. eexists. split; [reflexivity|]. split; [reflexivity|]. split; [|reflexivity].
  split; [exact E|]. repeat split; reflexivity.
Qed.
Print Assumptions C201_velocity.

(** ... so the speed is kept. *)
Theorem C201_speed : forall m dvl r v, velocity_of m dvl r v ->
  av_x v * av_x v + av_y v * av_y v + av_z v * av_z v = (a_surge r * a_surge r + a_sway r * a_sway r + a_heave r * a_heave r) / 1000000.
Proof.
  intros m [[roll pitch] yaw] r v [E _]. pose proof (C05_preserves_length roll pitch yaw (a_surge r / 1000, a_sway r / 1000, a_heave r / 1000)) as N.
  rewrite C05_yaw_after_pitch_after_roll in N. unfold degrees_to_radians in N. rewrite <- E in N. unfold norm2, dot, vx, vy, vz in N. cbn [fst snd] in N. rewrite N. field.
Qed.
Print Assumptions C201_speed.

(** Altitudes *)
Theorem C201_altitude : forall m rows ts, timed rows ts -> exists out, parse_altitude m rows = Some out /\
  reported (fun p => snd p <> None /\ a_valid (fst p) = Some 1%Z)
    (fun p v => (aa_altitude v = a_range (fst p) /\ aa_std v = a_range (fst p) * std_factor m + std_offset m) /\ at_time (off_velocity m) (snd p) (aa_t v)) (combine rows ts) out.
Proof.
  intros m rows ts F. unfold parse_altitude. apply (loop_reported _ _ (fun r => a_valid r = Some 1%Z) (fun r v => aa_altitude v = a_range r /\ aa_std v = a_range r * std_factor m + std_offset m) aa_t); [|exact F].
  intros r t. unfold one_altitude. destruct (a_valid r) as [[|[p|p|]|p]|]; try (eexists; split; [reflexivity|discriminate]).
  eexists. split; [reflexivity|]. repeat split; reflexivity.
Qed.
Print Assumptions C201_altitude.

(** Orientations: every row with a time.  The heading differs from the compass heading plus the mounting angle by a
    whole turn, and lies in [0, 360] when the compass gives [0, 360] and the mounting angle is less than a turn. *)
Definition orientation_of (m : amission) (yaw : R) (r : arow) (v : aorientation) : Prop :=
  (exists k : Z, ao_heading v = a_yaw r + yaw + 360 * IZR k) /\
  (0 <= a_yaw r <= 360 -> -360 <= yaw <= 360 -> 0 <= ao_heading v <= 360) /\
  ao_roll v = a_roll r /\ ao_pitch v = a_pitch r /\
  ao_heading_std v = Rabs (a_yaw r) * std_factor m + std_offset m /\ ao_roll_std v = Rabs (a_roll r) * std_factor m + std_offset m /\ ao_pitch_std v = Rabs (a_pitch r) * std_factor m + std_offset m.
Theorem C201_orientation : forall m yaw rows ts, timed rows ts -> exists out, parse_orientation m (0, 0, yaw) rows = Some out /\
  reported (fun p => snd p <> None /\ True) (fun p v => orientation_of m yaw (fst p) v /\ at_time (off_velocity m) (snd p) (ao_t v)) (combine rows ts) out.
Proof.
  intros m yaw rows ts F. unfold parse_orientation. apply (loop_reported _ _ (fun r => True) (orientation_of m yaw) ao_t); [|exact F].
  intros r t. unfold one_orientation. destruct (Req_EM_T 0 0) as [_|N]; [|lra]. eexists. split; [reflexivity|]. split; [exact I|]. split; [|reflexivity].
  unfold orientation_of. cbn [ao_heading ao_roll ao_pitch ao_heading_std ao_roll_std ao_pitch_std]. unfold gtb.
  split; [|split; [|repeat split; reflexivity]].
  - destruct (Rlt_dec 360 _); destruct (Rlt_dec _ 0); [exists 0%Z|exists (-1)%Z|exists 1%Z|exists 0%Z]; lra.
  - intros A B. destruct (Rlt_dec 360 _); destruct (Rlt_dec _ 0); lra.
Qed.
Print Assumptions C201_orientation.

(** An INS mounted with a roll or a pitch stops the program at the first row with a time. *)
Theorem C201_ins_tilted : forall m roll pitch yaw rows ts, timed rows ts -> (roll <> 0 \/ pitch <> 0) ->
  (parse_orientation m (roll, pitch, yaw) rows = None <-> exists t, In (Some t) ts).
Proof.
  intros m roll pitch yaw rows ts F N. unfold parse_orientation. induction F as [|r t rows ts C F IH]; [split; [discriminate|intros [t []]]|].
  cbn [loop]. pose proof (C201_time (off_velocity m) _ _ C) as T. destruct t as [t|].
  - destruct T as (u & -> & _). replace (one_orientation m (roll, pitch, yaw) tt u r) with (@None (unit * option aorientation)).
    + split; [intros _; exists t; now left|reflexivity].
    + unfold one_orientation. destruct (Req_EM_T roll 0); [|reflexivity]. destruct (Req_EM_T pitch 0); [|reflexivity]. tauto.
  - rewrite T, IH. split; intros [t I]; exists t; [now right|]. destruct I as [I|I]; [discriminate|assumption].
Qed.
Print Assumptions C201_ins_tilted.

(** ** Depths *)
Definition depth_of (m : amission) (p : arow * option Q) (v : adepth) : Prop :=
  a_depth (fst p) = Some (ad_depth v) /\ ad_std v = Rabs (ad_depth v) * std_factor m + std_offset m /\ at_time (off_velocity m) (snd p) (ad_t v).
(** [selects]: some of the rows, in order. *)
Inductive selects {A V} (gives : A -> V -> Prop) : list A -> list V -> Prop :=
| sel_nil : selects gives [] []
| sel_use a l v out : gives a v -> selects gives l out -> selects gives (a :: l) (v :: out)
| sel_skip a l out : selects gives l out -> selects gives (a :: l) out.
Definition differ (v w : adepth) : Prop := ad_depth v <> ad_depth w.

Lemma last_cons : forall (x p : R) l, last (x :: l) p = last l x.
Proof. intros x p l. revert x p. induction l as [|y l IH]; intros x p; [reflexivity|]. change (last (y :: l) p = last (y :: l) x). now rewrite !IH. Qed.
Lemma depth_loop : forall m rows ts, timed rows ts -> forall prev, exists out, loop (off_velocity m) (one_depth m) prev rows = Some out /\
  selects (depth_of m) (combine rows ts) out /\ Forall (fun v => 0 < ad_depth v) out /\ (Sorted differ out /\ match out with v :: _ => ad_depth v <> prev | [] => True end) /\
  forall l r l' t d, rows = l ++ r :: l' -> nth_error ts (length l) = Some (Some t) -> a_depth r = Some d -> 0 < d ->
  exists out1 out2, out = out1 ++ out2 /\ loop (off_velocity m) (one_depth m) prev (l ++ [r]) = Some out1 /\ last (map ad_depth out1) prev = d.
Proof.
  intros m rows ts F. induction F as [|r0 t0 rows ts C F IH]; intros prev.
  - exists []. split; [reflexivity|]. split; [constructor|]. split; [constructor|]. split; [now split; [constructor|]|]. intros [|x l] r l' t d E; discriminate.
  - pose proof (C201_time (off_velocity m) _ _ C) as T. cbn [loop combine]. destruct t0 as [t0|].
    + destruct T as (u & U & UE). rewrite U.
      assert (K : one_depth m prev u r0 = Some (prev, None) /\ (forall d, a_depth r0 = Some d -> 0 < d -> d = prev) \/
        exists d, a_depth r0 = Some d /\ 0 < d /\ d <> prev /\ one_depth m prev u r0 = Some (d, Some (mkadepth u d (deviation m d)))).
      { unfold one_depth, gtb. destruct (a_depth r0) as [d|]; [|left; split; [reflexivity|discriminate]].
        destruct (Rlt_dec 0 d) as [P|P]; [|left; split; [reflexivity|intros d' [= <-]; lra]].
        destruct (Req_EM_T d prev) as [->|N]; [left; split; [reflexivity|now intros d' [= <-]]|]. right. exists d. auto. }
      destruct K as [[K KE]|(d0 & D0 & P0 & N0 & K)]; rewrite K.
      * destruct (IH prev) as (out & E & S & Pos & Srt & H). rewrite E. exists out. split; [reflexivity|]. split; [now apply sel_skip|]. split; [assumption|]. split; [assumption|].
        intros [|x l] r l' t d ER ET ED DP.
        -- injection ER as -> ->. exists [], out. split; [reflexivity|]. cbn [app loop]. rewrite U, K. split; [reflexivity|]. symmetry. now apply KE.
        -- injection ER as <- ->. destruct (H l r l' t d eq_refl ET ED DP) as (o1 & o2 & O & L & LD). exists o1, o2. cbn [app loop]. rewrite U, K, L. auto.
      * destruct (IH d0) as (out & E & S & Pos & [Srt Hd] & H). rewrite E. eexists. split; [reflexivity|].
        split; [apply sel_use; [|assumption]; split; [assumption|]; split; [reflexivity|]; exists t0; split; [reflexivity|exact UE]|].
        split; [now constructor|]. split; [split; [constructor; [assumption|]; destruct out; constructor; unfold differ; cbn [ad_depth]; auto|exact N0]|].
        intros [|x l] r l' t d ER ET ED DP.
        -- injection ER as -> ->. exists [mkadepth u d0 (deviation m d0)], out. split; [reflexivity|]. cbn [app loop]. rewrite U, K. split; [reflexivity|]. cbn. congruence.
        -- injection ER as <- ->. destruct (H l r l' t d eq_refl ET ED DP) as (o1 & o2 & O & L & LD). exists (mkadepth u d0 (deviation m d0) :: o1), o2. cbn [app loop]. rewrite U, K, L. split; [now rewrite O|]. split; [reflexivity|].
           cbn [map ad_depth]. now rewrite last_cons.
    + rewrite T. destruct (IH prev) as (out & E & S & Pos & Srt & H). exists out. split; [assumption|]. split; [now apply sel_skip|]. split; [assumption|]. split; [assumption|].
      intros [|x l] r l' t d ER ET ED DP; [discriminate|]. injection ER as <- ->. destruct (H l r l' t d eq_refl ET ED DP) as (o1 & o2 & O & L & LD). exists o1, o2. cbn [app loop]. rewrite T. auto.
Qed.

(** The depths reported are positive depths of rows, in order, with their times; two in a row differ. *)
Theorem C201_depth : forall m rows ts, timed rows ts -> exists out, parse_depth m rows = Some out /\
  selects (depth_of m) (combine rows ts) out /\ Forall (fun v => 0 < ad_depth v) out /\ Sorted differ out.
Proof. intros m rows ts F. destruct (depth_loop m rows ts F 0) as (out & E & S & P & [D _] & _). exists out. auto. Qed.
Print Assumptions C201_depth.

(** No change is missed: at a row with a positive depth, the last depth reported so far is that depth. *)
Theorem C201_depth_followed : forall m rows ts out l r l' t d, timed rows ts -> parse_depth m rows = Some out ->
  rows = l ++ r :: l' -> nth_error ts (length l) = Some (Some t) -> a_depth r = Some d -> 0 < d ->
  exists out1 out2, out = out1 ++ out2 /\ parse_depth m (l ++ [r]) = Some out1 /\ exists out0 v, out1 = out0 ++ [v] /\ ad_depth v = d.
Proof.
  intros m rows ts out l r l' t d F P E T D DP. destruct (depth_loop m rows ts F 0) as (o & E' & _ & _ & _ & H). unfold parse_depth in *. rewrite P in E'. injection E' as <-.
  destruct (H l r l' t d E T D DP) as (o1 & o2 & O & L & LD). exists o1, o2. split; [assumption|]. split; [assumption|].
  destruct o1 as [|v o1] using rev_ind; [cbn in LD; lra|]. exists o1, v. split; [reflexivity|]. rewrite map_app in LD. cbn [map] in LD. now rewrite last_last in LD.
Qed.
Print Assumptions C201_depth_followed.

(** ** Example *)
Definition txt := list_ascii_of_string.
Definition m0 := mkamission 10 0 0 20 (1 / 100) (1 / 10).
Definition r1 := mkarow (Some (txt "2017/08/17 03:46:37.250")) (Some 1%Z) 500 0 (-20) 3 1 2 350 (Some 12).
Definition r2 := mkarow None (Some 1%Z) 0 0 0 3 1 2 350 (Some 12).
Definition r3 := mkarow (Some (txt "2017/08/17 03:46:38.007")) (Some 0%Z) 600 0 0 3 1 2 5 (Some 12).
Definition r4 := mkarow (Some (txt "2017/8/17 3:46:39.000")) None 600 0 0 3 1 2 5 (Some 13).
Definition r5 := mkarow (Some (txt "2017/08/17 03:46")) (Some 1%Z) 600 0 0 3 1 2 5 (Some 14).
Example C201_times : map (fun r => match read_time 10 (a_time r) with At t => Some (Qred t) | _ => None end) [r1; r2; r3; r4; r5]
  = [Some (6011766429 # 4)%Q; None; Some (1502941608007 # 1000)%Q; Some (1502941609 # 1)%Q; None].
Proof. vm_compute. reflexivity. Qed.
Example C201_cells : time_cell (Some (txt "1970/1/01 00:00:01.250")) (Some (1 + 250 / 1000)%Q).
Proof.
  apply (cell_full 4 1 2 2 2 2 (mkCivil 1970 1 1 0 0 1) 1 250); try (split; cbn; lia); cbn; try lia.
  apply (sa_S 0 (mkCivil 1970 1 1 0 0 0)); [constructor|]. apply (ns_second 1970 1 1 0 0 0); lia.
Qed.
Example C201_parsed : forall t1 t3 t4 (m := mkamission 0 0 0 0 (1 / 100) (1 / 10)),
  read_time 0 (a_time r1) = At t1 -> read_time 0 (a_time r3) = At t3 -> read_time 0 (a_time r4) = At t4 ->
  parse_depth m [r1; r2; r3; r4; r5] = Some [mkadepth t1 12 (22 / 100); mkadepth t4 13 (23 / 100)] /\
  parse_altitude m [r1; r2; r3; r4; r5] = Some [mkaaltitude t1 3 (13 / 100)] /\
  parse_orientation m (0, 0, 20) [r1; r2; r4] = Some [mkaorientation t1 10 1 2 (36 / 10) (11 / 100) (12 / 100); mkaorientation t4 25 1 2 (15 / 100) (11 / 100) (12 / 100)].
Proof.
  intros t1 t3 t4 m T1 T3 T4.
  assert (T2 : read_time 0 (a_time r2) = Skips) by reflexivity. assert (T5 : read_time 0 (a_time r5) = Skips) by (vm_compute; reflexivity).
  unfold parse_depth, parse_altitude, parse_orientation. cbn [loop off_velocity m]. rewrite T1, T2, T3, T4, T5.
  unfold one_depth, one_altitude, one_orientation, deviation, gtb. cbn [a_depth a_valid a_yaw a_roll a_pitch a_range r1 r3 r4 m std_factor std_offset].
  repeat match goal with |- context [Rlt_dec ?a ?b] => destruct (Rlt_dec a b); try lra end.
  repeat match goal with |- context [Req_EM_T ?a ?b] => destruct (Req_EM_T a b); try lra end.
  repeat rewrite Rabs_pos_eq by lra.
  split; [|split]; repeat (f_equal; try lra).
Qed.

(** ** C202 *)
Definition read_time_value (r : arow) : Q := match read_time 0 (a_time r) with At t => t | _ => 0%Q end.
(** The digits after the point are read as a number of milliseconds: half a second written ".5" becomes 5 ms. *)
Theorem C202_fraction_refuted : exists cell t, cell = Some (txt "2017/08/17 03:46:37.5") /\ read_time 0 cell = At t /\ ~ (t == 1502941597 + 1 # 2)%Q.
Proof. eexists. eexists. split; [reflexivity|]. split; [vm_compute; reflexivity|]. discriminate. Qed.
Print Assumptions C202_fraction_refuted.
(** A time of whole seconds makes the parser fail. *)
Theorem C202_whole_seconds_refuted : exists r, a_time r = Some (txt "2017/08/17 03:46:37") /\ forall m, parse_depth m [r] = None.
Proof. exists (mkarow (Some (txt "2017/08/17 03:46:37")) (Some 1%Z) 0 0 0 0 0 0 0 (Some 1)). split; reflexivity. Qed.
Print Assumptions C202_whole_seconds_refuted.
(** The offset set for depth does not move the depths. *)
Theorem C202_offset_refuted : exists m m' rows, off_depth m <> off_depth m' /\ parse_depth m rows = parse_depth m' rows /\ parse_depth m rows <> Some [].
Proof.
  exists (mkamission 0 0 0 0 0 0), (mkamission 0 0 60 0 0 0), [r1]. split; [discriminate|]. split; [reflexivity|].
  unfold parse_depth. cbn [loop off_velocity]. replace (read_time 0 (a_time r1)) with (At (read_time_value r1)) by reflexivity.
  unfold one_depth, gtb. cbn [a_depth r1]. destruct (Rlt_dec 0 12); [|lra]. destruct (Req_EM_T 12 0); [lra|]. discriminate.
Qed.
Print Assumptions C202_offset_refuted.
(** A heading of 360 is kept, so north has two values. *)
Theorem C202_heading_refuted : exists m r v, 0 <= a_yaw r < 360 /\ parse_orientation m (0, 0, 10) [r] = Some [v] /\ ao_heading v = 360.
Proof.
  exists (mkamission 0 0 0 0 0 0), r1. eexists. split; [cbn [a_yaw r1]; lra|]. unfold parse_orientation. cbn [loop off_velocity].
  replace (read_time 0 (a_time r1)) with (At (read_time_value r1)) by reflexivity. unfold one_orientation. destruct (Req_EM_T 0 0); [|lra]. split; [reflexivity|].
  cbn [ao_heading a_yaw r1]. unfold gtb. destruct (Rlt_dec 360 (350 + 10)); [lra|]. destruct (Rlt_dec (350 + 10) 0); lra.
Qed.
Print Assumptions C202_heading_refuted.
(** A vehicle keeping its depth exactly gives no reports of it. *)
Theorem C202_constant_depth_refuted : exists m, forall n, exists out, parse_depth m (repeat r1 (S n)) = Some out /\ length out = 1%nat.
Proof.
  exists (mkamission 0 0 0 0 0 0). intros n. unfold parse_depth. cbn [off_velocity].
  assert (K : forall k, loop 0 (one_depth (mkamission 0 0 0 0 0 0)) 12 (repeat r1 k) = Some []).
  { induction k as [|k IH]; [reflexivity|]. cbn [repeat loop]. replace (read_time 0 (a_time r1)) with (At (read_time_value r1)) by reflexivity.
    unfold one_depth at 1, gtb. cbn [a_depth r1]. destruct (Rlt_dec 0 12); [|lra]. destruct (Req_EM_T 12 12); [|lra]. now rewrite IH. }
  cbn [repeat loop]. replace (read_time 0 (a_time r1)) with (At (read_time_value r1)) by reflexivity.
  unfold one_depth at 1, gtb. cbn [a_depth r1]. destruct (Rlt_dec 0 12); [|lra]. destruct (Req_EM_T 12 0); [lra|]. rewrite K. eexists. split; reflexivity.
Qed.
Print Assumptions C202_constant_depth_refuted.
