(** C07 (angular rates), C08 (dead reckoning), C62 (synchronisation). *)
From Verif Require Import PyBase InterpModel InterpSpec DrModel DrSpec DrProofs.
Open Scope Q_scope.

(** ** C07: rates of a steadily rotating vehicle are recovered at every sample,
    also across north.  The last sample of a two-sample track is excluded, see
    C107. *)
Theorem C07_steady_rates : forall l p q w i,
  increasing o_t l -> steady_rotation l p q w -> slow_turn l w ->
  (i < length l)%nat -> (2 <= length l)%nat -> ~ (length l = 2%nat /\ i = 1%nat) ->
  exists p' q' w', compute_angular_speeds l i = Some (p', q', w') /\
    p' == p /\ q' == q /\ w' == w.
Proof. exact angular_speeds_steady. Qed.
Print Assumptions C07_steady_rates.

Theorem C107_steady_rates_refuted : exists l p q w i,
  increasing o_t l /\ steady_rotation l p q w /\ slow_turn l w /\ (i < length l)%nat /\
  (2 <= length l)%nat /\ compute_angular_speeds l i = None.
Proof.
  exists [mkOrient 0 0 0 10; mkOrient 1 0 0 12], 0, 0, 2, 1%nat.
  split; [|split; [|split; [|split; [|split]]]].
  - intros [|[|i]] [|[|j]] a b Hij Ha Hb; try lia; cbn in Ha, Hb; try discriminate.
    + injection Ha as <-. injection Hb as <-. reflexivity.
    + destruct j; discriminate.
    + destruct j; discriminate.
    + destruct i; discriminate.
  - exists 0, 0, 10. intros o [<-|[<-|[]]]; cbn; repeat split; try reflexivity; try discriminate;
      exists 0%Z; reflexivity.
  - intros [|[|i]] [|[|j]] a b Hij Ha Hb; try lia; cbn in Ha, Hb; try discriminate.
    + injection Ha as <-. injection Hb as <-. reflexivity.
    + destruct j; discriminate.
    + destruct j; discriminate.
    + destruct i; discriminate.
  - cbn. lia.
  - cbn. lia.
  - reflexivity.
Qed.
Print Assumptions C107_steady_rates_refuted.

Example C07_rates_example : (* 358 -> 0 -> 2 degrees *)
  let l := [mkOrient 0 1 0 358; mkOrient 1 1 0 0; mkOrient 2 1 0 2] in
  exists r, compute_angular_speeds l 1 = Some r /\ snd r == 2 /\ fst (fst r) == 0.
Proof. eexists. split; [reflexivity|]. split; reflexivity. Qed.

(** ** C08 *)
Theorem C08_position_is_area_under_velocity : forall l k p,
  nth_error (dr_track l) k = Some p ->
  pos_eq p (area v_n (firstn (S k) l), area v_e (firstn (S k) l)).
Proof. exact dr_track_area. Qed.
Print Assumptions C08_position_is_area_under_velocity.

Theorem C08_one_position_per_sample : forall l, length (dr_track l) = length l.
Proof. exact dr_track_length. Qed.
Print Assumptions C08_one_position_per_sample.

Theorem C08_constant_velocity : forall l vn ve k s p s0,
  (forall v, In v l -> v_n v == vn /\ v_e v == ve) ->
  nth_error l 0 = Some s0 -> nth_error l k = Some s -> nth_error (dr_track l) k = Some p ->
  pos_eq p (vn * (v_t s - v_t s0), ve * (v_t s - v_t s0)).
Proof. exact dr_constant_velocity. Qed.
Print Assumptions C08_constant_velocity.

(** Exact for velocities that change linearly in time, however sampled. *)
Theorem C08_constant_acceleration : forall l a b c d k s p s0,
  (forall v, In v l -> v_n v == a * v_t v + b /\ v_e v == c * v_t v + d) ->
  nth_error l 0 = Some s0 -> nth_error l k = Some s -> nth_error (dr_track l) k = Some p ->
  pos_eq p (a * (v_t s * v_t s - v_t s0 * v_t s0) / 2 + b * (v_t s - v_t s0),
            c * (v_t s * v_t s - v_t s0 * v_t s0) / 2 + d * (v_t s - v_t s0)).
Proof. exact dr_constant_acceleration. Qed.
Print Assumptions C08_constant_acceleration.

Theorem C08_additive_over_time : forall l1 s l2 k p q r,
  nth_error (dr_track (l1 ++ s :: l2)) (length l1 + k) = Some p ->
  nth_error (dr_track (l1 ++ [s])) (length l1) = Some q ->
  nth_error (dr_track (s :: l2)) k = Some r ->
  pos_eq p (pos_add q r).
Proof. exact dr_split. Qed.
Print Assumptions C08_additive_over_time.

Theorem C08_linear_in_velocity : forall c l l1 l2 k p q r,
  length l1 = length l -> length l2 = length l ->
  (forall i x y z, nth_error l i = Some x -> nth_error l1 i = Some y -> nth_error l2 i = Some z ->
     v_t x == v_t y /\ v_t x == v_t z /\ v_n x == c * v_n y + v_n z /\ v_e x == c * v_e y + v_e z) ->
  nth_error (dr_track l) k = Some p -> nth_error (dr_track l1) k = Some q ->
  nth_error (dr_track l2) k = Some r ->
  pos_eq p (pos_add (pos_scale c q) r).
Proof. exact dr_linear. Qed.
Print Assumptions C08_linear_in_velocity.

Example C08_example :
  map (fun p => (Qred (fst p), Qred (snd p)))
      (dr_track [mkVel 0 1 0; mkVel 2 1 2; mkVel 5 3 2]) = [(0, 0); (2, 2); (8, 8)].
Proof. reflexivity. Qed.

(** ** C62 *)

(** All orientation samples within the velocity record's span are synchronised,
    in order, each inside its own bracket; but the first of them is dropped
    when exactly one orientation sample precedes the span.  What happens then, and
    before the first altitude or depth sample, is C162. *)
Theorem C62_synchronised : forall os vels alts depths v0 vl,
  increasing (fun t => t) os -> increasing b_t vels -> increasing fst alts -> increasing fst depths ->
  (2 <= length vels)%nat -> alts <> [] -> depths <> [] ->
  is_first vels v0 -> is_last vels vl ->
  (exists t, In t os /\ b_t v0 <= t <= b_t vl) ->
  exists all, map y_t all = filter (in_span (b_t v0) (b_t vl)) os /\
    Forall (sync_ok vels alts depths) all /\
    (~ one_before os (b_t v0) -> synchronise os vels alts depths = Some all) /\
    (one_before os (b_t v0) -> synchronise os vels alts depths = Some (tl all)).
Proof. exact synchronise_correct. Qed.
Print Assumptions C62_synchronised.

Definition bv (t x : Q) : bodyvel := mkBv t x 0 0 0 0 0.

(** An orientation sample in the middle of the data is lost. *)
Theorem C162_in_range_sample_dropped_refuted : exists os vels alts depths out,
  synchronise os vels alts depths = Some out /\
  filter (in_span 10 20) os = [12; 14] /\ map b_t vels = [10; 20] /\ map y_t out = [14].
Proof.
  exists [9; 12; 14], [bv 10 1; bv 20 2], [(0, 5); (30, 5)], [(0, 7); (30, 7)].
  eexists. split; [reflexivity|]. repeat split.
Qed.
Print Assumptions C162_in_range_sample_dropped_refuted.

(** At an orientation time before the first depth, the depth is extrapolated
    from the last and the first depth sample of the dive: a vehicle that is at
    constant depth 10 until its ascent is given a depth of 11. *)
Theorem C162_depth_mixes_ends_refuted : exists os vels alts depths r,
  synchronise os vels alts depths = Some [r] /\
  is_first depths (2, 10) /\ is_last depths (12, 0) /\ y_t r = 1 /\
  y_depth r == 11.
Proof.
  exists [1], [bv 0 1; bv 20 2], [(0, 5); (30, 5)], [(2, 10); (11, 10); (12, 0)].
  eexists. split; [reflexivity|]. split; [eexists; reflexivity|]. split; [exists [(2,10);(11,10)]; reflexivity|].
  split; reflexivity.
Qed.
Print Assumptions C162_depth_mixes_ends_refuted.

Example C62_example :
  option_map (map (fun r => (y_t r, Qred (b_x (y_vel r)), Qred (y_alt r), Qred (y_depth r))))
    (synchronise [12; 14; 30] [bv 10 1; bv 20 2] [(0, 5); (30, 8)] [(0, 7); (13, 7); (30, 24)])
  = Some [(12, 6 # 5, 31 # 5, 7); (14, 7 # 5, 32 # 5, 8)].
Proof. reflexivity. Qed.
