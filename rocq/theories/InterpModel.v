(** Model of src/auv_nav/tools/interpolate.py (numbers as exact rationals). *)
From Verif Require Import PyBase.
Open Scope Q_scope.

(** interpolate.py:20-27 [interpolate]. *)
Definition interpolate (x_query x_lower x_upper y_lower y_upper : Q) : Q :=
  if Qeq_bool x_upper x_lower then y_lower
  else (y_upper - y_lower) / (x_upper - x_lower) * (x_query - x_lower) + y_lower.

(** The common yaw block of interpolate.py:81-113 ([interpolate_dvl]) and
    396-424 ([interpolate_sensor_list]); both copies have the same branches. *)
Definition interpolate_yaw (t t1 t2 yaw1 yaw2 : Q) : Q :=
  if Qltb 180 (Qabs (yaw2 - yaw1)) then
    let y := if Qltb yaw1 yaw2
             then interpolate t t1 t2 yaw1 (yaw2 - 360)
             else interpolate t t1 t2 (yaw1 - 360) yaw2 in
    if Qltb y 0 then y + 360
    else if Qltb 360 y then y - 360
    else y
  else interpolate t t1 t2 yaw1 yaw2.

(** A navigation sample: the fields of SyncedOrientationBodyVelocity / Camera
    that interpolation reads (sensors.py).  [stds] are the twelve optional
    standard deviations in the order of interpolate.py:510-545; [cov] is the
    optional covariance matrix, flattened. *)
Record sample := mkSample {
  s_t : Q; s_roll : Q; s_pitch : Q; s_yaw : Q;
  s_vx : Q; s_vy : Q; s_vz : Q;
  s_alt : Q; s_north : Q; s_east : Q; s_depth : Q;
  s_lat : Q; s_lon : Q;
  s_stds : list (option Q);
  s_cov : option (list Q) }.

(** interpolate.py:43-114 [interpolate_dvl]; only the fields it sets. *)
Record dvl_sample := mkDvl {
  d_t : Q; d_vx : Q; d_vy : Q; d_vz : Q; d_roll : Q; d_pitch : Q; d_yaw : Q }.

Definition interpolate_dvl (t : Q) (a b : dvl_sample) : dvl_sample :=
  let f g := interpolate t (d_t a) (d_t b) (g a) (g b) in
  {| d_t := t; d_vx := f d_vx; d_vy := f d_vy; d_vz := f d_vz;
     d_roll := f d_roll; d_pitch := f d_pitch;
     d_yaw := interpolate_yaw t (d_t a) (d_t b) (d_yaw a) (d_yaw b) |}.

(** interpolate.py:234-272 [interpolate_usbl]: the five interpolated fields. *)
Record usbl_sample := mkUsbl {
  u_t : Q; u_north : Q; u_east : Q; u_north_std : Q; u_east_std : Q; u_depth : Q }.

Definition interpolate_usbl (t : Q) (a b : usbl_sample) : usbl_sample :=
  let f g := interpolate t (u_t a) (u_t b) (g a) (g b) in
  {| u_t := t; u_north := f u_north; u_east := f u_east;
     u_north_std := f u_north_std; u_east_std := f u_east_std; u_depth := f u_depth |}.

(** interpolate.py:30-40 [interpolate_altitude] over (timestamp, altitude)
    pairs.  [None] is IndexError (query after the last sample, or fewer than
    two samples). *)
Fixpoint alt_search (fuel : nat) (data : list (Q * Q)) (t : Q) (i : nat) : nat :=
  match fuel with
  | O => i
  | S f =>
      match nth_error data i with
      | Some d => if Qltb (fst d) t then alt_search f data t (S i) else i
      | None => i
      end
  end.

Definition interpolate_altitude (t : Q) (data : list (Q * Q)) : option Q :=
  let i := alt_search (length data) data t 1 in
  match nth_error data (i - 1), nth_error data i with
  | Some a, Some b => Some (interpolate t (fst a) (fst b) (snd a) (snd b))
  | _, _ => None
  end.

(** interpolate.py:139-142: index of the first entry whose time is not before
    the query; the last index if there is none (Python leaves [i] at the last
    value of the range); 0 on the empty list. *)
Fixpoint first_not_before (cams : list sample) (t : Q) (i : nat) : nat :=
  match cams with
  | [] => i
  | [_] => i
  | c :: rest => if Qle_bool t (s_t c) then i else first_not_before rest t (S i)
  end.

(** interpolate.py:117-231 [interpolate_camera] (file name left out: it is
    copied from the argument).  Note the test [i > 1] of line 145. *)
Definition interpolate_camera (t : Q) (cams : list sample) : option sample :=
  let i := first_not_before cams t 0 in
  match nth_error cams i with
  | None => None                                     (* IndexError *)
  | Some c2 =>
      let c1 := if (1 <? i)%nat
                then match nth_error cams (i - 1) with Some c => c | None => c2 end
                else c2 in
      let f g := interpolate t (s_t c1) (s_t c2) (g c1) (g c2) in
      Some {| s_t := t; s_roll := f s_roll; s_pitch := f s_pitch; s_yaw := f s_yaw;
              s_vx := f s_vx; s_vy := f s_vy; s_vz := f s_vz; s_alt := f s_alt;
              s_north := f s_north; s_east := f s_east; s_depth := f s_depth;
              s_lat := f s_lat; s_lon := f s_lon; s_stds := []; s_cov := None |}
  end.

(** interpolate.py:285-288 [interpolate_covariance] on flattened matrices of
    equal size; [None] is the division by zero at equal timestamps. *)
Definition interpolate_covariance (t t0 t1 : Q) (c0 c1 : list Q) : option (list Q) :=
  if Qeq_bool t1 t0 then None
  else let x := (t - t0) / (t1 - t0) in
       Some (map (fun p => (1 - x) * fst p + x * snd p) (combine c0 c1)).

(** interpolate.py:291-304 [interpolate_property]. *)
Definition interpolate_property (t t0 t1 : Q) (p0 p1 : option Q) : option Q :=
  match p0, p1 with
  | Some a, Some b => Some (interpolate t t0 t1 a b)
  | _, _ => None
  end.

Section SensorList.
  (** body_to_inertial and metres_to_latlon are called as black boxes. *)
  Variable b2i : Q -> Q -> Q -> Q -> Q -> Q -> Q * Q * Q.
  Variable m2ll : Q -> Q -> Q -> Q -> Q * Q.
  Variable origin_off sensor_off : Q * Q * Q.
  Variable lat_ref lon_ref : Q.

  (** interpolate.py:382-554: the pose given to a sensor at time [t] from the
      two track samples [a] (index j-1) and [b] (index j).  [None]: the
      covariance branch raises (missing covariance at j-1, or equal times). *)
  Definition pose_between (t : Q) (a b : sample) : option sample :=
    let f g := interpolate t (s_t a) (s_t b) (g a) (g b) in
    let roll := f s_roll in
    let pitch := f s_pitch in
    let yaw := interpolate_yaw t (s_t a) (s_t b) (s_yaw a) (s_yaw b) in
    let '(ox, oy, oz) := origin_off in
    let '(sx, sy, sz) := sensor_off in
    let '(dx, dy, dz) := b2i roll pitch yaw (ox - sx) (oy - sy) (oz - sz) in
    let north := f s_north - dx in
    let east := f s_east - dy in
    let ll := m2ll lat_ref lon_ref east north in
    let cov :=
      match s_cov b with
      | None => Some None
      | Some cb =>
          match s_cov a with
          | None => None
          | Some ca =>
              match interpolate_covariance t (s_t a) (s_t b) ca cb with
              | None => None
              | Some c => Some (Some c)
              end
          end
      end in
    match cov with
    | None => None
    | Some c =>
        Some {| s_t := t; s_roll := roll; s_pitch := pitch; s_yaw := yaw;
                s_vx := f s_vx; s_vy := f s_vy; s_vz := f s_vz;
                s_alt := f s_alt + dz; s_north := north; s_east := east;
                s_depth := f s_depth - dz; s_lat := fst ll; s_lon := snd ll;
                s_stds := map (fun p => interpolate_property t (s_t a) (s_t b) (fst p) (snd p))
                              (combine (s_stds a) (s_stds b));
                s_cov := c |}
    end.

  (** interpolate.py:372-379, the inner [while]: advance [j] until
      [centre[j].t >= t], unless [j] is the last index or the next track sample
      is later than the last sensor sample.  [fuel] only makes the recursion
      structural: [j] grows at every step and stops at the last index. *)
  Fixpoint advance (fuel : nat) (centre : list sample) (t tlast : Q) (j : nat) : nat :=
    match fuel with
    | O => j
    | S k =>
        match nth_error centre j with
        | None => j
        | Some c =>
            if Qltb (s_t c) t then
              match nth_error centre (S j) with
              | None => j
              | Some c' => if Qltb tlast (s_t c') then j
                           else advance k centre t tlast (S j)
              end
            else j
        end
    end.

  (** interpolate.py:352-554: main loop.  Sensors are (timestamp, name) pairs;
      [name] stands for everything of the sensor object that is not
      overwritten.  Result: retained sensors with their poses; [None] is an
      exception. *)
  Fixpoint scan {Nm : Type} (centre : list sample) (tlast : Q) (j : nat)
           (sensors : list (Q * Nm)) : option (list (Nm * sample)) :=
    match sensors with
    | [] => Some []
    | (t, nm) :: rest =>
        if (length centre - 1 <=? j)%nat then Some []      (* del sensor_list[i:] *)
        else
          let j' := advance (length centre) centre t tlast j in
          match py_nth centre (Z.of_nat j' - 1), nth_error centre j' with
          | Some a, Some b =>
              match pose_between t a b with
              | Some p =>
                  match scan centre tlast j' rest with
                  | Some out => Some ((nm, p) :: out)
                  | None => None
                  end
              | None => None
              end
          | _, _ => None
          end
    end.

  (** interpolate.py:331-351: delete the leading samples before the start. *)
  Fixpoint drop_before {Nm : Type} (start : Q) (sensors : list (Q * Nm)) : list (Q * Nm) :=
    match sensors with
    | [] => []
    | s :: rest => if Qltb (fst s) start then drop_before start rest else s :: rest
    end.

  Inductive outcome (Nm : Type) :=
  | Raised                                   (* an exception *)
  | NoOverlap                                (* only a warning; the list is left as it is *)
  | Interpolated (out : list (Nm * sample)).
  Arguments Raised {Nm}. Arguments NoOverlap {Nm}. Arguments Interpolated {Nm} _.

  (** interpolate.py:307-564 [interpolate_sensor_list]. *)
  Definition interpolate_sensor_list {Nm : Type} (sensors : list (Q * Nm))
             (centre : list sample) : outcome Nm :=
    match nth_error centre 0, py_nth centre (-1),
          nth_error sensors 0, py_nth sensors (-1) with
    | Some c0, Some cn, Some s0, Some sn =>
        if orb (Qltb (s_t cn) (fst s0)) (Qltb (fst sn) (s_t c0)) then NoOverlap
        else
          match scan centre (fst sn) 0 (drop_before (s_t c0) sensors) with
          | Some out => Interpolated out
          | None => Raised
          end
    | _, _, _, _ => Raised
    end.
End SensorList.
Arguments Raised {Nm}. Arguments NoOverlap {Nm}. Arguments Interpolated {Nm} _.
