(** The whole path from the sensors to the poses of the images by dead reckoning, over the reals: auv_nav/process.py:757-982, 1097-1119
    and 1222-1230 with compute_angular_speeds, dead_reckoning and interpolate_sensor_list.  The same loops as in DrModel.v and
    InterpModel.v (there over the rationals, with their uncertainties), put together with the rotations of FramesModel.v and the offsets
    of PlaceModel.v.  Left out: uncertainties, the velocities published with a pose, the filters, and usbl_offset, whose result is an
    argument (its value: C78). *)
From Coq Require Export List Arith Lia.
From Verif Require Export FramesModel FramesSpec PlaceModel.
Export ListNotations.
Open Scope R_scope.

Definition rlt (a b : R) : bool := if Rlt_dec a b then true else false.

Record orientation := mko { o_t : R; o_att : attitude }.
(** Surge, sway and heave velocity of the DVL. *)
Record velocity := mkv { v_t : R; v_body : vec }.
(** A reading of the depth or of the altitude: time, value. *)
Notation reading := (R * R)%type.
(** A record of dead_reckoning_dvl_list before its position is computed; [y_vel]: north, east, down velocity. *)
Record synced := mksync { y_t : R; y_att : attitude; y_vel : vec; y_depth : R; y_alt : R }.

(** dvl_level_arm.py:44-54 *)
Definition rate_pair (os : list orientation) (i : nat) : option (orientation * orientation) :=
  let n := length os in
  let pair a b := match nth_error os a, nth_error os b with Some x, Some y => Some (x, y) | _, _ => None end in
  if ((1 <=? i) && (i <? n - 1))%nat%bool then pair (i - 1)%nat (i + 1)%nat
  else if ((1 <? i) && (i =? n - 1))%nat%bool then pair (i - 1)%nat i
  else if (i =? 0)%nat then pair i (i + 1)%nat
  else None.
(** 41-69; [None]: an exception *)
Definition compute_angular_speeds (os : list orientation) (i : nat) : option vec :=
  match rate_pair os i with
  | None => None
  | Some (a, b) =>
      let dt := o_t b - o_t a in
      let dyaw := yaw (o_att b) - yaw (o_att a) in
      let dyaw := if rlt 180 dyaw then dyaw - 360 else if rlt dyaw (-180) then dyaw + 360 else dyaw in
      if Req_EM_T dt 0 then None
      else Some ((roll (o_att b) - roll (o_att a)) / dt, (pitch (o_att b) - pitch (o_att a)) / dt, dyaw / dt)
  end.

(** process.py:775-779; [None]: IndexError *)
Fixpoint start_index (os : list orientation) (t0 : R) : option nat :=
  match os with
  | [] => None
  | o :: os => if rlt (o_t o) t0 then option_map S (start_index os t0) else Some O
  end.
(** 795-800 *)
Fixpoint adv_vel (fuel : nat) (vs : list velocity) (t : R) (j : nat) : nat :=
  match fuel with
  | O => j
  | S fuel => match nth_error vs (S j) with
              | Some v => if rlt (v_t v) t then adv_vel fuel vs t (S j) else j
              | None => j
              end
  end.
(** 897-901, 910-914 *)
Fixpoint adv_pair (fuel : nat) (l : list reading) (t : R) (n : nat) : nat :=
  match fuel with
  | O => n
  | S fuel => if (S n <? length l)%nat then
                match nth_error l n with
                | Some a => if rlt (fst a) t then adv_pair fuel l t (S n) else n
                | None => n
                end
              else n
  end.
(** Python's l[n - 1] *)
Definition prev {A} (l : list A) (n : nat) : option A := nth_error l (match n with O => length l - 1 | S n => n end)%nat.
(** 902-908, 916-922 *)
Definition at_pair (l : list reading) (t : R) (n : nat) : option R :=
  match prev l n, nth_error l n with
  | Some a, Some b => Some (interpolate t (fst a) (fst b) (snd a) (snd b))
  | _, _ => None
  end.
(** 810-830 *)
Definition at_vel (vs : list velocity) (t : R) (j : nat) : option vec :=
  match nth_error vs j, nth_error vs (S j) with
  | Some a, Some b => let f g := interpolate t (v_t a) (v_t b) (g (v_body a)) (g (v_body b)) in Some (f vx, f vy, f vz)
  | _, _ => None
  end.
(** 789-930: the orientations [rest] from index [i] on *)
Fixpoint sync_from (dvl : vec) (os : list orientation) (vs : list velocity) (alts depths : list reading) (tlast : R)
         (j n k i : nat) (rest : list orientation) : option (list synced) :=
  match rest with
  | [] => Some []
  | o :: rest =>
      if rlt tlast (o_t o) then Some []
      else
        let j := adv_vel (length vs) vs (o_t o) j in
        let n := adv_pair (length alts) alts (o_t o) n in
        let k := adv_pair (length depths) depths (o_t o) k in
        match at_vel vs (o_t o) j, compute_angular_speeds os i, at_pair alts (o_t o) n, at_pair depths (o_t o) k with
        | Some v, Some w, Some a, Some d =>
            match sync_from dvl os vs alts depths tlast j n k (S i) rest with
            | Some out => Some (mksync (o_t o) (o_att o) (track_velocity dvl (o_att o) v w) d a :: out)
            | None => None
            end
        | _, _, _, _ => None
        end
  end.

(** 933-950 with dead_reckoning.py:11-27 *)
Fixpoint integrate (p : synced) (n e : R) (l : list synced) : list sample :=
  match l with
  | [] => []
  | y :: l =>
      let n := (y_t y - y_t p) * (vx (y_vel p) + vx (y_vel y)) / 2 + n in
      let e := (y_t y - y_t p) * (vy (y_vel p) + vy (y_vel y)) / 2 + e in
      mksample (y_t y) (y_att y) n e (y_depth y) (y_alt y) :: integrate y n e l
  end.
Definition dvl_track (l : list synced) : option (list sample) :=
  match l with
  | [] => None
  | y :: l => Some (mksample (y_t y) (y_att y) 0 0 (y_depth y) (y_alt y) :: integrate y 0 0 l)
  end.

(** Where the sensors are on the vehicle. *)
Record mounting := mkmount { m_origin : vec; m_dvl : vec; m_depth : vec; m_sensor : vec }.

(** 757-982: dead_reckoning_dvl_list as it is before 977, and whether the first record of it is deleted *)
Definition dead_reckoned (m : mounting) (os : list orientation) (vs : list velocity) (alts depths : list reading) : option (list sample * bool) :=
  match nth_error vs 0, prev vs 0 with
  | Some v0, Some vl =>
      match start_index os (v_t v0) with
      | None => None
      | Some s =>
          match sync_from (m_dvl m) os vs alts depths (v_t vl) 0 0 0 s (skipn s os) with
          | None => None
          | Some ys => option_map (fun tr => (tr, (s =? 1)%nat)) (dvl_track ys)
          end
      end
  | _, _ => None
  end.
(** 952-982, then 1108-1109 with the offset [u] *)
Definition centre_track (m : mounting) (u : R * R) (tr : list sample * bool) : list sample :=
  let c := map (dr_centre (m_origin m) (m_dvl m) (m_depth m)) (fst tr) in
  map (fun s => mksample (at_t s) (att s) (north s + fst u) (east s + snd u) (depth s) (altitude s)) (if snd tr then tl c else c).

(** interpolate.py:396-424 *)
Definition interpolate_yaw (t t1 t2 y1 y2 : R) : R :=
  if rlt 180 (Rabs (y2 - y1)) then
    let y := if rlt y1 y2 then interpolate t t1 t2 y1 (y2 - 360) else interpolate t t1 t2 (y1 - 360) y2 in
    if rlt y 0 then y + 360 else if rlt 360 y then y - 360 else y
  else interpolate t t1 t2 y1 y2.
(** 382-424 *)
Definition attitude_between (t : R) (a b : sample) : attitude :=
  mkatt (interpolate t (at_t a) (at_t b) (roll (att a)) (roll (att b))) (interpolate t (at_t a) (at_t b) (pitch (att a)) (pitch (att b)))
        (interpolate_yaw t (at_t a) (at_t b) (yaw (att a)) (yaw (att b))).

Section Sensors.
  Context {L N : Type} (m2ll : R -> R -> L) (m : mounting).
  (** interpolate.py:372-379 *)
  Fixpoint advance (fuel : nat) (centre : list sample) (t tlast : R) (j : nat) : nat :=
    match fuel with
    | O => j
    | S fuel =>
        match nth_error centre j, nth_error centre (S j) with
        | Some c, Some c' => if rlt (at_t c) t then if rlt tlast (at_t c') then j else advance fuel centre t tlast (S j) else j
        | _, _ => j
        end
    end.
  (** 352-554; a sensor record is its time and what is not overwritten.  [None]: IndexError *)
  Fixpoint scan (centre : list sample) (tlast : R) (j : nat) (sensors : list (R * N)) : option (list (N * (sample * L))) :=
    match sensors with
    | [] => Some []
    | (t, nm) :: rest =>
        if (length centre - 1 <=? j)%nat then Some []
        else
          let j := advance (length centre) centre t tlast j in
          match prev centre j, nth_error centre j with
          | Some a, Some b =>
              option_map (cons (nm, sensor_at m2ll (m_origin m) (m_sensor m) t (attitude_between t a b) a b)) (scan centre tlast j rest)
          | _, _ => None
          end
    end.
  (** 331-351 *)
  Fixpoint drop_before (start : R) (sensors : list (R * N)) : list (R * N) :=
    match sensors with
    | [] => []
    | s :: rest => if rlt (fst s) start then drop_before start rest else s :: rest
    end.
  Inductive outcome := Raised | NoOverlap | Interpolated (out : list (N * (sample * L))).
  (** 307-564 *)
  Definition interpolate_sensor_list (sensors : list (R * N)) (centre : list sample) : outcome :=
    match nth_error centre 0, prev centre 0, nth_error sensors 0, prev sensors 0 with
    | Some c0, Some cn, Some s0, Some sn =>
        if (rlt (at_t cn) (fst s0) || rlt (fst sn) (at_t c0))%bool then NoOverlap
        else match scan centre (fst sn) 0 (drop_before (at_t c0) sensors) with
             | Some out => Interpolated out
             | None => Raised
             end
    | _, _, _, _ => Raised
    end.
  (** The poses of the images of a camera, or of the records of a payload, if there are at least two (1222); [usbl] is the offset that usbl_offset returns for the track. *)
  Definition poses (usbl : list sample -> R * R) (os : list orientation) (vs : list velocity) (alts depths : list reading) (sensors : list (R * N)) : outcome :=
    match dead_reckoned m os vs alts depths with
    | None => Raised
    | Some tr => interpolate_sensor_list sensors (centre_track m (usbl (centre_track m (0, 0) tr)) tr)
    end.
End Sensors.
Arguments Raised {L N}. Arguments NoOverlap {L N}. Arguments Interpolated {L N} _.
