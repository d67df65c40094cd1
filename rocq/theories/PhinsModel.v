(** Model of the PHINS parser after the checksum test (see NmeaModel for that): auv_nav/parsers/
    parse_phins.py and the from_phins, valid, clear and export methods in auv_nav/sensors.py, for
    the "oplab" output format.  Numbers are exact rationals; a number field that is not a number
    (ValueError) is not modelled, time fields are kept as text.  The standard deviations of
    velocity, depth and altitude are functions of the value and left out. *)
From Coq Require Import Ascii.
From Verif Require Import PyBase TimeModel.
Open Scope Q_scope.

Definition vec : Type := (Q * Q * Q)%type.

(** A line by its header (sensors.py:49-60); fields the program ignores are left out. *)
Inductive pline :=
| Time (s : list ascii)                          (* TIME__ *)
| Heading (yaw : Q)                              (* $HEHDT *)
| Attitude (a b : Q)                             (* ATITUD: line[2], line[3] *)
| AttitudeStd (yaw roll pitch : Q)               (* STDHRP *)
| Dvl (v : vec) (s : list ascii)                 (* LOGIN_: line[2..4], line[6] *)
| Speed (east north up : Q)                      (* SPEED_ *)
| SpeedStd (east north up : Q)                   (* STDSPD *)
| Depth (d : Q) (s : list ascii)                 (* DEPIN_: line[2], line[3] *)
| LogDvl (altitude : Q)                          (* LOGDVL: line[4] *)
| Other.

Inductive category := Velocity | Orientation | DepthCat | AltitudeCat.

Inductive record :=
| RVelocity (stamp dvl : Q) (v : vec)
| RInertial (stamp : Q) (v : vec) (std : option vec)      (* north, east, down *)
| ROrientation (stamp : Q) (roll pitch yaw : Q) (std : vec)   (* roll, pitch, yaw *)
| RDepth (stamp own : Q) (depth : Q)
| RAltitude (stamp dvl : Q) (altitude : Q).

Section Phins.
  (** The date in the file name, the zone in hours and the clock offset in seconds. *)
  Variables (year month day : Z) (tz offset : Q).
  (** body_to_inertial(0, 0, yaw_offset, x, y, z): turns x and y, keeps z (PhinsProps.turn_third). *)
  Variable turn : Q -> Q -> Q * Q.

  Inductive clock := Raises | Bad | At (t : Q).
  (** parse_phins.py:31-35 *)
  Definition get (h m s ms : Z) : option Q :=
    match date_time_to_epoch year month day h m s tz 0 with
    | Some t => Some (t + inject_Z ms / 1000 + offset)
    | None => None
    end.
  (** sensors.py:345-365 and 922-934; parse_phins.py:41-55.  Hours and minutes are converted outside
      the try block. *)
  Definition own_clock (s : list ascii) : clock :=
    match py_int (slice 0 2 s), py_int (slice 2 4 s) with
    | Some h, Some m =>
        match py_int (slice 4 6 s) with
        | Some sec =>
            if (sec <? 60)%Z then
              match py_int (slice 7 10 s) with
              | Some ms => match get h m sec ms with Some t => At t | None => Bad end
              | None => Bad
              end
            else Bad
        | None => Bad
        end
    | _, _ => Raises
    end.
  (** parse_phins.py:37-58 *)
  Definition line_clock (s : list ascii) : clock :=
    if ((length s =? 10)%nat || (length s =? 13)%nat)%bool then own_clock s else Bad.

  (** The five sensor objects; None is Python's None. *)
  Record state := mkst {
    epoch : option Q;                                     (* set in all five at once, parse_phins.py:100-105 *)
    vel : option vec; dvl_time : option Q;                (* body velocity *)
    ivel : option vec; istd : option vec;                 (* inertial velocity *)
    roll : option Q; pitch : option Q; yaw : option Q; ostd : option vec;
    dep : option Q; dep_time : option Q;
    alt : option Q; alt_time : option Q }.
  Definition start : state := mkst None None None None None None None None None None None None None.

  Definition set_time (s : state) (t : option Q) : state :=
    mkst t (vel s) (dvl_time s) (ivel s) (istd s) (roll s) (pitch s) (yaw s) (ostd s) (dep s) (dep_time s) (alt s) (alt_time s).

  (** sensors.py:207-223 *)
  Definition body_from (s : state) (v : vec) (t : option Q) : state :=
    let '(x, y, z) := v in let '(x, y) := turn x y in
    mkst (epoch s) (Some (x, - y, - z)) t (ivel s) (istd s) (roll s) (pitch s) (yaw s) (ostd s) (dep s) (dep_time s) (alt s) (alt_time s).
  (** 152-168, 115-126: export clears. *)
  Definition body_export (s : state) : state * option record :=
    match epoch s, dvl_time s, vel s with
    | Some t, Some d, Some v =>
        (mkst (epoch s) None None (ivel s) (istd s) (roll s) (pitch s) (yaw s) (ostd s) (dep s) (dep_time s) (alt s) (alt_time s),
         Some (RVelocity t d v))
    | _, _, _ => (s, None)
    end.

  (** 521-534 *)
  Definition inertial_from (s : state) (l : pline) : state :=
    match l with
    | Speed e n u => mkst (epoch s) (vel s) (dvl_time s) (Some (n, e, - u)) (istd s) (roll s) (pitch s) (yaw s) (ostd s) (dep s) (dep_time s) (alt s) (alt_time s)
    | SpeedStd e n u => mkst (epoch s) (vel s) (dvl_time s) (ivel s) (Some (n, e, - u)) (roll s) (pitch s) (yaw s) (ostd s) (dep s) (dep_time s) (alt s) (alt_time s)
    | _ => s
    end.
  (** 492-519 *)
  Definition inertial_export (s : state) : state * option record :=
    match epoch s, ivel s with
    | Some t, Some v =>
        (mkst (epoch s) (vel s) (dvl_time s) None None (roll s) (pitch s) (yaw s) (ostd s) (dep s) (dep_time s) (alt s) (alt_time s),
         Some (RInertial t v (istd s)))
    | _, _ => (s, None)
    end.

  (** 630-638: only if there is a heading; the third component is left alone up to 360. *)
  Definition clamp360 (y : Q) : Q := let y := if Qltb 360 y then y - 360 else y in if Qltb y 0 then y + 360 else y.
  (** 698-714, 640-649 *)
  Definition orient_from (s : state) (l : pline) : state :=
    match l with
    | Heading y => mkst (epoch s) (vel s) (dvl_time s) (ivel s) (istd s) (roll s) (pitch s) (Some y) (ostd s) (dep s) (dep_time s) (alt s) (alt_time s)
    | Attitude a b =>
        let r := - a in let p := - b in
        let '(r, p, y) := match yaw s with Some y => let '(r, p) := turn r p in (r, p, Some (clamp360 y)) | None => (r, p, None) end in
        mkst (epoch s) (vel s) (dvl_time s) (ivel s) (istd s) (Some r) (Some p) y (ostd s) (dep s) (dep_time s) (alt s) (alt_time s)
    | AttitudeStd y r p =>
        let '(r, p) := turn r p in
        mkst (epoch s) (vel s) (dvl_time s) (ivel s) (istd s) (roll s) (pitch s) (yaw s) (Some (r, p, y)) (dep s) (dep_time s) (alt s) (alt_time s)
    | _ => s
    end.
  (** 617-628; clear keeps the standard deviations. *)
  Definition orient_export (s : state) : state * option record :=
    match epoch s, roll s, pitch s, yaw s, ostd s with
    | Some t, Some r, Some p, Some y, Some d =>
        (mkst (epoch s) (vel s) (dvl_time s) (ivel s) (istd s) None None None (ostd s) (dep s) (dep_time s) (alt s) (alt_time s),
         Some (ROrientation t r p y d))
    | _, _, _, _, _ => (s, None)
    end.

  (** 918-938: a bad time leaves the depth's time as it was. *)
  Definition depth_from (s : state) (d : Q) (t : option Q) : state :=
    mkst (epoch s) (vel s) (dvl_time s) (ivel s) (istd s) (roll s) (pitch s) (yaw s) (ostd s)
         (Some d) (match t with Some _ => t | None => dep_time s end) (alt s) (alt_time s).
  Definition depth_export (s : state) : state * option record :=
    match epoch s, dep_time s, dep s with
    | Some t, Some o, Some d =>
        (mkst (epoch s) (vel s) (dvl_time s) (ivel s) (istd s) (roll s) (pitch s) (yaw s) (ostd s) None None (alt s) (alt_time s),
         Some (RDepth t o d))
    | _, _, _ => (s, None)
    end.

  (** 1070-1076 *)
  Definition altitude_from (s : state) (a : Q) : state :=
    mkst (epoch s) (vel s) (dvl_time s) (ivel s) (istd s) (roll s) (pitch s) (yaw s) (ostd s) (dep s) (dep_time s) (Some a) (dvl_time s).
  Definition altitude_export (s : state) : state * option record :=
    match epoch s, alt_time s, alt s with
    | Some t, Some d, Some a =>
        (mkst (epoch s) (vel s) (dvl_time s) (ivel s) (istd s) (roll s) (pitch s) (yaw s) (ostd s) (dep s) (dep_time s) None None,
         Some (RAltitude t d a))
    | _, _, _ => (s, None)
    end.

  (** parse_phins.py:183-232 [process_line]; [None]: an exception. *)
  Definition opt (c : clock) : option Q := match c with At t => Some t | _ => None end.
  Definition process (c : category) (s : state) (l : pline) : option (state * option record) :=
    match (match l with
           | Time x => match line_clock x with Raises => None | k => Some (set_time s (opt k)) end
           | _ => Some s
           end) with
    | None => None
    | Some s =>
        match c, l with
        | Velocity, Dvl v x => match own_clock x with Raises => None | k => Some (body_export (body_from s v (opt k))) end
        | Velocity, (Speed _ _ _ | SpeedStd _ _ _) => Some (inertial_export (inertial_from s l))
        | Velocity, _ => Some (s, None)
        | Orientation, _ => Some (orient_export (orient_from s l))
        | DepthCat, Depth d x => match own_clock x with Raises => None | k => Some (depth_export (depth_from s d (opt k))) end
        | DepthCat, _ => Some (s, None)
        | AltitudeCat, LogDvl a => Some (altitude_export (altitude_from s a))
        | AltitudeCat, Dvl v x => match own_clock x with Raises => None | k => Some (altitude_export (body_from s v (opt k))) end
        | AltitudeCat, _ => Some (s, None)
        end
    end.
  (** parse_phins.py:136-152 *)
  Fixpoint run (c : category) (s : state) (ls : list pline) : option (list record) :=
    match ls with
    | [] => Some []
    | l :: ls =>
        match process c s l with
        | Some (s, r) => match run c s ls with Some out => Some (match r with Some x => x :: out | None => out end) | None => None end
        | None => None
        end
    end.
  Definition parse (c : category) (ls : list pline) : option (list record) := run c start ls.
End Phins.
