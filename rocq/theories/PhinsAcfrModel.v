(** Model of the velocity branch of the PHINS parser for the "acfr" output format: auv_nav/parsers/
    parse_phins.py:154-211.  The sensor objects, the clocks and the way a line is read are those of
    PhinsModel; only the numbers of an RDI line are kept, not its text. *)
From Coq Require Import Ascii.
From Verif Require Import PyBase TimeModel PhinsModel.
Open Scope Q_scope.

(** A line, and the number in line[2] if it is a LOGDVL line (the sound velocity, sensors.py:1073;
    line[3], its correction, is not used). *)
Definition aline : Type := (pline * Q)%type.

(** The numbers of an RDI line (parse_phins.py:154-177). *)
Record rdi := mkrdi { r_time : Q; r_alt : Q; r_yaw : Q; r_pitch : Q; r_roll : Q; r_vel : vec; r_sound : Q }.

Section Acfr.
  Variables (year month day : Z) (tz offset : Q) (turn : Q -> Q -> Q * Q).

  (** The sensor objects and the sound velocity (sensors.py:1001). *)
  Definition astate : Type := (state * option Q)%type.
  Definition astart : astate := (start, None).

  (** 178-180, and sensors.py:152-159, 611-614, 995-1002 *)
  Definition clear (s : state) : state :=
    mkst (epoch s) None None (ivel s) (istd s) None None None (ostd s) (dep s) (dep_time s) None None.

  (** 206-211: valid() of the three objects (sensors.py:161-168, 616-622, 1004-1009), then
      build_rdi_acfr.  Pitch and the sound velocity are not looked at by valid(), so str(float(None))
      would raise: [None]. *)
  Definition build (s : astate) : option (astate * option rdi) :=
    let (s, sv) := s in
    match epoch s, vel s, dvl_time s, alt s, alt_time s, roll s, ostd s, yaw s with
    | Some _, Some v, Some t, Some a, Some _, Some r, Some _, Some y =>
        match pitch s, sv with
        | Some p, Some c => Some ((clear s, None), Some (mkrdi t a y p r v c))
        | _, _ => None
        end
    | _, _, _, _, _, _, _, _ => Some ((s, sv), None)
    end.

  (** 183-211 [process_line] with category "velocity" and output_format "acfr"; [None]: an exception. *)
  Definition read (s : state) (l : pline) : option state :=
    match l with
    | Time x => match line_clock year month day tz offset x with Raises => None | k => Some (set_time s (opt k)) end
    | Dvl v x => match own_clock year month day tz offset x with Raises => None | k => Some (body_from turn s v (opt k)) end
    | Speed _ _ _ | SpeedStd _ _ _ => Some (inertial_from s l)
    | LogDvl a => Some (altitude_from s a)
    | _ => Some (orient_from turn s l)
    end.
  Definition aprocess (s : astate) (l : aline) : option (astate * option rdi) :=
    match read (fst s) (fst l) with
    | Some s' => build (s', match fst l with LogDvl _ => Some (snd l) | _ => snd s end)
    | None => None
    end.
  (** 136-152 *)
  Fixpoint arun (s : astate) (ls : list aline) : option (list rdi) :=
    match ls with
    | [] => Some []
    | l :: ls =>
        match aprocess s l with
        | Some (s, r) => match arun s ls with Some out => Some (match r with Some x => x :: out | None => out end) | None => None end
        | None => None
        end
    end.
  Definition aparse (ls : list aline) : option (list rdi) := arun astart ls.
End Acfr.
