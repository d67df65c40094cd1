(** Model of the reader of JAMSTEC's USBL logs,
    src/auv_nav/parsers/parse_usbl_dump.py:21-218, as a function from the lines of the
    file to the list of records (or nothing, when an exception ends the parsing).

    Texts are lists of code points.  int(), float(), date_time_to_epoch and the two
    geodesic conversions are arguments; sin and cos at 151-158 are part of [to_metres].
    The ship's part of a record is the constant 0 (137-141) and left out, as are the
    constant strings of the JSON entry. *)
From Verif Require Import PyBase NmeaModel LatlonModel.
Open Scope Q_scope.

Definition dash : N := 45. Definition colon : N := 58. Definition equals : N := 61.

Record fix_ := mkfix {
  f_t : Q;                          (* epoch_timestamp *)
  f_lat : Q; f_lat_std : Q; f_lon : Q; f_lon_std : Q;
  f_north : Q; f_east : Q; f_depth : Q;
  f_std : Q;                        (* northings_std, eastings_std and depth_std *)
  f_distance : Q;
  f_lateral : Q; f_bearing : Q }.   (* only in the acfr text *)

Inductive outcome := Skip | Fix (f : fix_) | Raise.

Section Dump.
  Variable int_of : text -> option Z.
  Variable float_of : text -> option Q.
  (** date_time_to_epoch(yyyy, mm, dd, hour, mins, secs, timezone_offset); [None]: ValueError *)
  Variable to_epoch : Z -> Z -> Z -> Z -> Z -> Z -> Q -> option Q.
  (** metres_to_latlon(latitude, longitude, eastings, northings) *)
  Variable move : Q -> Q -> Q -> Q -> Q * Q.
  (** 145-158: northings and eastings from the reference, from latlon_to_metres *)
  Variable to_metres : Q -> Q -> Q -> Q -> Q * Q.
  (** 27-40: the settings of the mission file *)
  Variables std_factor std_offset timezone_offset timeoffset latitude_reference longitude_reference : Q.
  Variable label : text.

  Definition int_q (s : text) : option Q := option_map inject_Z (int_of s).

  (** three integers: 59-64 and 66-71 *)
  Definition three (sep : N) (s : text) : option (Z * Z * Z) :=
    match split sep s with
    | a :: b :: c :: _ => match int_of a, int_of b, int_of c with Some a, Some b, Some c => Some (a, b, c) | _, _, _ => None end
    | _ => None
    end.

  (** 59-80 *)
  Definition time_of (fields : list text) : option Q :=
    match fields with
    | date :: time :: _ =>
        match three dash date, three colon time with
        | Some (y, m, d), Some (h, mi, s) => option_map (fun e => e + inject_Z 0 / 1000 + timeoffset) (to_epoch y m d h mi s timezone_offset)
        | _, _ => None
        end
    | _ => None
    end.

  (** [field.split("=")[1]] as a float: 106-119 *)
  Definition named (fields : list text) (i : nat) : option Q :=
    match nth_error fields i with
    | Some s => match split equals s with _ :: v :: _ => float_of v | _ => None end
    | None => None
    end.

  (** 55-189 *)
  Definition read_line (line : text) : outcome :=
    let fields := split comma (strip line) in
    match nth_error fields 2 with
    | None => Raise
    | Some name =>
        if text_eqb name label then
          match time_of fields, nth_error fields 6 with
          | Some t, Some [] => Skip
          | Some t, Some place =>
              match dump_latitude int_q float_of place, nth_error fields 7 with
              | Some lat, Some place' =>
                  match dump_longitude int_q float_of place', named fields 8, named fields 11, named fields 9, named fields 10 with
                  | Some lon, Some depth, Some distance, Some lateral, Some bearing =>
                      let std := std_factor * distance + std_offset in
                      let moved := move lat lon std std in
                      let ne := to_metres lat lon latitude_reference longitude_reference in
                      Fix (mkfix t lat (lat - fst moved) lon (lon - snd moved) (fst ne) (snd ne) depth std distance lateral bearing)
                  | _, _, _, _, _ => Raise
                  end
              | _, _ => Raise
              end
          | _, _ => Raise
          end
        else Skip
    end.

  (** 53-55 and 189: all lines in order, until one raises *)
  Fixpoint read_file (lines : list text) : option (list fix_) :=
    match lines with
    | [] => Some []
    | l :: more =>
        match read_line l with
        | Raise => None
        | Skip => read_file more
        | Fix f => option_map (cons f) (read_file more)
        end
    end.

  (** 191-216: with ftype acfr one text line per fix, concatenated *)
  Definition read_acfr (fix_line : fix_ -> text) (lines : list text) : option text :=
    option_map (fun fs => concat (map fix_line fs)) (read_file lines).
End Dump.
