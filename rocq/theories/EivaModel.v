(** Model of the EIVA NaviPac parser, auv_nav/parsers/parse_eiva_navipac.py:13-106, with
    from_eiva_navipac of auv_nav/sensors.py.  A log is the list of its lines; the files are taken in the
    order of the directory listing, one after the other.  strptime and timestamp, float and int, and
    pynmea2.parse are arguments ([None]: they raise).  The standard deviations and the position in metres
    are functions of the values and left out.  For altitude and velocity the parser always raises (the file
    path is None): not modelled. *)
From Coq Require Import Ascii String.
From Verif Require Import PyBase NmeaModel CsvModel FilesModel.
Local Open Scope Q_scope.
Local Open Scope list_scope.

(** str.split() *)
Fixpoint words_from (word s : text) : list text :=
  match s with
  | [] => match word with [] => [] | _ => [rev word] end
  | c :: s => if is_space c then match word with [] => words_from [] s | _ => rev word :: words_from [] s end
              else words_from (c :: word) s
  end.
Definition words (s : text) : list text := words_from [] s.
(** str.startswith *)
Definition starts (p s : text) : bool := text_eqb (firstn (length p) s) p.
Definition cut (a b : nat) (s : text) : text := firstn (b - a) (skipn a s).

(** mission.usbl.label as loaded from the mission file: its text, and its value if it is a number. *)
Record label := mklabel { l_text : text; l_int : option Z }.

(** pynmea2.parse of a $PRDID sentence: raises; a field is missing; a field is not a number; the values. *)
Inductive nmea := Bad | Missing | NotNumber | Angles (roll pitch heading : Q).

Section Eiva.
  Variables (date : text -> option Q) (float : text -> option Q) (int : text -> option Z) (prdid : text -> nmea).
  (** body_to_inertial(0, 0, yaw_offset, roll, pitch, yaw): turns the first two, keeps the third. *)
  Variable turn : Q -> Q -> Q * Q.
  Variable id : label.

  (** 69-78 and sensors.py:887-898: no record when the time is 0. *)
  Definition depth_line (line : text) : option (list (Q * Q)) :=
    if text_eqb (cut 0 14 line) (txt "D     " ++ l_text id ++ txt "  19  1") then
      match nth_error (words line) 4 with
      | None => None
      | Some w =>
          match date w with
          | None => None
          | Some t =>
              if Qeq_bool t 0 then Some []
              else match nth_error (words line) 5 with
                   | None => None
                   | Some w => match float w with Some d => Some [(t, d)] | None => None end
                   end
          end
      end
    else Some [].

  (** 79-88 and sensors.py:1272-1284: time, latitude, longitude, depth. *)
  Definition usbl_line (line : text) : option (list (Q * Q * Q * Q)) :=
    if starts (txt "P  D") line then
      match int (cut 6 10 line) with
      | None => None
      | Some n =>
          if match l_int id with Some k => (n =? k)%Z | None => false end then
            match nth_error (words line) 3 with
            | None => None
            | Some w =>
                match date w with
                | None => None
                | Some t =>
                    if Qeq_bool t 0 then Some []
                    else match nth_error (words line) 7, nth_error (words line) 8, nth_error (words line) 6 with
                         | Some la, Some lo, Some h =>
                             match float la, float lo, float h with
                             | Some la, Some lo, Some h => Some [(t, la, lo, - h)]
                             | _, _, _ => None
                             end
                         | _, _, _ => None
                         end
                end
            end
          else Some []
      end
    else Some [].

  (** 56-68 and sensors.py:630-677.  [held]: the roll, pitch and yaw kept in the object; cleared by the
      export of a valid record. *)
  Definition wrap (yaw : Q) : Q :=
    let yaw := if Qltb 360 yaw then yaw - 360 else yaw in if Qltb yaw 0 then yaw + 360 else yaw.
  Definition attitude_line (held : option (Q * Q * Q)) (line : text) : option (option (Q * Q * Q) * list (Q * Q * Q * Q)) :=
    if (starts (txt "R132  4") line && contains (txt "$PRDID") line)%bool then
      match nth_error (words line) 2 with
      | None => None
      | Some w =>
          match date w with
          | None => None
          | Some t =>
              if Qeq_bool t 0 then Some (held, [])     (* epoch_timestamp None: not valid *)
              else match nth_error (words line) 3 with
                   | None => None
                   | Some w =>
                       let held' :=
                         match prdid w with
                         | Bad => None
                         | Missing => Some held
                         | NotNumber => Some None
                         | Angles r p h => let '(r, p) := turn r p in Some (Some (r, p, wrap h))
                         end in
                       match held' with
                       | None => None
                       | Some None => Some (None, [])
                       | Some (Some (r, p, y)) => Some (None, [(t, r, p, y)])
                       end
                   end
          end
      end
    else Some (held, []).

  Fixpoint each {A} (f : text -> option (list A)) (lines : list text) : option (list A) :=
    match lines with
    | [] => Some []
    | l :: lines => match f l, each f lines with Some a, Some b => Some (a ++ b) | _, _ => None end
    end.
  Definition parse_depth (lines : list text) := each depth_line lines.
  Definition parse_usbl (lines : list text) := each usbl_line lines.
  Fixpoint parse_attitude (held : option (Q * Q * Q)) (lines : list text) : option (list (Q * Q * Q * Q)) :=
    match lines with
    | [] => Some []
    | l :: lines =>
        match attitude_line held l with
        | None => None
        | Some (held, out) => option_map (app out) (parse_attitude held lines)
        end
    end.
End Eiva.
