(** Model of the AE2000 parser, auv_nav/parsers/parse_ae2000.py:25-454, for ftype "oplab".  pandas has
    read the table: a row is its text in the second column ([None]: NaN) and its numbers.  Times are rationals
    and values reals; NaN among the values is modelled where the code looks for it (dvl_validBottom, Depth),
    and dvl_validBottom is an integer.  The checks of the file name only print (37-69; int of its digits is
    taken to succeed), the zone is read and ignored (71-75). *)
From Coq Require Import Ascii String.
From Verif Require Import PyBase TimeModel.
From Coq Require Import Reals.
From Verif Require Import FramesModel.

Notation text := (list ascii).
(** str.split(sep) *)
Fixpoint split_at (sep : ascii) (s : text) : list text :=
  match s with
  | [] => [[]]
  | c :: s => if Ascii.eqb c sep then [] :: split_at sep s
              else match split_at sep s with w :: ws => (c :: w) :: ws | [] => [[c]] end
  end.
Inductive outcome := Raises | Skips | At (t : Q).
(** 90-123 for one row; lists index with IndexError ([Raises]). *)
Definition read_time (timeoffset : Q) (cell : option text) : outcome :=
  match cell with
  | None => Skips
  | Some s =>
      let datetime := split_at " "%char s in
      let date := split_at "/"%char (nth 0 datetime []) in
      match nth_error date 0, nth_error date 1, nth_error date 2, nth_error datetime 1 with
      | Some y, Some mo, Some d, Some clock =>
          match py_int y, py_int mo, py_int d with
          | Some y, Some mo, Some d =>
              match split_at ":"%char clock with
              | h :: mi :: sec :: _ =>
                  let s_ms := split_at "."%char sec in
                  match py_int h, py_int mi, py_int (nth 0 s_ms []), nth_error s_ms 1 with
                  | Some h, Some mi, Some s, Some ms =>
                      match py_int ms with
                      | Some ms => match date_time_to_epoch y mo d h mi s 0 0 with
                                   | Some t => At (t + inject_Z ms / 1000 + timeoffset)%Q
                                   | None => Raises end
                      | None => Raises
                      end
                  | _, _, _, _ => Raises
                  end
              | _ => Skips
              end
          | _, _, _ => Raises
          end
      | _, _, _, _ => Raises
      end
  end.

Record arow := mkarow { a_time : option text; a_valid : option Z; a_surge : R; a_sway : R; a_heave : R;
  a_range : R; a_roll : R; a_pitch : R; a_yaw : R; a_depth : option R }.
(** mission.yaml: the time offset of each section, and factor and offset of the standard deviations. *)
Record amission := mkamission { off_velocity : Q; off_orientation : Q; off_depth : Q; off_altitude : Q; std_factor : R; std_offset : R }.
Record avelocity := mkavelocity { av_t : Q; av_x : R; av_y : R; av_z : R; av_x_std : R; av_y_std : R; av_z_std : R }.
Record aorientation := mkaorientation { ao_t : Q; ao_heading : R; ao_roll : R; ao_pitch : R; ao_heading_std : R; ao_roll_std : R; ao_pitch_std : R }.
Record adepth := mkadepth { ad_t : Q; ad_depth : R; ad_std : R }.
Record aaltitude := mkaaltitude { aa_t : Q; aa_altitude : R; aa_std : R }.

(** The loop, 91-451: [one] treats a row with a time; it may skip it, and quits or raises with [None]. *)
Fixpoint loop {S V} (offset : Q) (one : S -> Q -> arow -> option (S * option V)) (s : S) (rows : list arow) : option (list V) :=
  match rows with
  | [] => Some []
  | r :: rows =>
      match read_time offset (a_time r) with
      | Raises => None
      | Skips => loop offset one s rows
      | At t =>
          match one s t r with
          | None => None
          | Some (s, o) =>
              match loop offset one s rows with
              | None => None
              | Some out => Some (match o with Some v => v :: out | None => out end)
              end
          end
      end
  end.

Open Scope R_scope.
Definition gtb (a b : R) : bool := if Rlt_dec b a then true else false.
Definition deviation (m : amission) (v : R) : R := Rabs v * std_factor m + std_offset m.
(** 126-187 *)
Definition one_velocity (m : amission) (dvl : R * R * R) (s : unit) (t : Q) (r : arow) : option (unit * option avelocity) :=
  let '(roll, pitch, yaw) := dvl in
  match a_valid r with
  | Some 1%Z =>
      let '(x, y, z) := body_to_inertial roll pitch yaw (a_surge r / 1000, a_sway r / 1000, a_heave r / 1000) in
      Some (s, Some (mkavelocity t x y z (deviation m x) (deviation m y) (deviation m z)))
  | _ => Some (s, None)
  end.
(** 189-234 *)
Definition one_orientation (m : amission) (ins : R * R * R) (s : unit) (t : Q) (r : arow) : option (unit * option aorientation) :=
  let '(roll, pitch, yaw) := ins in
  if Req_EM_T roll 0 then if Req_EM_T pitch 0 then
    let h := a_yaw r + yaw in
    let h := if gtb h 360 then h - 360 else h in
    let h := if gtb 0 h then h + 360 else h in
    Some (s, Some (mkaorientation t h (a_roll r) (a_pitch r) (deviation m (a_yaw r)) (deviation m (a_roll r)) (deviation m (a_pitch r))))
  else None else None.
(** 267-294; the state is previous_depth. *)
Definition one_depth (m : amission) (previous : R) (t : Q) (r : arow) : option (R * option adepth) :=
  match a_depth r with
  | None => Some (previous, None)
  | Some d => if gtb d 0 then if Req_EM_T d previous then Some (previous, None) else Some (d, Some (mkadepth t d (deviation m d))) else Some (previous, None)
  end.
(** 296-331 *)
Definition one_altitude (m : amission) (s : unit) (t : Q) (r : arow) : option (unit * option aaltitude) :=
  match a_valid r with
  | Some 1%Z => Some (s, Some (mkaaltitude t (a_range r) (a_range r * std_factor m + std_offset m)))
  | _ => Some (s, None)
  end.
(** The offset of the velocity section is used for all (32). *)
Definition parse_velocity (m : amission) (dvl : R * R * R) (rows : list arow) := loop (off_velocity m) (one_velocity m dvl) tt rows.
Definition parse_orientation (m : amission) (ins : R * R * R) (rows : list arow) := loop (off_velocity m) (one_orientation m ins) tt rows.
Definition parse_depth (m : amission) (rows : list arow) := loop (off_velocity m) (one_depth m) 0 rows.
Definition parse_altitude (m : amission) (rows : list arow) := loop (off_velocity m) (one_altitude m) tt rows.
