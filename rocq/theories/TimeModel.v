(** Model of tools/time_conversions.py, oplab/filename_to_date.py and the
    timezone handling of oplab/mission.py and the parsers. *)
From Coq Require Import Ascii String Qround.
From Verif Require Import PyBase.
Open Scope Z_scope.

(** * Python's calendar (standard library [datetime], proleptic Gregorian; not
    part of /repo).  [ymd2ord] is datetime's [_ymd2ord]. *)
Definition is_leap (y : Z) : bool :=
  ((y mod 4 =? 0) && (negb (y mod 100 =? 0) || (y mod 400 =? 0)))%bool.
Definition days_in_month (y m : Z) : Z :=
  if m =? 2 then (if is_leap y then 29 else 28)
  else if (m =? 4) || (m =? 6) || (m =? 9) || (m =? 11) then 30 else 31.
Definition days_before_month (y m : Z) : Z :=
  nth (Z.to_nat m) [-1; 0; 31; 59; 90; 120; 151; 181; 212; 243; 273; 304; 334] 0
  + (if (2 <? m) && is_leap y then 1 else 0).
Definition days_before_year (y : Z) : Z :=
  (y - 1) * 365 + (y - 1) / 4 - (y - 1) / 100 + (y - 1) / 400.
Definition ymd2ord (y m d : Z) : Z := days_before_year y + days_before_month y m + d.

(** datetime(...) raises ValueError outside these ranges. *)
Definition valid_fields (y mo d h mi s us : Z) : bool :=
  ((1 <=? y) && (y <=? 9999) && (1 <=? mo) && (mo <=? 12) && (1 <=? d)
   && (d <=? days_in_month y mo) && (0 <=? h) && (h <? 24) && (0 <=? mi) && (mi <? 60)
   && (0 <=? s) && (s <? 60) && (0 <=? us) && (us <? 1000000))%bool.

(** Seconds since 1970-01-01 of a UTC date. *)
Definition utc_seconds (y mo d h mi s : Z) : Z :=
  (ymd2ord y mo d - 719163) * 86400 + h * 3600 + mi * 60 + s.

(** time_conversions.py:17-31 [date_time_to_epoch]; [None] is an exception
    (invalid field, or result outside years 1..9999).  The offset is exact (timedelta rounds it to
    microseconds). *)
Definition date_time_to_epoch (y mo d h mi s : Z) (tz : Q) (us : Z) : option Q :=
  if valid_fields y mo d h mi s us then
    let t := (inject_Z (utc_seconds y mo d h mi s) + inject_Z us / 1000000 - 3600 * tz)%Q in
    if (Qle_bool (inject_Z (-62135596800)) t && Qltb t (inject_Z 253402300800))%bool
    then Some t else None
  else None.

(** time.gmtime: date of a day number (day 0 = 1970-01-01): the latest year
    starting before it, then the latest month of that year starting before it. *)
Fixpoint latest (starts_before : Z -> bool) (candidates : list Z) : Z :=
  match candidates with
  | [] => 0
  | [c] => c
  | c :: rest => if starts_before c then c else latest starts_before rest
  end.
Definition civil_from_days (z : Z) : Z * Z * Z :=
  let n := z + 719163 in
  let e := 400 * n / 146097 in
  let y := latest (fun y => days_before_year y <? n) [e + 2; e + 1; e; e - 1] in
  let m := latest (fun m => days_before_year y + days_before_month y m <? n)
                  [12; 11; 10; 9; 8; 7; 6; 5; 4; 3; 2; 1] in
  (y, m, n - days_before_year y - days_before_month y m).

Record civil := mkCivil { c_y : Z; c_mo : Z; c_d : Z; c_h : Z; c_mi : Z; c_s : Z }.

Definition gmtime (t : Q) : civil :=
  let secs := Qfloor t in
  let '(y, m, d) := civil_from_days (secs / 86400) in
  let r := secs mod 86400 in
  mkCivil y m d (r / 3600) (r / 60 mod 60) (r mod 60).

(** Decimal text: digit characters. *)
Definition chr_digit (d : Z) : ascii := ascii_of_N (Z.to_N (48 + d)).
Definition digit_val (c : ascii) : option Z :=
  let v := Z.of_N (N_of_ascii c) - 48 in
  if (0 <=? v) && (v <=? 9) then Some v else None.
Fixpoint pad (w : nat) (n : Z) : list ascii :=
  match w with
  | O => []
  | S w' => pad w' (n / 10) ++ [chr_digit (n mod 10)]
  end.
(** int(text) on digit strings; [None] is ValueError.  (Python's int also takes
    a sign, blanks and underscores: not modelled.) *)
Fixpoint int_acc (acc : Z) (s : list ascii) : option Z :=
  match s with
  | [] => Some acc
  | c :: r => match digit_val c with Some v => int_acc (10 * acc + v) r | None => None end
  end.
Definition py_int (s : list ascii) : option Z :=
  match s with [] => None | _ => int_acc 0 s end.

(** time_conversions.py:78-79 [epoch_to_datetime]; [None] stands for years that
    do not have four digits, which strftime pads platform-dependently. *)
Definition strftime14 (c : civil) : option (list ascii) :=
  if (1000 <=? c_y c) && (c_y c <=? 9999) then
    Some (pad 4 (c_y c) ++ pad 2 (c_mo c) ++ pad 2 (c_d c)
          ++ pad 2 (c_h c) ++ pad 2 (c_mi c) ++ pad 2 (c_s c))
  else None.
Definition epoch_to_datetime (t : Q) : option (list ascii) := strftime14 (gmtime t).

(** time_conversions.py:54-55 [epoch_to_day]; [machine_offset] is the offset in
    seconds of the zone the computer is set to. *)
Definition epoch_to_day (machine_offset : Z) (t : Q) : Z * Z * Z :=
  let c := gmtime (t + inject_Z machine_offset) in (c_y c, c_mo c, c_d c).

Definition slice {A} (a b : nat) (l : list A) : list A := firstn (b - a) (skipn a l).

Definition bind {A B} (o : option A) (f : A -> option B) : option B :=
  match o with Some a => f a | None => None end.

(** time_conversions.py:58-67 [string_to_epoch]. *)
Definition string_to_epoch (s : list ascii) : option Q :=
  bind (py_int (slice 0 4 s)) (fun y =>
  bind (py_int (slice 4 6 s)) (fun mo =>
  bind (py_int (slice 6 8 s)) (fun d =>
  bind (py_int (slice 8 10 s)) (fun h =>
  bind (py_int (slice 10 12 s)) (fun mi =>
  bind (py_int (slice 12 14 s)) (fun sec =>
  date_time_to_epoch y mo d h mi sec 0 0)))))).

(** * FilenameToDate, filename_to_date.py:56-142 [string_to_epoch].
    [field f] collects the characters of the name under letter [f] (67-87). *)
Fixpoint field (f : ascii) (name fmt : list ascii) : list ascii :=
  match name, fmt with
  | n :: name', g :: fmt' => if Ascii.eqb g f then n :: field f name' fmt' else field f name' fmt'
  | _, _ => []
  end.

Inductive stamp :=
| Stamp (t : Q)             (* the decoded time *)
| FromEpochField            (* the [e] branch, 131-133: float(text) *)
| FromIndexFile             (* the [i] branch, 134-142 *)
| BadName.                  (* assertion or ValueError *)

Definition len_is (k : nat) (l : list ascii) : bool := (length l =? k)%nat.
Definition len_le (k : nat) (l : list ascii) : bool := (length l <=? k)%nat.

Definition filename_stamp (name fmt : list ascii) : stamp :=
  let fld c := field c name fmt in
  let index := fld "i"%char in
  let epoch := fld "e"%char in
  match index, epoch with
  | [], [] =>
      if (len_is 4 (fld "Y"%char) && len_is 2 (fld "M"%char) && len_is 2 (fld "D"%char)
          && len_is 2 (fld "h"%char) && len_le 2 (fld "m"%char) && len_le 2 (fld "s"%char)
          && len_le 3 (fld "f"%char) && len_le 3 (fld "u"%char))%bool
      then
        let zero_if_empty l := match l with [] => ["0"%char] | _ => l end in
        match
          bind (py_int (fld "Y"%char)) (fun y =>
          bind (py_int (fld "M"%char)) (fun mo =>
          bind (py_int (fld "D"%char)) (fun d =>
          bind (py_int (fld "h"%char)) (fun h =>
          bind (py_int (fld "m"%char)) (fun mi =>
          bind (py_int (fld "s"%char)) (fun s =>
          bind (py_int (zero_if_empty (fld "f"%char))) (fun ms =>
          bind (py_int (zero_if_empty (fld "u"%char))) (fun us =>
          let micro := ms * 1000 + us in
          if valid_fields y mo d h mi s micro
          then Some (inject_Z (utc_seconds y mo d h mi s) + inject_Z micro / 1000000)%Q
          else None))))))))
        with
        | Some t => Stamp t
        | None => BadName
        end
      else BadName
  | _, _ :: _ => FromEpochField
  | _ :: _, [] => FromIndexFile
  end.

(** * Timezones *)
Inductive tz_value := TzStr (s : string) | TzNum (h : Q).
Inductive tz_result := Hours (h : Q) | Unbound | Quit.

(** time_conversions.py:82-103 [read_timezone]: an unknown string leaves the
    local variable unassigned ([Unbound] is UnboundLocalError at line 103). *)
Definition read_timezone (v : tz_value) : tz_result :=
  match v with
  | TzStr s =>
      if (String.eqb s "utc" || String.eqb s "UTC")%bool then Hours 0
      else if (String.eqb s "cet" || String.eqb s "CET")%bool then Hours 0
      else if (String.eqb s "jst" || String.eqb s "JST")%bool then Hours 9
      else if (String.eqb s "bst" || String.eqb s "BST")%bool then Hours 1
      else Unbound
  | TzNum h => Hours h
  end.

(** mission.py:47-71 [TimeZoneEntry.load]; [parse_float] is Python's float on
    strings ([None] is ValueError, which quits). *)
Definition load_timezone (parse_float : string -> option Q) (v : tz_value) : tz_result :=
  match v with
  | TzStr s =>
      if (String.eqb s "utc" || String.eqb s "UTC")%bool then Hours 0
      else if (String.eqb s "jst" || String.eqb s "JST")%bool then Hours 9
      else if (String.eqb s "CET" || String.eqb s "cet")%bool then Hours 1
      else match parse_float s with Some h => Hours h | None => Quit end
  | TzNum h => Hours h
  end.

(** The clock correction of each parser: UTC epoch assigned to a clock reading
    [t] (seconds, read as if UTC) for zone [h] hours and [timeoffset] seconds in
    the mission file.  mission.py:70-71: offset_s = 3600*h + timeoffset. *)
Inductive tz_parser :=
| Gaps          (* parse_gaps.py:121-127 *)
| UsblDump      (* parse_usbl_dump.py:75-80 *)
| NocNmea       (* parse_NOC_nmea.py:66-68 *)
| NocPolpred    (* parse_NOC_polpred.py:58-60 *)
| TideCti       (* parse_tide_CTI.py:67-69 *)
| Phins         (* parse_phins.py:27-35 *)
| AcfrImages    (* parse_acfr_images.py:43-47 *)
| NtnuStereo    (* parse_ntnu_stereo.py:43-44 *)
| BiocamImages  (* parse_biocam_images.py:51-55 *)
| Seaxerocks    (* parse_seaxerocks_images.py:138-142 *)
| SonardyneObs  (* parse_sonardyne_mrt.py:620,703 *)
| SonardyneText (* parse_sonardyne_mrt.py:762,825 (also 884, 1007, 1130) *)
| Voyis         (* parse_voyis.py:57-58,74 *)
| Rdi           (* parse_rdi.py:50-59,105-109 *)
| Rosbag.       (* parse_rosbag.py:150-168, sensors.py:341 etc. *)

Definition clock_to_utc (p : tz_parser) (h timeoffset t : Q) : Q :=
  let offset_s := (h * 60 * 60 + timeoffset)%Q in
  match p with
  | Gaps | UsblDump | NocNmea | NocPolpred | TideCti | Phins | AcfrImages | NtnuStereo
  | BiocamImages | Seaxerocks => (t - 3600 * h + timeoffset)%Q
  | SonardyneObs => (t + (- h * 60 * 60 + timeoffset))%Q
  | SonardyneText | Voyis => (t + (- h * 60 * 60 - timeoffset))%Q
  | Rdi => (t + offset_s)%Q
  | Rosbag => (t - (h * 60 + offset_s))%Q
  end.
