(** Model of the text parsers parse_NOC_polpred.py:18-68, parse_tide_CTI.py:17-81, parse_NOC_nmea.py:16-73 (in
    auv_nav/parsers) and of Usbl.from_nmea (sensors.py:1333-1358), for ftype "oplab".  A file is the list of its lines,
    each with its line end; the zone in hours and the time offset in seconds are given.  Times and tide heights are
    rationals, positions reals.  [None] is an exception, which ends the whole parse. *)
From Coq Require Import Ascii String.
From Verif Require Import PyBase TimeModel.
From Coq Require Import Reals.
From Verif Require Import Ae2000Model.
Open Scope Z_scope.

(** * Python's int(text) and float(text): blanks around, a sign, digits, and for float a decimal point.  Underscores,
    exponents, "inf" and "nan" are not modelled. *)
Definition is_blank (c : ascii) : bool :=
  let n := N_of_ascii c in (((9 <=? n) && (n <=? 13)) || ((28 <=? n) && (n <=? 32)))%N%bool.
Fixpoint lstrip (s : text) : text := match s with c :: r => if is_blank c then lstrip r else s | [] => [] end.
Definition strip (s : text) : text := rev (lstrip (rev (lstrip s))).
Definition signed (s : text) : bool * text :=
  match s with
  | c :: r => if Ascii.eqb c "-"%char then (true, r) else if Ascii.eqb c "+"%char then (false, r) else (false, s)
  | [] => (false, [])
  end.
Definition int_text (s : text) : option Z :=
  let '(neg, d) := signed (strip s) in
  match py_int d with Some n => Some (if neg then - n else n) | None => None end.
Definition float_text (s : text) : option Q :=
  let '(neg, d) := signed (strip s) in
  match
    match split_at "."%char d with
    | [i] => option_map inject_Z (py_int i)
    | [i; f] => option_map (fun n => (inject_Z n / inject_Z (10 ^ Z.of_nat (length f)))%Q) (py_int (i ++ f))
    | _ => None
    end
  with
  | Some q => Some (if neg then (- q)%Q else q)
  | None => None
  end.

(** * Tides *)
(** sensors.py:1531-1541: the only positional argument of Tide is the factor; the parsers pass std_offset. *)
Record tide := mktide { td_t : Q; td_height : Q; td_std : Q }.
Definition tide_record (std_offset t h : Q) : tide := mktide t h (h * std_offset)%Q.

(** parse_NOC_polpred.py:50-63 *)
Definition polpred_line (tz timeoffset std_offset : Q) (line : text) : option tide :=
  bind (int_text (slice 0 2 line)) (fun dd => bind (int_text (slice 3 5 line)) (fun mm =>
  bind (int_text (slice 6 10 line)) (fun yyyy => bind (int_text (slice 12 14 line)) (fun hour =>
  bind (int_text (slice 15 17 line)) (fun mins =>
  bind (date_time_to_epoch yyyy mm dd hour mins 0 tz 0) (fun t =>
  bind (float_text (slice 22 28 line)) (fun h =>
  Some (tide_record std_offset (t + timeoffset)%Q h)))))))).

(** str.find of one character from a position: [None] is -1. *)
Fixpoint find_char (c : ascii) (s : text) : option nat :=
  match s with
  | [] => None
  | x :: r => if Ascii.eqb x c then Some O else option_map S (find_char c r)
  end.
(** parse_tide_CTI.py:74-76: line[_ini:_end] where _ini is 0 when there is no comma, and _end is -1, the end of the
    slice before the last character, when there is no second one. *)
Definition cti_cell (line : text) : text :=
  let ini := match find_char ","%char line with Some i => S i | None => O end in
  match find_char ","%char (skipn ini line) with
  | Some k => slice ini (ini + k) line
  | None => slice ini (length line - 1) line
  end.
(** parse_tide_CTI.py:57-77 *)
Definition cti_line (tz timeoffset std_offset : Q) (line : text) : option tide :=
  bind (int_text (slice 0 4 line)) (fun yyyy => bind (int_text (slice 5 7 line)) (fun mm =>
  bind (int_text (slice 8 10 line)) (fun dd => bind (int_text (slice 11 13 line)) (fun hour =>
  bind (int_text (slice 14 16 line)) (fun mins => bind (int_text (slice 17 19 line)) (fun secs =>
  bind (date_time_to_epoch yyyy mm dd hour mins secs tz 0) (fun t =>
  bind (float_text (cti_cell line)) (fun h =>
  Some (tide_record std_offset (t + timeoffset)%Q h))))))))).

Fixpoint all_lines {A} (f : text -> option A) (lines : list text) : option (list A) :=
  match lines with
  | [] => Some []
  | l :: lines => bind (f l) (fun a => bind (all_lines f lines) (fun r => Some (a :: r)))
  end.
(** polpred 46-66, CTI 51-80: readlines()[6:] of every file. *)
Fixpoint tide_files (f : text -> option tide) (files : list (list text)) : option (list tide) :=
  match files with
  | [] => Some []
  | lines :: files => bind (all_lines f (skipn 6 lines)) (fun a => bind (tide_files f files) (fun r => Some (a ++ r)))
  end.
Definition parse_polpred (tz timeoffset std_offset : Q) := tide_files (polpred_line tz timeoffset std_offset).
Definition parse_cti (tz timeoffset std_offset : Q) := tide_files (cti_line tz timeoffset std_offset).

(** * USBL fixes in NMEA sentences *)
(** The label of the beacon in mission.yaml: a number or a text (mission.py:241, 261-264). *)
Inductive label := LNumber (n : Z) | LText (s : text).
(** What pynmea2 reads in a sentence: the station as text, the position in degrees, the altitude in metres. *)
Record gga := mkgga { g_station : text; g_lat : R; g_lon : R; g_alt : R }.
Record fix_ := mkfix { f_t : Q; f_lat : R; f_lon : R; f_depth : R; f_north : R; f_east : R; f_distance : R;
  f_north_std : R; f_east_std : R; f_depth_std : R; f_lat_std : R; f_lon_std : R }.

Section Nmea.
  (** pynmea2.parse and the geodesic solver: distance in metres and bearing in degrees from the second point to the first. *)
  Variable pynmea : text -> option gga.
  Variable latlon_to_metres : R -> R -> R -> R -> R * R.
  Variables lat_ref lon_ref std_factor std_offset : R.
  Variables tz timeoffset : Q.
  Variable beacon : label.

  (** sensors.py:1333-1358 *)
  Definition from_nmea (t : Q) (m : gga) : fix_ :=
    let depth := (- g_alt m)%R in
    let '(distance, bearing) := latlon_to_metres (g_lat m) (g_lon m) lat_ref lon_ref in
    let std := (std_factor * depth + std_offset)%R in
    let lat_std := (depth / 111111)%R in
    mkfix t (g_lat m) (g_lon m) depth
      (cos (bearing * PI / 180) * distance)%R (sin (bearing * PI / 180) * distance)%R (-1)%R
      std std std lat_std (lat_std * cos (g_lat m * PI / 180))%R.

  (** parse_NOC_nmea.py:52: a number is never equal to a text. *)
  Definition is_beacon (n : Z) : bool := match beacon with LNumber b => n =? b | LText _ => false end.
  (** 47-71 for one line: skipped, or a fix. *)
  Definition nmea_line (line : text) : option (option fix_) :=
    match split_at (ascii_of_nat 9) line with
    | _ :: sentence :: _ =>
        bind (pynmea sentence) (fun m => bind (int_text (g_station m)) (fun n =>
        if is_beacon n then
          let date := nth 0 (split_at " "%char line) [] in
          bind (nth_error (split_at ","%char sentence) 1) (fun clock =>
          bind (int_text (slice 6 10 date)) (fun yyyy => bind (int_text (slice 3 5 date)) (fun mm =>
          bind (int_text (slice 0 2 date)) (fun dd => bind (int_text (slice 0 2 clock)) (fun hour =>
          bind (int_text (slice 2 4 clock)) (fun mins => bind (int_text (slice 4 6 clock)) (fun secs =>
          bind (int_text (slice 7 10 clock)) (fun msec =>
          bind (date_time_to_epoch yyyy mm dd hour mins secs tz 0) (fun t =>
          Some (Some (from_nmea (t + inject_Z msec / 1000 + timeoffset)%Q m)))))))))))
        else Some None))
    | _ => Some None
    end.
  (** 44-73 *)
  Fixpoint nmea_lines (lines : list text) : option (list fix_) :=
    match lines with
    | [] => Some []
    | l :: lines => bind (nmea_line l) (fun o => bind (nmea_lines lines) (fun r =>
        Some (match o with Some x => x :: r | None => r end)))
    end.
  Definition parse_nmea (files : list (list text)) : option (list fix_) := nmea_lines (concat files).
End Nmea.
