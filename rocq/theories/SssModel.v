(** The navigation for side scan sonar and the positions of the particle filter: sensors.py:1750-1783 (get_sidescan_header, to_sidescan_row),
    tools/csv_tools.py:236-256 (write_sidescan_csv) and process.py:1187-1213.

    A line is its text without the newline.  Numbers are rationals (a float formats as its exact value does; -0.0 is not modelled); a field
    that is None or a tuple makes format raise, and the thread that writes the file ends there with what has been written so far.
    strftime is given four digits for the year. *)
From Coq Require Import Ascii String.
From Verif Require Import PyBase NmeaModel TimeModel BagModel CsvModel.
From Coq Require Import Qround NArith.
Open Scope Q_scope.

Inductive field := Num (q : Q) | Missing | Pair (a b : Q).
Record state := mkstate { epoch : Q; latitude : field; longitude : field; yaw : field; roll : field; pitch : field; altitude_m : field; depth_m : field; x_velocity : field }.

(** "{:.nf}".format: the nearest multiple of 10^-n, of two the one with the even last digit *)
Definition nearest (q : Q) : Z :=
  let f := Qfloor q in
  let r := q - inject_Z f in
  if Qltb r (1 # 2) then f else if Qltb (1 # 2) r then (f + 1)%Z else if Z.even f then f else (f + 1)%Z.
Definition padded (n : nat) (z : Z) : text := map N_of_ascii (pad n z).
Definition fixed (n : nat) (q : Q) : text :=
  let u := (10 ^ Z.of_nat n)%Z in
  let m := nearest (Qabs q * inject_Z u) in
  (if Qltb q 0 then [45%N] else []) ++ show (Z.to_N (m / u)) ++ [46%N] ++ padded n (m mod u).
Definition format (n : nat) (f : field) : option text := match f with Num q => Some (fixed n q) | _ => None end.
(** time.strftime("%Y%m%d %H%M%S", time.gmtime(t)) *)
Definition date_text (c : civil) : text := padded 4 (c_y c) ++ padded 2 (c_mo c) ++ padded 2 (c_d c).
Definition clock_text (c : civil) : text := padded 2 (c_h c) ++ padded 2 (c_mi c) ++ padded 2 (c_s c).

Fixpoint all_of {A} (l : list (option A)) : option (list A) :=
  match l with [] => Some [] | Some a :: l => option_map (cons a) (all_of l) | None :: _ => None end.
Definition spaced (l : list text) : text := join 32%N l.
(** 1755-1783 *)
Definition sidescan_row (s : state) : option text :=
  let lat := match latitude s with Missing => Num 0 | f => f end in
  let lon := match latitude s with Missing => Num 0 | _ => longitude s end in
  let c := gmtime (epoch s) in
  option_map (fun cells => spaced (txt "M150" :: date_text c :: clock_text c :: cells))
    (all_of [format 6 lat; format 6 lon; format 3 (yaw s); format 3 (roll s); format 3 (pitch s); format 3 (altitude_m s); format 3 (depth_m s); format 3 (x_velocity s)]).
(** 1750-1753: the line is continued inside the quotes *)
Definition sidescan_header : text := txt "#Mission Date Time NorthDeg EastDeg HeadingDeg             RollDeg PitchDeg Altitude Depth Speed".
(** csv_tools.py:236-256: the lines of the file and whether the thread finished; [None]: no file *)
Fixpoint rows (data : list state) : list text * bool :=
  match data with
  | [] => ([], true)
  | s :: data => match sidescan_row s with Some r => let '(rs, ok) := rows data in (r :: rs, ok) | None => ([], false) end
  end.
Definition write_sidescan_csv (data : list state) (flag : bool) : option (list text * bool) :=
  if flag then match data with [] => None | _ => let '(rs, ok) := rows data in Some (sidescan_header :: rs, ok) end else None.

(** process.py:1187-1213.  [latlon e n]: metres_to_latlon from the mission's origin; [offset]: the horizontal part of body_to_inertial of
    the vehicle's origin seen from the DVL at the orientation of the state, an argument.  The first assignment takes the line before it as a
    statement of its own, so the longitude becomes the pair and the latitude stays None. *)
Record place := mkplace { northings : Q; eastings : Q; p_latitude : field; p_longitude : field }.
Definition at_dvl (latlon : Q -> Q -> Q * Q) (p : place) : place :=
  let '(a, b) := latlon (eastings p) (northings p) in mkplace (northings p) (eastings p) (p_latitude p) (Pair a b).
Definition at_centre (latlon : Q -> Q -> Q * Q) (offset : Q * Q) (p : place) : place :=
  let n := northings p + fst offset in
  let e := eastings p + snd offset in
  let '(a, b) := latlon e n in mkplace n e (Num a) (Num b).
(** str() of a field; [number] is str() of a float *)
Definition str (number : Q -> text) (f : field) : text :=
  match f with Num q => number q | Missing => txt "None" | Pair a b => [40%N] ++ number a ++ txt ", " ++ number b ++ [41%N] end.
