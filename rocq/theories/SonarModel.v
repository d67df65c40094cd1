(** Model of auv_nav/parsers/parse_sonardyne_mrt.py: the MRT logs (parse_mrt_csv 476-554, find_closest_observations 557-605,
    parse_sonardyne_mrt 608-744) and the four GGA variants (242-473, 746-1235).  A file is the list of its lines with their line ends.
    [None] is an exception, which ends the whole parse. *)
From Coq Require Import Ascii String.
From Verif Require Import PyBase TimeModel.
From Coq Require Import Reals.
From Verif Require Import Ae2000Model NocModel SortQ.
Open Scope Z_scope.

Definition txt (s : string) : text := list_ascii_of_string s.
Fixpoint same (a b : text) : bool :=
  match a, b with [], [] => true | x :: a, y :: b => (Ascii.eqb x y && same a b)%bool | _, _ => false end.

(** * Values of a line (484-498) *)
(** A piece that begins with a space is joined to the value before; [values[-1]] of an empty list raises. *)
Fixpoint join (values raw : list text) : option (list text) :=
  match raw with
  | [] => Some values
  | r :: raw =>
      match r with
      | c :: _ => if Ascii.eqb c " "%char then
                    match rev values with [] => None | v :: vs => join (rev vs ++ [v ++ ","%char :: r]) raw end
                  else join (values ++ [r]) raw
      | [] => join (values ++ [r]) raw
      end
  end.
Definition values_of (line : text) : option (list text) :=
  bind (join [] (split_at ","%char line)) (fun vs =>
  match rev vs with [] => None | v :: r => Some (rev r ++ [strip v]) end).

(** * Observations *)
(** Only positions and headings are used later; everything else is [Other].  A time that strptime does not accept (no stamp, so that the
    sort raises) is left out. *)
Inductive obs :=
| LatLong (source : text) (t : Q) (latitude longitude altitude : R)
| Attitude (source : text) (t : Q) (heading : R)
| Other.
(** Numbers of values of the classes 43-240, without the name *)
Definition arities : list (text * nat) :=
  [(txt "AccelerationObs", 15); (txt "PitchRollObs", 13); (txt "PitchRollHeadingObs", 15); (txt "DisplacementObs", 15); (txt "DepthObs", 11);
   (txt "HeadingObs", 11); (txt "GPSLatLongObs", 20); (txt "LatLongObs", 15); (txt "GridPositionObs", 18); (txt "USBLVectorObs", 19);
   (txt "VelocityObs", 15); (txt "Event", 11); (txt "EstimateTrackerMetrics", 16); (txt "Alarm", 17); (txt "AlarmStateChange", 16)]%nat.
Fixpoint lookup (k : text) (l : list (text * nat)) : option nat :=
  match l with [] => None | (n, a) :: l => if same k n then Some a else lookup k l end.
Inductive effect := Raise | Skip | Add (o : obs).

Section Mrt.
  (** strptime(...).timestamp() of the time texts and float() of the numbers *)
  Variable stamp : text -> Q.
  Variable number : text -> R.
  Definition cell (i : nat) (values : list text) : text := nth i values [].
  (** 499-553 for one line; [previous]: the variable obs.
      USBLRangeObs (520-534): the slices 11:39, 40:44, 45:64 and 70:89 must have 28, 4, 19 and 19 values; the class takes 9 + 10 values and
      gets 9 + 3 + 5 + 1 + (what 89:91 has), which is 19 only if there are 90 values. *)
  Definition read_line (previous : option obs) (values : list text) : effect :=
    let kind := cell 0 values in
    match lookup kind arities with
    | Some n =>
        if (length values =? S n)%nat then
          Add (if same kind (txt "LatLongObs") then
                 LatLong (cell 3 values) (stamp (cell 7 values)) (number (cell 10 values)) (number (cell 11 values)) (number (cell 12 values))
               else if same kind (txt "PitchRollHeadingObs") then
                 Attitude (cell 3 values) (stamp (cell 7 values)) (number (cell 12 values))
               else Other)
        else Raise
    | None =>
        if same kind (txt "USBLRangeObs") then if (length values =? 90)%nat then Add Other else Raise
        else if same kind (txt "Time") then if (4 <? length values)%nat then Add Other else Raise
        else if same kind (txt "JobData") then match previous with Some o => Add o | None => Raise end
        else Skip
    end.
  (** 481-554: lines 1 to 35 are skipped *)
  Fixpoint read_lines (i : nat) (previous : option obs) (lines : list text) : option (list obs) :=
    match lines with
    | [] => Some []
    | l :: lines =>
        if ((0 <? i) && (i <? 36))%nat%bool then read_lines (S i) previous lines
        else bind (values_of l) (fun values =>
          match read_line previous values with
          | Raise => None
          | Skip => read_lines (S i) previous lines
          | Add o => bind (read_lines (S i) (Some o) lines) (fun r => Some (o :: r))
          end)
    end.
  Definition parse_mrt_csv (lines : list text) : option (list obs) := read_lines 0 None lines.

  (** * Association (557-605) *)
  Record position := mkposition { p_t : Q; p_lat : R; p_lon : R; p_alt : R }.
  Definition position_of (source : text) (o : obs) : list position :=
    match o with LatLong s t la lo al => if same s source then [mkposition t la lo al] else [] | _ => [] end.
  Definition heading_of (o : obs) : list (Q * R) :=
    match o with Attitude s t h => if same s (txt "MRT-USBL") then [(t, h)] else [] | _ => [] end.
  (** 593-599: the index as the rest of the list *)
  Fixpoint advance {A} (key : A -> Q) (t : Q) (l : list A) : list A :=
    match l with x :: ((_ :: _) as r) => if Qltb (key x) t then advance key t r else l | _ => l end.
  (** 582-604; without ship positions or without headings the loop ends at once *)
  Fixpoint associate (auvs ships : list position) (headings : list (Q * R)) : list (position * option (position * (Q * R))) :=
    match auvs with
    | [] => []
    | a :: auvs =>
        match advance p_t (p_t a) ships, advance fst (p_t a) headings with
        | (s :: _) as ships', (h :: _) as headings' => (a, Some (s, h)) :: associate auvs ships' headings'
        | _, _ => (a, None) :: associate auvs ships headings
        end
    end.
  Definition find_closest (l : list obs) : list (position * option (position * (Q * R))) :=
    associate (qsort p_t (flat_map (position_of (txt "AUV 1")) l)) (qsort p_t (flat_map (position_of (txt "GNSS 1")) l)) (qsort fst (flat_map heading_of l)).

  (** * Records (651-743) *)
  (** distance in metres and bearing in degrees from the second point to the first; metres (north, east) from a point to degrees *)
  Variable latlon_to_metres : R -> R -> R -> R -> R * R.
  Variable metres_to_latlon : R -> R -> R -> R -> R * R.
  Variables lat_ref lon_ref std_factor std_offset : R.
  Variables tz timeoffset : Q.
  Record usbl := mkusbl { u_t : Q; u_ship_lat : R; u_ship_lon : R; u_ship_north : R; u_ship_east : R; u_ship_heading : R;
    u_lat : R; u_lat_std : R; u_lon : R; u_lon_std : R; u_north : R; u_north_std : R; u_east : R; u_east_std : R; u_depth : R; u_depth_std : R; u_distance : R }.
  Definition placed (lat lon : R) : R * R :=
    let '(d, b) := latlon_to_metres lat lon lat_ref lon_ref in ((cos (b * PI / 180) * d)%R, (sin (b * PI / 180) * d)%R).
  Definition record (a : position) (s : position) (h : Q * R) : usbl :=
    let depth := (- p_alt a)%R in
    let lateral := fst (latlon_to_metres (p_lat a) (p_lon a) (p_lat s) (p_lon s)) in
    let distance := sqrt (lateral * lateral + depth * depth) in
    let std := (std_factor * distance + std_offset)%R in
    let '(la, lo) := metres_to_latlon (Rabs (p_lat a)) (Rabs (p_lon a)) std std in
    mkusbl (p_t a + (- tz * 60 * 60 + timeoffset))%Q (p_lat s) (p_lon s) (fst (placed (p_lat s) (p_lon s))) (snd (placed (p_lat s) (p_lon s))) (snd h)
      (p_lat a) (Rabs (Rabs (p_lat a) - la)) (p_lon a) (Rabs (Rabs (p_lon a) - lo))
      (fst (placed (p_lat a) (p_lon a))) std (snd (placed (p_lat a) (p_lon a))) std depth std distance.
  Fixpoint records (l : list (position * option (position * (Q * R)))) : option (list usbl) :=
    match l with
    | [] => Some []
    | (a, Some (s, h)) :: l => bind (records l) (fun r => Some (record a s h :: r))
    | (_, None) :: _ => None
    end.
  (** 639-647: the files of the folder whose names begin with the stem of the configured one and "_" (glob characters in the stem are left out);
      [files] is in the order of sorted() *)
  Fixpoint begins (w s : text) : bool :=
    match w, s with [], _ => true | x :: w, y :: s => (Ascii.eqb x y && begins w s)%bool | _, [] => false end.
  Fixpoint read_files (stem : text) (files : list (text * list text)) : option (list obs) :=
    match files with
    | [] => Some []
    | (n, lines) :: files =>
        if begins (stem ++ txt "_") n then bind (parse_mrt_csv lines) (fun a => bind (read_files stem files) (fun r => Some (a ++ r)%list))
        else read_files stem files
    end.
  Definition parse_mrt (stem : text) (files : list (text * list text)) : option (list usbl) :=
    bind (read_files stem files) (fun l => records (find_closest l)).
End Mrt.

(** * GGA variants *)
(** re.split(",| |\*", line) *)
Definition separator (c : ascii) : bool := (Ascii.eqb c ","%char || Ascii.eqb c " "%char || Ascii.eqb c "*"%char)%bool.
Fixpoint split_any (s : text) : list text :=
  match s with
  | [] => [[]]
  | c :: s => if separator c then [] :: split_any s
              else match split_any s with w :: ws => (c :: w) :: ws | [] => [[c]] end
  end.
(** Columns of the id and of the latitude, and where the date comes from: gga 9, 5, file name; gga2 19, 8, row; gga3 20, 8, row; gga4 17, 5, file name. *)
Record variant := mkvariant { v_id : nat; v_lat : nat; v_row_date : bool }.
Definition gga1 := mkvariant 9 5 false.
Definition gga2 := mkvariant 19 8 true.
Definition gga3 := mkvariant 20 8 true.
Definition gga4 := mkvariant 17 5 false.
Definition degrees (w : nat) (s : text) : option Q :=
  bind (float_text (firstn w s)) (fun d => bind (float_text (skipn w s)) (fun m => Some (d + m / 60)%Q)).
(** 256-293 and its copies: [None] is a row that is left out, for its id or for any exception. *)
Definition gga_row (v : variant) (stem : text) (field_id : Z) (line : text) : option (Q * Q * text) :=
  let data := split_any line in
  bind (bind (nth_error data (v_id v)) int_text) (fun n =>
  if negb (n =? field_id) then None
  else
    bind (nth_error data (v_lat v + 1)) (fun ns => bind (nth_error data (v_lat v + 3)) (fun ew =>
    bind (bind (nth_error data (v_lat v)) (degrees 2)) (fun lat => bind (bind (nth_error data (v_lat v + 2)) (degrees 3)) (fun lon =>
    bind (nth_error data 1) (fun d1 =>
    let time :=
      if v_row_date v then
        let d0 := nth 0 data [] in
        slice 0 4 d0 ++ "-"%char :: slice 5 7 d0 ++ "-"%char :: slice 8 10 d0 ++ " "%char :: slice 0 2 d1 ++ ":"%char :: slice 3 5 d1 ++ ":"%char :: slice 6 8 d1 ++ "."%char :: skipn 9 d1
      else slice 0 4 stem ++ "-"%char :: slice 4 6 stem ++ "-"%char :: slice 6 8 stem ++ " "%char :: d1 in
    Some (if same ew (txt "W") then (- lon)%Q else lon, if same ns (txt "S") then (- lat)%Q else lat, time))))))).
Definition gga_file (v : variant) (field_id : Z) (stem : text) (lines : list text) : list (Q * Q * text) :=
  flat_map (fun l => match gga_row v stem field_id l with Some r => [r] | None => [] end) lines.
(** 805-866: time, latitude, longitude of a record; the position is placed as above, the deviations are constants.  [stamp]: strptime (824)
    raises on a text of another form, which ends the parse. *)
Fixpoint gga_records (stamp : text -> option Q) (tz timeoffset : Q) (l : list (Q * Q * text)) : option (list (Q * Q * Q)) :=
  match l with
  | [] => Some []
  | (lon, lat, s) :: l => bind (stamp s) (fun t => bind (gga_records stamp tz timeoffset l) (fun r => Some ((t + (- tz * 60 * 60 - timeoffset), lat, lon)%Q :: r)))
  end.
Definition parse_gga (stamp : text -> option Q) (v : variant) (tz timeoffset : Q) (field_id : Z) (files : list (text * list text)) : option (list (Q * Q * Q)) :=
  gga_records stamp tz timeoffset (flat_map (fun f => gga_file v field_id (fst f) (snd f)) files).
