(** Model of auv_nav/parsers/koyo20rov.py and convert.py:37-51.  Rationals for floats; NaN is [None].  The tables
    are what pandas read; body_to_inertial, the projection to metres and metres_to_latlon are arguments. *)
From Coq Require Import Ascii String.
From Verif Require Import PyBase TimeModel InterpModel InterpSpec SortQ.
Open Scope Q_scope.
Notation text := (list ascii).
Notation num := (option Q).

(** * Times *)
(** 107-131, 159-188: str(date) for a date of eight digits, f"{time:06}" for at most six; [None] is an exception (or a
    number of another size, not modelled).  The milliseconds are an integer, so int(float(ms) * 1000) is exact. *)
Definition stamp (date time ms : Z) : option Q :=
  if ((10000000 <=? date) && (date <? 100000000) && (0 <=? time) && (time <? 1000000))%Z%bool then
    let d := pad 8 date in
    let c := pad 6 time in
    bind (py_int (slice 0 4 d)) (fun yyyy => bind (py_int (slice 4 6 d)) (fun mm => bind (py_int (slice 6 8 d)) (fun dd =>
    bind (py_int (slice 0 2 c)) (fun hour => bind (py_int (slice 2 4 c)) (fun mins => bind (py_int (slice 4 6 c)) (fun secs =>
    date_time_to_epoch yyyy mm dd hour mins secs 0 (ms * 1000)))))))
  else None.
(** 216-239: the date is padded on the left to 13 letters. *)
Definition log_stamp (date timestr : text) : option Q :=
  let date := (repeat " "%char (13 - length date) ++ date)%list in
  bind (py_int (slice 5 7 date)) (fun yy => bind (py_int (slice 8 10 date)) (fun mm => bind (py_int (slice 11 13 date)) (fun dd =>
  bind (py_int (slice 0 2 timestr)) (fun hour => bind (py_int (slice 3 5 timestr)) (fun mins => bind (py_int (slice 6 8 timestr)) (fun secs =>
  date_time_to_epoch (2000 + yy) mm dd hour mins secs 0 0)))))).

(** * The ship's log *)
Record pos := mkpos { p_t : Q; p_depth : num; p_alt : num; p_lat : num; p_lon : num }.
(** A row: [None] when the date is no text or shorter than eight letters (404-407). *)
Fixpoint later (current : Q) (rows : list (option pos)) : list pos :=
  match rows with
  | [] => []
  | None :: rows => later current rows
  | Some p :: rows => if Qltb current (p_t p) then p :: later (p_t p) rows else later current rows
  end.
(** 386-424: the time to beat is first that of the first row, which must be readable. *)
Definition load_file (rows : list (option pos)) : option (list pos) :=
  match rows with Some p :: _ => Some (later (p_t p) rows) | _ => None end.
Fixpoint load_files (files : list (list (option pos))) : option (list pos) :=
  match files with
  | [] => Some []
  | f :: files => bind (load_file f) (fun l => bind (load_files files) (fun r => Some (l ++ r)%list))
  end.
Definition is_zero (v : num) : bool := match v with Some q => Qeq_bool q 0 | None => false end.
Definition mix (t ta tb : Q) (a b : num) : num :=
  if Qeq_bool tb ta then a else match a, b with Some a, Some b => Some (interpolate t ta tb a b) | _, _ => None end.
(** 443-462: for all but the last record, a zero becomes the interpolation between the record before (as already
    changed; index -1 for the first: the last record) and the one after. *)
Definition fill_one (before p after : pos) : pos :=
  mkpos (p_t p)
    (if is_zero (p_depth p) then mix (p_t p) (p_t before) (p_t after) (p_depth before) (p_depth after) else p_depth p)
    (if is_zero (p_alt p) then mix (p_t p) (p_t before) (p_t after) (p_alt before) (p_alt after) else p_alt p)
    (p_lat p) (p_lon p).
Fixpoint fill (before : pos) (l : list pos) : list pos :=
  match l with
  | p :: ((after :: _) as l') => let p := fill_one before p after in p :: fill p l'
  | _ => l
  end.
Definition load_positions (files : list (list (option pos))) : option (list pos) :=
  bind (load_files files) (fun l =>
  let l := qsort p_t l in
  Some (match l with [] => [] | p :: _ => fill (last l p) l end)).

(** 641-693: consecutive positions faster than 20 m/s are dropped.  delta_d / delta_t > 20 is written without the
    square root and the division (a negative delta_t gives a negative speed, never above 20); with delta_t = 0 numpy gives inf
    or nan, with the same outcome.  NaN is kept. *)
Definition too_fast (a b : pos) : bool :=
  match p_lat a, p_lon a, p_lat b, p_lon b with
  | Some la, Some oa, Some lb, Some ob =>
      let dx := lb - la in let dy := ob - oa in let dt := p_t b - p_t a in
      (Qle_bool 0 dt && Qltb (400 * (dt * dt)) (111139 * 111139 * (dx * dx + dy * dy)))%bool
  | _, _, _, _ => false
  end.
Fixpoint slow (current : pos) (l : list pos) : list pos :=
  match l with
  | [] => []
  | p :: l => if too_fast current p then slow current l else p :: slow p l
  end.
Definition filter_bad (l : list pos) : option (list pos) := match l with [] => None | p :: l => Some (p :: slow p l) end.

(** * Interpolation at the images *)
(** 734-735: [while image_epoch > v[i].epoch_timestamp: i += 1]; [None]: past the end. *)
Fixpoint advance {P} (time : P -> Q) (fuel : nat) (v : list P) (t : Q) (i : nat) : option nat :=
  match fuel with
  | O => None
  | S fuel => match nth_error v i with None => None | Some p => if Qltb (time p) t then advance time fuel v t (S i) else Some i end
  end.
(** 716-757 and 780-814: for each image the two records used, [None] when it is left as it is. *)
Fixpoint brackets {P} (time : P -> Q) (v : list P) (first last : P) (i : nat) (images : list Q) : option (list (option (P * P))) :=
  match images with
  | [] => Some []
  | t :: images =>
      if Qltb (time last) t then Some (repeat None (S (length images)))
      else if Qltb t (time first) then bind (brackets time v first last i images) (fun r => Some (None :: r))
      else bind (advance time (S (length v)) v t i) (fun i =>
           match py_nth v (Z.of_nat i - 1), nth_error v i with
           | Some a, Some b => bind (brackets time v first last i images) (fun r => Some (Some (a, b) :: r))
           | _, _ => None
           end)
  end.
(** The first access v[-1] fails on an empty list; without images nothing is accessed but [j] is unbound (757). *)
Definition bracket_all {P} (time : P -> Q) (v : list P) (images : list Q) : option (list (option (P * P))) :=
  match v, images with
  | _, [] => None
  | [], _ :: _ => None
  | p :: _, _ => brackets time v p (last v p) 0 images
  end.

Record rot := mkrot { r_t : Q; r_heading : num; r_pitch : num; r_roll : num }.
Record image := mkimage { i_t : Q; i_index : Z }.
Record seen := mkseen { s_image : image; s_lat : num; s_lon : num; s_depth : num; s_alt : num; s_heading : num; s_pitch : num; s_roll : num }.
Definition between_records {P} (time : P -> Q) (t : Q) (b : option (P * P)) (g : P -> num) : num :=
  match b with None => None | Some (a, b) => mix t (time a) (time b) (g a) (g b) end.
Definition see (i : image) (bp : option (pos * pos)) (br : option (rot * rot)) : seen :=
  let p g := between_records p_t (i_t i) bp g in
  let r g := between_records r_t (i_t i) br g in
  mkseen i (p p_lat) (p p_lon) (p p_depth) (p p_alt) (r r_heading) (r r_pitch) (r r_roll).
Fixpoint zip3 {A B C D} (f : A -> B -> C -> D) (a : list A) (b : list B) (c : list C) : list D :=
  match a, b, c with x :: a, y :: b, z :: c => f x y z :: zip3 f a b c | _, _, _ => [] end.
(** 816-841 for one list of images *)
Definition interpolate_to_images (ps : list pos) (rs : list rot) (images : list image) : option (list seen) :=
  bind (bracket_all p_t ps (map i_t images)) (fun bp => bind (bracket_all r_t rs (map i_t images)) (fun br =>
  Some (zip3 see images bp br))).
(** 843-892: [None] when there is no image ([i] unbound in the last print). *)
Definition located (s : seen) : bool := match s_lat s, s_heading s with Some _, Some _ => true | _, _ => false end.
Definition filter_nans (l : list seen) : option (list seen) := match l with [] => None | _ => Some (filter located l) end.

(** * Lever arms and output *)
Record row := mkrow { o_path : text; o_north : Q; o_east : Q; o_depth : Q; o_roll : Q; o_pitch : Q; o_heading : Q; o_alt : Q; o_t : Q; o_lat : Q; o_lon : Q }.
Section Out.
  Variable b2i : Q -> Q -> Q -> Q -> Q -> Q -> Q * Q * Q.
  Variable to_metres : Q -> Q -> Q * Q.        (** latitude, longitude to northing, easting (951-991) *)
  Variable to_latlon : Q -> Q -> Q * Q.        (** metres_to_latlon from the reference: easting, northing *)
  (** 55-105, 951-991; [None] when a value is NaN. *)
  Definition place (name : Z -> text) (target depth_sensor dvl : Q * Q * Q) (s : seen) : option row :=
    match s_lat s, s_lon s, s_depth s, s_alt s, s_heading s, s_pitch s, s_roll s with
    | Some lat, Some lon, Some depth, Some alt, Some heading, Some pitch, Some roll =>
        let '(tx, ty, tz) := target in
        let '(px, py, pz) := depth_sensor in
        let '(dx, dy, dz) := dvl in
        let '(north, east) := to_metres lat lon in
        let '(_, _, down) := b2i roll pitch heading (tx - px) (ty - py) (tz - pz) in
        let '(dn, de, dd) := b2i roll pitch heading (tx - dx) (ty - dy) (tz - dz) in
        let north := north + dn in
        let east := east + de in
        let '(lat, lon) := to_latlon east north in
        Some (mkrow (name (i_index (s_image s))) north east (depth + down) roll pitch heading (alt - dd) (i_t (s_image s)) lat lon)
    | _, _, _, _, _, _, _ => None
    end.
End Out.
(** f"{index:07}" for an index of at most seven digits *)
Definition laser_name (folder : text) (index : Z) : text :=
  (folder ++ "/"%char :: slice 1 4 (pad 7 index) ++ list_ascii_of_string "/image" ++ pad 7 index ++ list_ascii_of_string ".tif")%list.
Definition colour_name (folder : text) (index : Z) : text :=
  (folder ++ "/"%char :: pad 7 index ++ list_ascii_of_string ".raw")%list.
(** convert.py:44-50: everything read, both lists of images interpolated and filtered, then 951-991, 894-949 and
    993-1117, where an empty list leaves [i] unbound or divides by its length: [None]. *)
Definition nonempty {A} (l : list A) : option (list A) := match l with [] => None | _ => Some l end.
Definition convert (ps : list pos) (rs : list rot) (lasers colours : list image) : option (list seen * list seen) :=
  let one images := bind (interpolate_to_images ps rs images) (fun l => bind (filter_nans l) nonempty) in
  bind (one lasers) (fun a => bind (one colours) (fun b => Some (a, b))).

(** 319-322: glob("*[!FIX].csv") *)
Definition log_file (name : text) : bool :=
  match rev name with
  | v :: s :: c :: d :: x :: _ =>
      (Ascii.eqb d "."%char && Ascii.eqb c "c"%char && Ascii.eqb s "s"%char && Ascii.eqb v "v"%char
       && negb (Ascii.eqb x "F"%char || Ascii.eqb x "I"%char || Ascii.eqb x "X"%char))%bool
  | _ => false
  end.
