(** Model of auv_nav/parsers/parse_seaxerocks_images.py for ftype "oplab".  The lines of the two FileTime.csv files
    are texts from which strip() has removed the surrounding white space; int() reads digits only; [is_file] tells
    which paths below the laser camera's folder exist.  Times are rationals (floats in the code); the zone is the
    number read from the mission (76-90, C10). *)
From Coq Require Import Ascii String.
From Verif Require Import PyBase TimeModel Ae2000Model.
Open Scope Z_scope.

(** str < str: code points, first difference decides. *)
Fixpoint text_ltb (a b : text) : bool :=
  match a, b with
  | _, [] => false
  | [], _ :: _ => true
  | x :: a, y :: b => if (N_of_ascii x <? N_of_ascii y)%N then true else if (N_of_ascii y <? N_of_ascii x)%N then false else text_ltb a b
  end.
Definition text_eqb (a b : text) : bool := if list_eq_dec ascii_dec a b then true else false.
(** l[j], a negative index counting from the end; [None] is IndexError. *)
Definition item {A} (l : list A) (j : Z) : option A :=
  if 0 <=? j then nth_error l (Z.to_nat j) else if 0 <=? j + Z.of_nat (length l) then nth_error l (Z.to_nat (j + Z.of_nat (length l))) else None.

(** 61-71: "/" becomes "_", the first letter excepted. *)
Definition serial (label : text) : text :=
  match label with
  | [] => []
  | c :: r => c :: map (fun c => if Ascii.eqb c "/"%char then "_"%char else c) r
  end.

(** 114-138, 256-273: time of a row from its cells. *)
Definition row_time (tz offset : Q) (date time ms : text) : option Q :=
  bind (py_int (slice 0 4 date)) (fun yyyy => bind (py_int (slice 4 6 date)) (fun mm => bind (py_int (slice 6 8 date)) (fun dd =>
  bind (py_int (slice 0 2 time)) (fun hour => bind (py_int (slice 2 4 time)) (fun mins => bind (py_int (slice 4 6 time)) (fun secs =>
  bind (py_int (slice 0 3 ms)) (fun msec => bind (date_time_to_epoch yyyy mm dd hour mins secs tz 0) (fun t =>
  Some (t + inject_Z msec / 1000 + offset)%Q)))))))).
(** 96-138 ([strict]: too few cells raise) and 239-273 (too few cells: the line is skipped). *)
Fixpoint read_file (strict : bool) (tz offset : Q) (lines : list text) : option (list (text * Q)) :=
  match lines with
  | [] => Some []
  | line :: lines =>
      match split_at ","%char line with
      | index :: date :: time :: ms :: _ =>
          if text_eqb date (list_ascii_of_string "date") then read_file strict tz offset lines
          else bind (row_time tz offset date time ms) (fun t => bind (read_file strict tz offset lines) (fun rest => Some ((index, t) :: rest)))
      | _ => if strict then None else read_file strict tz offset lines
      end
  end.

(** 150-184, 300-316: the search for the time of each image.  Returns the times found. *)
Fixpoint search (index : list text) (times : list Q) (j : Z) (images : list text) : option (list Q) :=
  match images with
  | [] => Some []
  | im :: images =>
      match item index j with
      | None => None
      | Some x =>
          if text_eqb im x
          then match item times j with Some t => bind (search index times (j + 1) images) (fun r => Some (t :: r)) | None => None end
          else if text_ltb im x then search index times (j + 1) images
          else search index times (j - 1) images
      end
  end.

Record stereo := mkstereo { st_t1 : Q; st_serial1 : text; st_file1 : text; st_t2 : Q; st_serial2 : text; st_file2 : text }.
Record laser := mklaser { la_t : Q; la_serial : text; la_file : text }.
Record camera := mkcamera { c_path : text; c_label : text; c_off : Q }.
Definition slash : text := ["/"%char].
Definition dot : ascii := "."%char.
Definition raw (i : text) : text := i ++ list_ascii_of_string ".raw".

(** 140-236: one record for each image; the i-th uses the i-th time found. *)
Fixpoint stereo_records (cam1 cam2 : camera) (files : list text) (times : list Q) : option (list stereo) :=
  match files, times with
  | [], _ => Some []
  | _ :: _, [] => None
  | f :: files, t :: times =>
      bind (stereo_records cam1 cam2 files times) (fun rest =>
      Some (mkstereo (t + c_off cam1)%Q (serial (c_label cam1)) (c_path cam1 ++ slash ++ f) (t + c_off cam2)%Q (serial (c_label cam2)) (c_path cam2 ++ slash ++ f) :: rest))
  end.
Definition parse_stereo (cam1 cam2 : camera) (tz offset : Q) (lines : list text) : option (list stereo) :=
  bind (read_file true tz offset lines) (fun rows =>
  let index := map fst rows in
  let files := map raw index in
  let images := map (fun f => hd [] (split_at dot f)) files in
  bind (search index (map snd rows) 0 images) (fun times => stereo_records cam1 cam2 files times)).

(** 281-286 and 408-418 *)
Definition image_file (number : text) (s : nat) (extension : text) : text :=
  slice s (s + 3) number ++ list_ascii_of_string "/image" ++ number ++ [dot] ++ extension.
Definition jpg : text := list_ascii_of_string "jpg".
Definition tif : text := list_ascii_of_string "tif".
(** 334-405; the messages are left out. *)
Definition determine (is_file : text -> bool) (images : list text) : nat * text :=
  let last := last images [] in
  if is_file (image_file last 0 jpg) then (0%nat, jpg)
  else if is_file (image_file last 1 jpg) then (1%nat, jpg)
  else if is_file (image_file last 0 tif) then (0%nat, tif)
  else if is_file (image_file last 1 tif) then (1%nat, tif)
  else (0%nat, jpg).
Fixpoint laser_records (cam3 : camera) (files : list text) (times : list Q) : option (list laser) :=
  match files, times with
  | [], _ => Some []
  | _ :: _, [] => None
  | f :: files, t :: times =>
      bind (laser_records cam3 files times) (fun rest => Some (mklaser t (serial (c_label cam3)) (c_path cam3 ++ slash ++ f) :: rest))
  end.
(** 238-331.  The times of the records are looked up as the search goes on (319): it fails exactly when a time is missing. *)
Definition parse_laser (is_file : text -> bool) (cam3 : camera) (tz offset : Q) (lines : list text) : option (list laser) :=
  bind (read_file false tz (offset + c_off cam3)%Q lines) (fun rows =>
  let index := map fst rows in
  let '(s, extension) := determine is_file index in
  let files := map (fun i => image_file i s extension) index in
  bind (search index (map snd rows) 0 index) (fun times => laser_records cam3 files times)).
(** The list returned: stereo pairs, then laser images. *)
Definition parse_images (is_file : text -> bool) (cam1 cam2 cam3 : camera) (tz offset : Q) (lines lines3 : list text) : option (list stereo * list laser) :=
  bind (parse_stereo cam1 cam2 tz offset lines) (fun a => bind (parse_laser is_file cam3 tz offset lines3) (fun b => Some (a, b))).
