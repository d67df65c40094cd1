(** Model of the file name matching and of the image geometry in
    correct_images/tools/file_handlers.py, corrections/rescale.py and
    Corrector.process_correction. *)
From Coq Require Import Ascii String Qround.
From Verif Require Import PyBase NmeaModel CsvModel.
Open Scope list_scope.

Definition slash : N := 47.
Definition dot : N := 46.
(** pathlib.PurePosixPath.name: the last component that is neither empty nor ".". *)
Definition name (path : text) : text :=
  last (filter (fun c => negb (text_eqb c [] || text_eqb c [dot])) (split slash path)) [].
(** [str.rfind('.')] *)
Fixpoint rfind (c : N) (s : text) : option nat :=
  match s with
  | [] => None
  | x :: r => match rfind c r with Some i => Some (S i) | None => if N.eqb x c then Some O else None end
  end.
(** pathlib.PurePath.stem: [name[:i] if 0 < i < len(name) - 1 else name]. *)
Definition stem (path : text) : text :=
  let n := name path in
  match rfind dot n with
  | Some i => if ((0 <? i)%nat && (i <? length n - 1)%nat)%bool then firstn i n else n
  | None => n
  end.

Definition text_in (s : text) (l : list text) : bool := existsb (text_eqb s) l.

(** file_handlers.py:29-52 [trim_csv_files] and 55-66 [get_imagename_list]: [rows] are the
    rows of the navigation file with their relative path, [lines] the lines of the list of
    images.  [isin] compares whole paths. *)
Definition trim {R} (lines : list text) (rows : list (text * R)) : list (text * R) :=
  let names := map stem lines in
  let paths := filter (fun p => text_in (stem p) names) (map fst rows) in
  filter (fun r => text_in (fst r) paths) rows.

(** [a in b] for strings. *)
Fixpoint prefix (a b : text) : bool :=
  match a, b with [], _ => true | x :: a, y :: b => (N.eqb x y && prefix a b)%bool | _ :: _, [] => false end.
Fixpoint contains (a b : text) : bool :=
  (prefix a b || match b with [] => false | _ :: b => contains a b end)%bool.
(** rescale.py:117-125: the altitude of an image.  With several rows the comparison with 1 in
    [rescale] raises ValueError. *)
Inductive altitude := Altitude (h : Q) | NoDistance | Ambiguous.
Definition altitude_for (rows : list (text * Q)) (image : text) : altitude :=
  let paths := filter (fun p => contains (stem p) image) (map fst rows) in
  match filter (fun r => text_in (fst r) paths) rows with
  | [] => NoDistance
  | [(_, h)] => Altitude h
  | _ => Ambiguous
  end.

(** rescale.py:35-94: what is done to an image of [w] by [h] pixels, [hr] and [vr] being
    the rescale factors.  int() is truncation, of non-negative numbers. *)
Inductive plan :=
| Resize (w h : Z)
| DownUp (w h w' h' : Z)
| CropUp (left upper right lower w h : Z).
Definition zq (n : Z) : Q := inject_Z n.
Definition half (n : Z) : Z := Z.quot n 2.
Definition rescale (maintain : bool) (w h : Z) (hr vr : Q) : plan :=
  let size := (Qfloor (zq w * hr), Qfloor (zq h * vr))%Q in
  if maintain then
    if (Qltb vr 1 || Qltb hr 1)%bool then DownUp (fst size) (snd size) w h
    else
      let crop_w := Qfloor ((1 / hr) * zq w)%Q in
      let crop_h := Qfloor ((1 / vr) * zq h)%Q in
      let left := half (w - crop_w) in
      let upper := half (h - crop_h) in
      CropUp left upper (w - left) (h - upper) w h
  else Resize (fst size) (snd size).
(** Rescale factors, 38-41. *)
Definition factor (altitude f target : Q) : Q := ((altitude / f) / target)%Q.
Definition output_size (p : plan) : Z * Z :=
  match p with Resize w h => (w, h) | DownUp _ _ w h => (w, h) | CropUp _ _ _ _ w h => (w, h) end.

(** file_handlers.py:116-159 [write_output_image]: [reads] says for each attempt whether the
    written file could be read back (imwrite raising ends the function and is left out).
    oplab.Console has no [warning]: AttributeError. *)
Inductive written := Path (reported_error : bool) | AttributeError.
Fixpoint attempts (reads : nat -> bool) (fuel i : nat) : nat * bool :=
  match fuel with
  | O => (i, false)
  | S fuel => if reads i then (i, true) else attempts reads fuel (S i)
  end.
Definition max_tries : nat := 5.
Definition write_output_image (reads : nat -> bool) : written :=
  let '(i, ok) := attempts reads max_tries 0 in
  if (max_tries <=? i)%nat then Path true else if (0 <? i)%nat then AttributeError else Path false.
(** The number of times imwrite is called. *)
Definition write_calls (reads : nat -> bool) : nat :=
  let '(i, ok) := attempts reads max_tries 0 in if ok then S i else i.

(** corrector.py:1273-1305: filelist.csv.  [done] are the paths of the written images (a None
    among them makes the two columns of 1278 differ in length, which raises, and is left out;
    so is the raw path being made relative when it is absolute, 1296-1300); each
    row of the navigation file is kept with the name of the first written image with the
    same stem, or dropped. *)
Definition filelist {R} (done : list text) (rows : list (text * R)) : list (text * text * R) :=
  flat_map (fun r => match find (fun p => text_eqb (stem p) (stem (fst r))) done with
                     | Some p => [(name p, fst r, snd r)]
                     | None => []
                     end) rows.
