(** Model of auv_nav/parsers/parse_voyis.py:24-117 [parse_voyis_images]. *)
From Coq Require Import Ascii String.
From Verif Require Import PyBase NmeaModel CsvModel.
Local Open Scope Q_scope.
Local Open Scope list_scope.

(** One file found by glob: [Path(img).name] and the path relative to the dive folder. *)
Record image := mkimage { i_name : text; i_rel : text }.
(** The fields of a written record that depend on the image (73-85, 101-113): the time stamp, which
    appears twice, and the file name; class, sensor, frame and category are constants. *)
Record record := mkrecord { r_time : Q; r_file : text }.

(** Python slices s[a:b] with 0 <= a <= b. *)
Definition slice (a b : nat) (s : text) : text := firstn (b - a) (skipn a s).
Definition PPS : text := txt "PPS".
Definition SYSTEM : text := txt "SYSTEM".

Section Parse.
(** [FilenameToDate] objects of the two formats of one camera (oplab/filename_to_date.py, modelled in
    TimeModel.v); [None] when the call raises. *)
Record formats := mkformats { by_pps : text -> option Q; by_system : text -> option Q }.
(** A camera of camera.yaml (39-49) with the files found in its folder, in the order of glob. *)
Record camera := mkcamera { c_formats : formats; c_images : list image }.

(** 69-72, 97-100: [epoch] is a local variable that keeps its value when no branch is taken; [None]
    outside means an exception, inside that the variable is unbound. *)
Definition next_epoch (a b : nat) (f : formats) (n : text) (epoch : option Q) : option (option Q) :=
  if text_eqb (slice a b n) PPS then option_map Some (by_pps f n)
  else if text_eqb (slice a b n) SYSTEM then option_map Some (by_system f n)
  else Some epoch.

(** One of the two loops (68-86, 96-114).  [files] is what [stills_image_list_rel] still has to give
    for the indices from this one on; the result is the final [epoch] and the records. *)
Fixpoint loop (a b : nat) (f : formats) (offset : Q) (epoch : option Q) (files : list text) (images : list image) {struct images}
  : option (option Q * list record) :=
  match images with
  | [] => Some (epoch, [])
  | im :: images =>
      match next_epoch a b f (i_name im) epoch, files with
      | Some (Some e), file :: files =>
          match loop a b f offset (Some e) files images with
          | Some (e', rs) => Some (e', mkrecord (e + offset) file :: rs)
          | None => None
          end
      | _, _ => None (* UnboundLocalError, IndexError *)
      end
  end.

(** 60-86 and 90-114. *)
Definition run (a b : nat) (offset : Q) (epoch : option Q) (names : list text) (c : option camera) : option (option Q * list record) :=
  match c with Some c => loop a b (c_formats c) offset epoch names (c_images c) | None => Some (epoch, []) end.
(** 57-58, 60-117.  Without a stills camera [stills_image_list_rel] is not defined, so the laser loop
    fails at its first record: the same as an empty list. *)
Definition parse (tz timeoffset : Q) (stills laser : option camera) : option (list record) :=
  let offset := - tz * 60 * 60 - timeoffset in
  let names := match stills with Some c => map i_rel (c_images c) | None => [] end in
  match run 15 18 offset None names stills with
  | None => None
  | Some (epoch, rs) => option_map (fun r => rs ++ snd r) (run 16 19 offset epoch names laser)
  end.
End Parse.
