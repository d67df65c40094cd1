(** Model of where correct_images puts the corrected images: the end of Corrector.process_image (correct_images/corrector.py:1411-1425), the name in
    write_output_image (tools/file_handlers.py:131-132), and process_correction (corrector.py:1266-1305), which makes filelist.csv of them
    ([FilesModel.filelist]).

    An entry of camera_image_list is text: the path of the raw image, or, if the camera's images are in bags, the printed time of the message.  The images
    are written one after another in the order of the list (joblib runs them in any order, which matters only if two have one name); writing succeeds
    (FilesModel has the attempts).  Path() never raises FileNotFoundError, so 1418-1419 are left out. *)
From Coq Require Import Ascii String.
From Verif Require Import PyBase NmeaModel CsvModel FilesModel.
Open Scope list_scope.

(** 1412-1417 *)
Definition image_filename (bag : bool) (camera image : text) : text := if bag then camera ++ [95%N] ++ image else stem image.
(** 1420-1425 and file_handlers.py:131-132; [dest_path / file] for a [file] that is not absolute *)
Definition output_path (bag : bool) (camera folder format image : text) : text := folder ++ [slash] ++ image_filename bag camera image ++ [dot] ++ format.

Section Run.
Context {A : Type}.
Definition disk := list (text * A).
Definition read (fs : disk) (p : text) : option A := option_map snd (find (fun e => text_eqb (fst e) p) fs).
(** [develop]: the pixels made of an image (PipeModel) *)
Variable develop : text -> A.
(** 1266-1271 *)
Definition correct (bag : bool) (camera folder format : text) (images : list text) (fs : disk) : disk :=
  fold_left (fun fs i => (output_path bag camera folder format i, develop i) :: fs) images fs.
End Run.
Arguments disk A : clear implicits.
(** 1273-1305, with the rows of the camera's file of auv_nav *)
Definition listed {R} (bag : bool) (camera folder format : text) (images : list text) (rows : list (text * R)) : list (text * text * R) :=
  filelist (map (output_path bag camera folder format) images) rows.
