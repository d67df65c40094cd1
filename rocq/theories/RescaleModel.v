(** The command [correct_images rescale]: correct_images/correct_images.py:322-353 and correct_images/corrections/rescale.py:99-209, after
    the configuration (LoadCfgModel) and the camera system have been loaded.  What is done to one image is [FilesModel.rescale], the row of
    an image [FilesModel.altitude_for].  Folders are lists of names and lie in the processed folder (an absolute folder of the
    configuration, which pathlib would keep as it is, is left out).  Focal lengths and the target pixel size are not 0 and the altitudes
    are numbers.  Folders without files are not on the disk: listing one gives no names, which stands for an empty folder. *)
From Coq Require Import Ascii String Permutation.
From Verif Require Import PyBase NmeaModel FilesModel CorrModel.
Open Scope Q_scope.
Open Scope list_scope.

(** parser.py:226-242, 249-262.  [maintain] is [bool] of the value; a method that is not one of the four (rescale.py:43-60) ends the program. *)
Inductive interpolation := Bicubic | Bilinear | Nearest | Lanczos.
Record camera_rescale := mkcr { r_name : text; folder : place; distances : place; interp : option interpolation; target : Q; maintain : bool; output : place }.

(** The formats of the image files. *)
Inductive format := JPG | PNG | TIF.

Section Rescale.
(** An image array as [imread] gives it, with its width and height.  [resampled m p i]: what Pillow makes of it (None: it raises, as for an
    array that is not RGB or for an empty result). *)
Variable image : Type.
Variable size : image -> Z * Z.
Variable resampled : interpolation -> plan -> image -> option image.
(** os.listdir gives the names in any order. *)
Variable listed : list text -> list text.

Inductive content := Picture (f : format) (i : image) | Calibration (fx fy : Q) | Distances (rows : list (text * Q)) | Other.
Notation files := (disk content).

(** The names of the files directly in a folder. *)
Definition name_in (d : place) (f : place * content) : list text :=
  match rev (fst f) with n :: p => if place_eqb (rev p) d then [n] else [] | [] => [] end.
Definition names_in (fs : files) (d : place) : list text :=
  nodup (list_eq_dec N.eq_dec) (flat_map (name_in d) fs).
(** rescale.py:186-190: [filename[-4:]]. *)
Definition last4 (n : text) : text := skipn (length n - 4) n.
Definition chosen (n : text) : bool :=
  (text_eqb (last4 n) (txt ".jpg") || text_eqb (last4 n) (txt ".png") || text_eqb (last4 n) (txt ".tif"))%bool.

Inductive note := Camera_missing (camera : text) | No_distance (image : text) | All_completed.
Inductive ending := Finished | Quits | Raises.

(** rescale.py:35-97: [rescale] with the altitude of the one row. *)
Definition scaled (c : camera_rescale) (fx fy h : Q) (i : image) : plan :=
  FilesModel.rescale (maintain c) (fst (size i)) (snd (size i)) (factor h fx (target c)) (factor h fy (target c)).
(** rescale.py:114-140: one image.  [imread] raises for a file that is not an image, [rescale] raises for several rows. *)
Definition one_image (c : camera_rescale) (base : place) (fx fy : Q) (rows : list (text * Q)) (n : text) (fs : files) : files * list note * ending :=
  match altitude_for rows n with
  | NoDistance => (fs, [No_distance n], Finished)
  | a => match lookup fs (base ++ folder c ++ [n]) with
         | Some (Picture _ i) =>
             match interp c with
             | None => (fs, [], Quits)
             | Some m => match a with
                         | Altitude h => match resampled m (scaled c fx fy h i) i with
                                         | Some j => (write fs (base ++ output c ++ [n]) (Picture PNG j), [], Finished)
                                         | None => (fs, [], Raises)
                                         end
                         | _ => (fs, [], Raises)
                         end
             end
         | _ => (fs, [], Raises)
         end
  end.
(** Steps are done in order until one does not finish. *)
Definition after (r : files * list note * ending) (f : files -> files * list note * ending) : files * list note * ending :=
  let '(fs, notes, e) := r in
  match e with
  | Finished => let '(fs', notes', e') := f fs in (fs', notes ++ notes', e')
  | _ => r
  end.
Fixpoint all_images (c : camera_rescale) (base : place) (fx fy : Q) (rows : list (text * Q)) (names : list text) (fs : files) : files * list note * ending :=
  match names with
  | [] => (fs, [], Finished)
  | n :: names => after (one_image c base fx fy rows n fs) (all_images c base fx fy rows names)
  end.
(** rescale.py:143-204.  [system]: the names of the cameras of camera.yaml. *)
Definition rescale_camera (system : list text) (base : place) (c : camera_rescale) (fs : files) : files * list note * ending :=
  if negb (text_in (r_name c) system) then (fs, [Camera_missing (r_name c)], Finished) else
  match lookup fs (base ++ [txt "calibration"; txt "mono_" ++ r_name c ++ txt ".yaml"]) with
  | None => (fs, [], Quits)
  | Some (Calibration fx fy) =>
      match lookup fs (base ++ distances c ++ [txt "csv"; txt "ekf"; txt "auv_ekf_" ++ r_name c ++ txt ".csv"]) with
      | Some (Distances rows) => all_images c base fx fy rows (filter chosen (listed (names_in fs (base ++ folder c)))) fs
      | _ => (fs, [], Raises)
      end
  | Some _ => (fs, [], Raises)
  end.
(** correct_images.py:339-353 *)
Fixpoint all_cameras (system : list text) (base : place) (cams : list camera_rescale) (fs : files) : files * list note * ending :=
  match cams with
  | [] => (fs, [All_completed], Finished)
  | c :: cams => after (rescale_camera system base c fs) (all_cameras system base cams)
  end.
Definition call_rescale (system : list text) (base : place) (cams : option (list camera_rescale)) (fs : files) : files * list note * ending :=
  match cams with None => (fs, [], Quits) | Some cams => all_cameras system base cams fs end.
End Rescale.
Arguments Picture {image}. Arguments Calibration {image}. Arguments Distances {image}. Arguments Other {image}.
