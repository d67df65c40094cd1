(** Scripts over a folder of images: scripts/compute_max_brightness.py with scripts/find_images_with_artefacts.py, and scripts/debayer_folder.py.
    An error raised anywhere is [None]. Names and paths are texts; a folder is listed by Path.glob in the order of the file system. *)
From Coq Require Import Ascii String.
From Verif Require Import PyBase.
Open Scope Q_scope.
Notation text := (list ascii).
Definition txt (s : string) : text := list_ascii_of_string s.

(** str.endswith *)
Fixpoint starts (p s : text) : bool :=
  match p, s with [], _ => true | a :: p, b :: s => Ascii.eqb a b && starts p s | _ :: _, [] => false end.
Definition ends (e s : text) : bool := starts (rev e) (rev s).
(** Path.glob("*." + extension) of an extension without *, ? and [: upper and lower case differ, and hidden files are found. *)
Definition glob {A} (extension : text) (files : list (text * A)) : list (text * A) := filter (fun f => ends ("."%char :: extension) (fst f)) files.

(** * compute_max_brightness.py *)
(** What imageio reads: rows of values, or rows of pixels with several channels (the fourth being opacity). *)
Inductive picture := Gray (rows : list (list Q)) | Coloured (rows : list (list (list Q))).
(** img.mean(axis=2) of one pixel; the numbers are exact here. *)
Definition mean (l : list Q) : Q := fold_right Qplus 0 l / inject_Z (Z.of_nat (length l)).
(** img.max(); of nothing, an error. *)
Definition largest (l : list Q) : option Q := match l with [] => None | x :: l => Some (fold_left (fun m y => if Qle_bool m y then y else m) l x) end.
(** compute_max_brightness.py:54-58. [None] stands for a file that is not an image; a picture without channels has no axis 2. *)
Definition brightness (p : option picture) : option Q :=
  match p with Some (Coloured rows) => largest (map mean (concat rows)) | _ => None end.
Fixpoint each {A B} (f : A -> option B) (l : list A) : option (list B) :=
  match l with [] => Some [] | a :: l => match f a, each f l with Some b, Some bs => Some (b :: bs) | _, _ => None end end.
(** 48-61: the .jpg files and then the .png files. [prefix]: the folder and a slash. *)
Definition compute_max_brightness (prefix : text) (files : list (text * option picture)) : option (list (text * Q)) :=
  each (fun f => option_map (fun b => (prefix ++ fst f, b))%list (brightness (snd f))) (glob (txt "jpg") files ++ glob (txt "png") files).

(** * find_images_with_artefacts.py *)
(** A field as DataFrame.to_csv writes it: between quotes if it has a comma, a quote or the end of a line. *)
Definition quoted (t : text) : text :=
  if existsb (fun c => existsb (Ascii.eqb c) [","%char; """"%char; "010"%char; "013"%char]) t
  then """"%char :: flat_map (fun c => if Ascii.eqb c """" then [c; c] else [c]) t ++ [""""%char] else t.
(** find_images_with_artefacts.py:52-60: the lines of the file. Reading the brightness file back is taken to give what was written. *)
Definition find_images (threshold : Z) (df : list (text * Q)) : list text :=
  map (fun r => quoted (fst r)) (filter (fun r => negb (Qle_bool (snd r) (inject_Z threshold))) df).
(** One script after the other. *)
Definition bright_images (prefix : text) (threshold : Z) (files : list (text * option picture)) : option (list text) :=
  option_map (find_images threshold) (compute_max_brightness prefix files).

(** * debayer_folder.py *)
Inductive code := BG2BGR | GB2BGR | RG2BGR | GR2BGR.
Fixpoint text_eqb (a b : text) : bool :=
  match a, b with [], [] => true | x :: a, y :: b => Ascii.eqb x y && text_eqb a b | _, _ => false end.
Inductive action := Convert (c : code) | Nothing | Unsupported.
(** debayer_folder.py:54-66 *)
Definition action_of (pattern : text) : action :=
  let is l := existsb (fun s => text_eqb pattern (txt s)) l in
  if is ["rggb"; "RGGB"]%string then Convert BG2BGR else if is ["grbg"; "GRBG"]%string then Convert GB2BGR
  else if is ["bggr"; "BGGR"]%string then Convert RG2BGR else if is ["gbrg"; "GBRG"]%string then Convert GR2BGR
  else if is ["mono"; "MONO"]%string then Nothing else Unsupported.
(** pathlib's PurePath.stem: what is before the last point, unless that point is the first or the last character. *)
Fixpoint last_point (t : text) : option nat :=
  match t with
  | [] => None
  | c :: t => match last_point t with Some i => Some (S i) | None => if Ascii.eqb c "." then Some 0%nat else None end
  end.
Definition stem (t : text) : text :=
  match last_point t with Some i => if (Nat.ltb 0 i && Nat.ltb (S i) (length t))%bool then firstn i t else t | None => t end.

Section Debayer.
  Variable image : Type.
  (** cv2.imread and cv2.cvtColor: [None] where there is no image or the conversion fails. *)
  Variable convert : code -> image -> option image.
  Definition files := (text * text)%type -> option image.
  Definition write (fs : files) (folder name : text) (i : image) : files := fun p => if text_eqb (fst p) folder && text_eqb (snd p) name then Some i else fs p.
  (** debayer_folder.py:35-68, for one image; [None] is an error (of cvtColor, or of writing no image). *)
  Definition debayer (pattern source target : text) (fs : files) (name : text) : option files :=
    match action_of pattern, fs (source, name) with
    | Convert c, Some i => match convert c i with Some o => Some (write fs target (stem name ++ txt ".png") o) | None => None end
    | Convert _, None => None
    | Nothing, _ => Some fs
    | Unsupported, _ => None
    end.
  (** 71-94; [order]: the found images in the order they are worked on. One is read and written before the next is; that is no loss for images that
      are found with the same extension, since only the image itself can have the name that is written. *)
  Fixpoint debayer_all (pattern source target : text) (fs : files) (order : list text) : option files :=
    match order with
    | [] => Some fs
    | n :: order => match debayer pattern source target fs n with Some fs => debayer_all pattern source target fs order | None => None end
    end.
End Debayer.
