(** Model of CameraEntry of oplab/camera_system.py: its name (98-101) and image_list and stamp_list (150-219).
    The raw folder is the list of the paths of everything below it, directories and files, in the order of the
    listing; a path is the list of its components.  Patterns contain no '?' or '[' and are relative; a path without
    '*' is not empty.  [None] is Console.quit or an exception.  The lists are kept after the first use (158, 213):
    the folder is not read again. *)
From Coq Require Import Ascii String.
From Verif Require Import PyBase NmeaModel CsvModel FilesModel InterlaceModel.
Open Scope list_scope.

Definition path := list text.
Definition path_eqb (a b : path) : bool := (Nat.eqb (length a) (length b) && forallb (fun p => text_eqb (fst p) (snd p)) (combine a b))%bool.
(** Path(s).parts for a relative path *)
Definition parts (s : text) : path := filter (fun c => negb (text_eqb c [] || text_eqb c [dot])) (split slash s).
Definition str (p : path) : text := join slash p.

(** Names matched by prefix*suffix and prefix*mid*suffix. *)
Definition starts_with (p s : text) : bool := prefix p s.
Definition ends_with (q s : text) : bool := prefix (rev q) (rev s).
Definition glob1 (pre suf s : text) : bool := (starts_with pre s && ends_with suf (skipn (length pre) s))%bool.
Definition glob2 (mid suf s : text) : bool := (ends_with suf s && contains mid (firstn (length s - length suf) s))%bool.

Section Raw.
  Variable tree : list path.
  (** [dir.glob(pattern)] for a pattern of one component. *)
  Definition in_dir (d : path) (ok : text -> bool) : list path :=
    filter (fun p => match rev p with n :: r => (path_eqb (rev r) d && ok n)%bool | [] => false end) tree.
  (** [dir.rglob(pattern)] *)
  Definition below (d : path) (ok : text -> bool) : list path :=
    filter (fun p => match rev p with n :: r => (path_eqb (firstn (length d) (rev r)) d && Nat.leb (length d) (length r) && ok n)%bool | [] => false end) tree.
  (** raw_dir.glob(a + "*") *)
  Definition glob_prefix (a : text) : list path :=
    in_dir (filter (fun c => negb (text_eqb c [] || text_eqb c [dot])) (removelast (split slash a))) (glob1 (last (split slash a) []) []).

  (** 151-203; [ext] is "." + extension. *)
  Definition image_list (where_ ext : text) : option (list path) :=
    match split star where_ with
    | [p] =>
        let d := parts p in
        let l := in_dir d (glob1 [] ext) in
        let l := match l with [] => in_dir (removelast d) (glob1 (stem (last d [])) ext) | _ => l end in
        Some (sorted str l)
    | [a; b] =>
        match glob_prefix a with
        | [] => None
        | d :: _ => Some (sorted str (below (d ++ parts b) (glob1 [] ext)))
        end
    | [a; _; c] =>
        match glob_prefix a with [] => None | d :: _ => Some (sorted str (in_dir d (glob1 [] (c ++ ext)))) end
    | [a; _; c; _] =>
        match glob_prefix a with [] => None | d :: _ => Some (sorted str (in_dir d (glob2 c ext))) end
    | _ => None
    end.
End Raw.
(** 206-219 *)
Definition stamp_list {T} (convert : text -> T) (images : list path) : list T := map (fun p => convert (last p [])) images.

(** 98-101 *)
Definition camera_name (name : text) : text :=
  if contains [slash] name then map (fun c => if N.eqb c slash then 95%N else c) (tl name) else name.
