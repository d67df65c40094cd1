(** Model of oplab/folder_structure.py: a path is the list of its components. *)
From Coq Require Import String.
From Verif Require Import PyBase.
Local Open Scope string_scope.

Definition path := list string.

Definition in_parts (name : string) (p : path) : bool := existsb (String.eqb name) p.

(** folder_structure.py:24-44 [change_subfolder]: [path.parts.index(prior)] is
    the first occurrence (the caller checked there is one).  The directory
    creation at 30-43 cannot happen: [is_dir]/[is_file] imply existence. *)
Fixpoint change_subfolder (p : path) (prior new : string) : path :=
  match p with
  | [] => []
  | c :: rest => if String.eqb c prior then new :: rest
                 else c :: change_subfolder rest prior new
  end.

(** folder_structure.py:47-65 [get_folder]; [None] is Console.quit.
    [Path.resolve] is taken as the identity (absolute path, no links). *)
Definition get_folder (p : path) (name : string) : option path :=
  if in_parts name p then Some p
  else if in_parts "processed" p then Some (change_subfolder p "processed" name)
  else if in_parts "raw" p then Some (change_subfolder p "raw" name)
  else if in_parts "configuration" p then Some (change_subfolder p "configuration" name)
  else None.

(** folder_structure.py:79-88. *)
Definition get_config_folder (p : path) := get_folder p "configuration".
Definition get_raw_folder (p : path) := get_folder p "raw".
Definition get_processed_folder (p : path) := get_folder p "processed".

(** folder_structure.py:68-76 [get_file_list] on a directory tree. *)
Inductive entry := File (name : string) | Dir (name : string) (children : list entry).
Fixpoint files_of (prefix : path) (e : entry) : list path :=
  match e with
  | File n => [(prefix ++ [n])%list]
  | Dir n ch => flat_map (files_of (prefix ++ [n])%list) ch
  end.
Definition get_file_list (prefix : path) (children : list entry) : list path :=
  flat_map (files_of prefix) children.
