(** Model of auv_nav/tools/displayable_path.py (the printed tree of a folder) and of
    [remove_directory] in oplab/folder_structure.py. *)
From Coq Require Import NArith List Bool Arith.
Import ListNotations.

(** A text is the list of its code points. *)
Definition text := list N.

(** ** DisplayablePath *)
(** A folder with what [iterdir] yields, in its order.  A link that is followed is a folder too. *)
Inductive tree := File (name : text) | Dir (name : text) (kids : list tree).
Definition name_of (t : tree) : text := match t with File n => n | Dir n _ => n end.
Definition is_dir (t : tree) : bool := match t with File _ => false | Dir _ _ => true end.

(** displayable_path.py:13-16. *)
Definition middle : text := [9500; 9472; 9472]%N.
Definition lastly : text := [9492; 9472; 9472]%N.
Definition parent_middle : text := [32; 32; 32; 32]%N.
Definition parent_last : text := [9474; 32; 32; 32]%N.
Definition space : N := 32%N.
Definition slash : N := 47%N.

(** displayable_path.py:18-31: a displayed path; of its chain of parents, [is_last] of itself and
    of every parent but the root, which has none.  [depth] is the length of the chain. *)
Record shown := mkshown { s_name : text; s_dir : bool; s_chain : list bool }.
Definition displayname (s : shown) : text := if s_dir s then s_name s ++ [slash] else s_name s.
Definition depth (s : shown) : nat := length (s_chain s).

Section Tree.
(** [str.lower], character by character. *)
Variable low : N -> N.
Fixpoint text_leb (a b : text) : bool :=
  match a, b with
  | [], _ => true
  | _ :: _, [] => false
  | x :: a, y :: b => if (x <? y)%N then true else if (x =? y)%N then text_leb a b else false
  end.
(** displayable_path.py:49-52: sorted by the lower-case path.  All paths have the same parent, so
    the names decide; the sort is stable. *)
Definition le_name (a b : tree) : bool := text_leb (map low (name_of a)) (map low (name_of b)).
Fixpoint insert (x : tree) (l : list tree) : list tree :=
  match l with [] => [x] | y :: l' => if le_name x y then x :: l else y :: insert x l' end.
Fixpoint sorted (l : list tree) : list tree := match l with [] => [] | x :: l => insert x (sorted l) end.
(** The sort of every folder, done beforehand: it looks at names only. *)
Fixpoint arrange (t : tree) : tree :=
  match t with File n => File n | Dir n kids => Dir n (sorted (map arrange kids)) end.

(** displayable_path.py:46-69 [make_tree] without criteria; [this] is this_depth, which the loop
    changes. *)
Variable max_depth : nat.
Fixpoint make_tree (t : tree) (chain : list bool) (this : nat) : list shown :=
  match t with
  | File n => [mkshown n false chain]
  | Dir n kids => mkshown n true chain ::
      (fix loop (kids : list tree) (this : nat) : list shown :=
         match kids with
         | [] => []
         | k :: rest =>
             let is_last := match rest with [] => true | _ => false end in
             if is_dir k && (this <? max_depth)%nat then
               let this := if is_last then this else S this in
               make_tree k (is_last :: chain) this ++ loop rest this
             else mkshown (name_of k) (is_dir k) (is_last :: chain) :: loop rest this
         end) kids this
  end.

(** displayable_path.py:86-107 [displayable]. *)
Definition displayable (s : shown) : text :=
  match s_chain s with
  | [] => displayname s
  | is_last :: parents =>
      let prefix := if is_last then lastly else middle in
      let parts := (prefix ++ [space] ++ displayname s) :: map (fun b : bool => if b then parent_middle else parent_last) parents in
      concat (rev parts)
  end.
(** displayable_path.py:71-80 [show_tree]: the printed lines; [None]: the root is no folder and
    iterdir raises. *)
Definition show_tree (root : tree) : option (list text) :=
  if is_dir root then Some (map displayable (filter (fun s => depth s <? max_depth)%nat (make_tree (arrange root) [] 0))) else None.
End Tree.

(** ** remove_directory *)
Definition path := list text.
(** What is at a path; a link tells the path of what it leads to (which is no link itself). *)
Inductive kind := AFile | ADir | ALink (target : path).
Definition disk := list (path * kind).
Definition path_dec : forall a b : path, {a = b} + {a <> b} := list_eq_dec (list_eq_dec N.eq_dec).
Definition text_dec : forall a b : text, {a = b} + {a <> b} := list_eq_dec N.eq_dec.
Fixpoint lookup (d : disk) (p : path) : option kind :=
  match d with [] => None | (q, k) :: d => if path_dec q p then Some k else lookup d p end.
Definition erase (d : disk) (p : path) : disk := filter (fun e => if path_dec (fst e) p then false else true) d.
(** The system follows the links in a path: all of them ([follow]) or all but the last ([spot]). *)
Fixpoint walk (d : disk) (at_ : path) (rest : path) : path :=
  match rest with
  | [] => at_
  | x :: rest => let q := at_ ++ [x] in walk d (match lookup d q with Some (ALink t) => t | _ => q end) rest
  end.
Definition follow (d : disk) (p : path) : path := walk d [] p.
Definition spot (d : disk) (p : path) : path := match p with [] => [] | _ => follow d (removelast p) ++ [last p []] end.
Definition dir_at (d : disk) (p : path) : bool := match lookup d (follow d p) with Some ADir => true | _ => false end.
(** The names that [os.listdir] finds. *)
Definition names (d : disk) (p : path) : list text :=
  flat_map (fun e => match fst e with [] => [] | q => if path_dec (removelast q) p then [last q []] else [] end) d.
(** Each operation tells whether it raised. *)
Definition unlink (d : disk) (p : path) : disk * bool :=
  match lookup d (spot d p) with Some ADir | None => (d, true) | Some _ => (erase d (spot d p), false) end.
Definition rmdir (d : disk) (p : path) : disk * bool :=
  match lookup d (spot d p), names d (spot d p) with Some ADir, [] => (erase d (spot d p), false) | _, _ => (d, true) end.

(** folder_structure.py:122-135 [remove_directory]; the names are read before the loop starts.
    [fuel] bounds the recursion; running out of it counts as raising. *)
Fixpoint remove_directory (fuel : nat) (d : disk) (folder : path) : disk * bool :=
  match fuel with
  | O => (d, true)
  | S fuel =>
      if dir_at d folder then
        let '(d, raised) := fold_left (fun '(d, raised) x =>
            if raised : bool then (d, raised)
            else let p := folder ++ [x] in if dir_at d p then remove_directory fuel d p else unlink d p)
          (names d (follow d folder)) (d, false) in
        if raised then (d, true) else rmdir d folder
      else (d, true)
  end.
