(** oplab/filename_to_date.py:144-198 (read_timestamp_file) and the look-up of an image in it (44-54, 134-142): the times of images whose names only
    have a number, as on AE2000 (default_yaml/ae2000/YK17-23C/camera.yaml).
    A file is the fields of its header and of its rows, split at the commas: no quotes, no empty lines, every line ends with a newline, and the
    names in the header differ (pandas renames the second of two).  The rows of a frame of texts are assumed to be views of it, so that what 189-192
    writes to them is kept (the repository's test relies on it). *)
From Coq Require Import Ascii String.
From Coq Require Import DecimalString.
From Verif Require Import PyBase TimeModel.
Open Scope list_scope.
Open Scope Q_scope.

Inductive res (A : Type) := Ok (a : A) | Raises | Quits.
Arguments Ok {A} _. Arguments Raises {A}. Arguments Quits {A}.
Definition andthen {A B} (r : res A) (f : A -> res B) : res B := match r with Ok a => f a | Raises => Raises | Quits => Quits end.
Notation "'do' x <- r ; b" := (andthen r (fun x => b)) (at level 200, x name, right associativity).
Definition lift {A} (o : option A) : res A := match o with Some a => Ok a | None => Raises end.
Fixpoint each {A B} (f : A -> res B) (l : list A) : res (list B) :=
  match l with [] => Ok [] | a :: l => do b <- f a; do bs <- each f l; Ok (b :: bs) end.

Definition text : Type := list ascii.
Definition txt (s : string) : text := list_ascii_of_string s.
Definition text_eqb (a b : text) : bool := if list_eq_dec ascii_dec a b then true else false.
(** [a in b] *)
Fixpoint starts (a b : text) : bool := match a, b with [], _ => true | x :: a, y :: b => Ascii.eqb x y && starts a b | _ :: _, [] => false end.
Fixpoint contains (a b : text) : bool := starts a b || match b with [] => false | _ :: b => contains a b end.

(** ** pandas.read_csv(dtype=str) *)
Definition newline : ascii := ascii_of_nat 10.
(** the texts read as missing *)
Definition na_values : list text := map txt [""; "#N/A"; "#N/A N/A"; "#NA"; "-1.#IND"; "-1.#QNAN"; "-NaN"; "-nan"; "1.#IND"; "1.#QNAN"; "<NA>"; "N/A"; "NA"; "NULL"; "NaN";
  "None"; "n/a"; "nan"; "null"]%string.
(** astype(str) of a cell *)
Definition shown (c : text) : text := if existsb (text_eqb c) na_values then txt "nan" else c.
Definition unknown (i : nat) : text := txt "unknown" ++ txt (NilEmpty.string_of_uint (Nat.to_uint i)).
(** 153-167: the last name of the header keeps its newline when the first row has more fields. *)
Fixpoint ended (l : list text) : list text := match l with [] => [] | [h] => [h ++ [newline]] | h :: l => h :: ended l end.
Definition names (header first : list text) : list text :=
  if (length header <? length first)%nat then ended header ++ map unknown (seq 0 (length first - length header)) else header.
(** A row with more fields than names is a ParserError; one with fewer is filled up. *)
Definition filled (n : nat) (r : list text) : res (list text) :=
  if (n <? length r)%nat then Raises else Ok (r ++ repeat [] (n - length r)).
Fixpoint position (k : text) (l : list text) : option nat :=
  match l with [] => None | h :: l => if text_eqb k h then Some O else option_map S (position k l) end.
Definition cell (hs : list text) (k : text) (r : list text) : res text := lift (match position k hs with Some i => nth_error r i | None => None end).

Section Read.
  (** float(text) *)
  Variable to_float : text -> option Q.

  (** 173-187: the names and contents of the columns put together, and the index *)
  Definition is_index (c : text * text) : bool := contains (txt "iii") (snd c).
  Definition is_date (c : text * text) : bool := negb (is_index c) && negb (text_eqb (snd c) (txt "filename")).
  Fixpoint sorted_out (hs : list text) (columns : list (text * text)) (dates : list (text * text)) (index : option text) : res (list (text * text) * option text) :=
    match columns with
    | [] => Ok (dates, index)
    | c :: columns =>
        if is_date c then match position (fst c) hs with Some _ => sorted_out hs columns (dates ++ [c]) index | None => Raises end
        else if is_index c then match index with None => sorted_out hs columns dates (Some (fst c)) | Some _ => Quits end
        else sorted_out hs columns dates index
    end.
  Definition combined (hs : list text) (dates : list (text * text)) (r : list text) : res text :=
    do cs <- each (fun c => cell hs (fst c) r) dates; Ok (concat (map shown cs)).
  (** 56-142 while the table is not there yet *)
  Definition stamp_of (name fmt : text) : res Q :=
    match filename_stamp name fmt with
    | Stamp t => Ok t
    | FromEpochField => lift (to_float (field "e"%char name fmt))
    | FromIndexFile => Quits
    | BadName => Raises
    end.
  (** [None]: self.df stays None. *)
  Definition read_timestamp_file (columns : list (text * text)) (lines : list (list text)) : res (option (list (Z * Q))) :=
    match lines with
    | [] => Ok None
    | [_] => Raises
    | header :: (first :: _) as rows =>
        let hs := names header first in
        do rows <- each (filled (length hs)) (tl lines);
        do s <- sorted_out hs columns [] None;
        do ts <- each (fun r => do c <- combined hs (fst s) r; stamp_of c (concat (map snd (fst s)))) rows;
        match snd s with
        | None | Some [] => Ok None
        | Some k =>
            do is <- each (fun r => do c <- cell hs k r; if existsb (text_eqb c) na_values then Raises else lift (py_int c)) rows;
            Ok (Some (combine is ts))
        end
    end.

  (** 44-54 and 134-142: the time of an image; [fmt] has letters 'i'.  [Several]: a series instead of a number. *)
  Inductive time := At (t : Q) | Several.
  Definition image_time (df : option (list (Z * Q))) (stem fmt : text) : res time :=
    match filename_stamp stem fmt with
    | FromIndexFile =>
        match df with
        | None => Quits
        | Some l =>
            do i <- lift (py_int (field "i"%char stem fmt));
            match filter (fun e => Z.eqb (fst e) i) l with
            | [] => Raises
            | [e] => Ok (At (snd e))
            | _ => Ok Several
            end
        end
    | Stamp t => Ok (At t)
    | FromEpochField => do t <- lift (to_float (field "e"%char stem fmt)); Ok (At t)
    | BadName => Raises
    end.
End Read.
