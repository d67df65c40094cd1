(** auv_nav/parsers/generic_csv_payload_parser.py:6-25: the samples of a payload from its CSV file, as process.py:515-524 asks for them. [None] is an error.
    A table is what pandas.read_csv has split: names (distinct) and rows of as many cells. Empty cells and columns of only True and False are left out. *)
From Coq Require Import Ascii String.
From Verif Require Import PyBase.
Open Scope Q_scope.

Inductive number := I (z : Z) | F (q : Q).
(** What a cell of a row is when it gets into the payload's data. *)
Inductive value := Number (n : number) | Words (s : string).
Definition rational (n : number) : Q := match n with I z => inject_Z z | F q => q end.

Section Parser.
  (** How pandas reads one cell: an integer, a number with a point or exponent, or words. *)
  Variable parse : string -> option number.

  (** The type of a column: integers, floats, or else the cells as they are. *)
  Inductive kind := Ints | Floats | Objects.
  Definition is_int (c : string) : bool := match parse c with Some (I _) => true | _ => false end.
  Definition is_number (c : string) : bool := match parse c with Some _ => true | None => false end.
  Definition kind_of (column : list string) : kind := if forallb is_int column then Ints else if forallb is_number column then Floats else Objects.
  Definition column (rows : list (list string)) (j : nat) : list string := map (fun r => nth j r ""%string) rows.
  Definition kinds (names : list string) (rows : list (list string)) : list kind := map (fun j => kind_of (column rows j)) (seq 0 (length names)).
  Definition same (a b : kind) : bool := match a, b with Ints, Ints | Floats, Floats | Objects, Objects => true | _, _ => false end.
  (** DataFrame.iterrows: a row is one array, of floats if the columns are integers and floats, of objects if there are words. *)
  Definition floated (ks : list kind) : bool := negb (existsb (same Objects) ks) && existsb (same Floats) ks.
  Definition cell_value (all_float : bool) (k : kind) (c : string) : value :=
    match k, parse c with
    | Objects, _ | _, None => Words c
    | Ints, Some n => Number (if all_float then F (rational n) else n)
    | Floats, Some n => Number (F (rational n))
    end.
  Fixpoint lookup (k : string) (l : list (string * value)) : option value :=
    match l with [] => None | (n, v) :: l => if String.eqb n k then Some v else lookup k l end.
  Record sample := mksample { epoch : Q; data : list (string * value) }.
  (** 13-24. The new column epoch_timestamp is a copy of corrected_timestamp, so it has no other type; one of the file is replaced.  [columns] is not used. *)
  Definition one (offset : Q) (row : list (string * value)) : option sample :=
    match lookup "corrected_timestamp" row with
    | Some (Number n) => Some (mksample (rational n + offset) (filter (fun kv => negb (String.eqb (fst kv) "epoch_timestamp")) row))
    | _ => None
    end.
  Fixpoint each {A B} (f : A -> option B) (l : list A) : option (list B) :=
    match l with [] => Some [] | a :: l => match f a, each f l with Some b, Some bs => Some (b :: bs) | _, _ => None end end.
  (** The type of a replaced epoch_timestamp column must not count any more for the rows' type. *)
  Definition typed (names : list string) (rows : list (list string)) : list kind :=
    map snd (filter (fun nk => negb (String.eqb (fst nk) "epoch_timestamp")) (combine names (kinds names rows))).
  Definition row_values (names : list string) (rows : list (list string)) (r : list string) : list (string * value) :=
    combine names (map (fun kc => cell_value (floated (typed names rows)) (fst kc) (snd kc)) (combine (kinds names rows) r)).
  Definition generic_csv_payload_parser {C} (names : list string) (rows : list (list string)) (columns : C) (offset : Q) : option (list sample) :=
    if existsb (String.eqb "corrected_timestamp") names then each (fun r => one offset (row_values names rows r)) rows else None.
End Parser.
