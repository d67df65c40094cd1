(** Model of the SLAM++ export: csv_tools.py:258-352 [spp_csv] (one EDGE3 line per record)
    and process.py:2041-2049 (the conversion of the poses of the first camera to
    differences, in place). *)
From Verif Require Import PyBase NmeaModel.

Section Row.
  Context {A : Type} (d : A).
  Definition set_at (l : list A) (i : nat) (x : A) : list A := firstn i l ++ x :: skipn (S i) l.
  Definition sub (l : list A) (a b : nat) : list A := firstn (b - a) (skipn a l).
  (** csv_tools.py:326-331: columns 3 and 5 of one of the rows of twelve. *)
  Definition swap_cols (l : list A) (i : nat) : list A :=
    let j := nth (12 * i + 3) l d in
    let l := set_at l (12 * i + 3) (nth (12 * i + 5) l d) in
    set_at l (12 * i + 5) j.
  (** 332-334: rows 3 and 5. *)
  Definition swap_rows (l : list A) : list A :=
    let j := sub l 36 48 in
    let l := firstn 36 l ++ sub l 60 72 ++ skipn 48 l in
    firstn 60 l ++ j ++ skipn 72 l.
  (** 336-343: [inf += inf[i:6]; inf = inf[12:]]. *)
  Definition take_row (l : list A) (i : nat) : list A := skipn 12 (l ++ sub l i 6).
  (** 318-345; [m] is the 12x12 matrix, line by line. *)
  Definition flatten (m : nat -> nat -> A) : list A := flat_map (fun i => map (m i) (seq 0 12)) (seq 0 12).
  Definition spp_row (m : nat -> nat -> A) : list A :=
    let inf := firstn 72 (flatten m) in
    let inf := fold_left swap_cols (seq 0 6) inf in
    let inf := swap_rows inf in
    fold_left take_row (seq 0 6) inf.
End Row.

(** csv_tools.py:279-303: node numbers.  [number f]: int(filename[-11:-4]) if that is all digits.
    [None]: ValueError of int(filename) (a filename has an extension, so it is no
    number). *)
Definition is_digit (c : N) : bool := ((48 <=? c) && (c <=? 57))%N.
Definition value (s : text) : Z := fold_left (fun v c => 10 * v + (Z.of_N c - 48))%Z s 0%Z.
Definition tail_slice (s : text) : text := let n := length s in firstn ((n - 4) - (n - 11)) (skipn (n - 11) s).
Definition number (f : text) : option Z :=
  let s := tail_slice f in
  match s with [] => None | _ => if forallb is_digit s then Some (value s) else None end.
Fixpoint edges_from (offset : Z) (files : list text) : option (list (Z * Z)) :=
  match files with
  | [] => Some []
  | f :: rest =>
      match number f with
      | None => None
      | Some n => match edges_from offset rest with None => None | Some e => Some ((n - offset, n - offset + 1)%Z :: e) end
      end
  end.
(** [flag and len > 1]; otherwise nothing is written. *)
Definition edges (files : list text) : option (list (Z * Z)) :=
  match files with
  | [] => Some []
  | [_] => Some []
  | f :: _ => match number f with None => None | Some o => edges_from o files end
  end.

(** process.py:2041-2049: one coordinate and the information of each record; the loop runs
    from the first record on, so the next record is still untouched when it is read. *)
Record pose := mkpose { at_ : Q; info : nat }.
Fixpoint relative (l : list pose) : list pose :=
  match l with
  | a :: ((b :: _) as rest) => mkpose (at_ a - at_ b) (info b) :: relative rest
  | [_] => []
  | [] => []
  end.
