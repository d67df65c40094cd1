(** Model of auv_nav/parsers/parse_interlacer.py. *)
From Verif Require Import PyBase.

(** Python string comparison [a <= b], by code points. *)
Fixpoint str_le (a b : list N) : bool :=
  match a, b with
  | [], _ => true
  | _ :: _, [] => false
  | x :: a', y :: b' => if (x <? y)%N then true else if (y <? x)%N then false else str_le a' b'
  end.

(** Python [sorted(l, key)]: a stable sort; modelled by stable insertion. *)
Fixpoint insert {A} (key : A -> list N) (x : A) (l : list A) : list A :=
  match l with
  | [] => [x]
  | y :: l' => if str_le (key x) (key y) then x :: l else y :: insert key x l'
  end.
Fixpoint sorted {A} (key : A -> list N) (l : list A) : list A :=
  match l with [] => [] | x :: l' => insert key x (sorted key l') end.

(** parse_interlacer.py:16-19 [sort_values]: pairs (index, text) sorted by text,
    then unzipped; [None] is the failed unpacking of an empty zip at line 40. *)
Definition sort_values (value : list (list N)) : option (list nat * list (list N)) :=
  match sorted snd (combine (seq 0 (length value)) value) with
  | [] => None
  | l => Some (List.split l)
  end.

(** parse_interlacer.py:23-49.  A record is its time stamp and its content;
    [str_float] is str(float(.)).  JSON reading and writing are not modelled. *)
Section Interlace.
  Context {C : Type}.
  Variable str_float : Q -> list N.
  Definition interlacer (data : list (Q * C)) : option (list (Q * C)) :=
    match sort_values (map (fun p => str_float (fst p)) data) with
    | None => None
    | Some (idx, _) =>
        Some (flat_map (fun i => match nth_error data i with Some r => [r] | None => [] end) idx)
    end.
End Interlace.
