(** What the checksum theorems mean; independent of the parser's splitting. *)
From Verif Require Import PyBase NmeaModel.
Open Scope N_scope.

(** Value of a text of hexadecimal digits of either case. *)
Definition hex_digit (c : N) : option N :=
  if (48 <=? c) && (c <=? 57) then Some (c - 48)
  else if (65 <=? c) && (c <=? 70) then Some (c - 55)
  else if (97 <=? c) && (c <=? 102) then Some (c - 87)
  else None.
Definition hex_value (s : text) : option N :=
  fold_left (fun acc c => match acc, hex_digit c with
                          | Some v, Some d => Some (16 * v + d)
                          | _, _ => None end) s (Some 0).

(** Exclusive or of all characters. *)
Definition xor_all (s : text) : N := fold_right N.lxor 0 s.

Definition plain (s : text) : Prop := forall c, In c s -> is_space c = false /\ c <> 42. (* '*' *)
Definition white (s : text) : Prop := forall c, In c s -> is_space c = true.
