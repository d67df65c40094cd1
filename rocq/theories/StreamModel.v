(** Model of the record loops of parse_alr.py:79-177 and parse_autosub.py:56-100: the
    same six lines for every category.  A record is a timestamp and the exported data;
    rows without bottom lock or with NaN values (84-92, 106, 120, 136-140, 163) are
    filtered out before.  The output format is oplab (in the other, [export] raises).  The data is exported before the timestamp is compared, and
    export leaves the timestamp alone. *)
From Verif Require Import PyBase.
Open Scope Q_scope.

Section Stream.
  Context {D : Type}.
  Definition record : Type := (Q * D)%type.

  (** parse_alr.py:96-100; [None]: IndexError of [data_list[-1] = data]. *)
  Fixpoint loop (previous : Q) (data_list : list record) (rows : list record) : option (list record) :=
    match rows with
    | [] => Some data_list
    | r :: rows =>
        if Qltb previous (fst r) then loop (fst r) (data_list ++ [r]) rows
        else match data_list with
             | [] => None
             | _ => loop (fst r) (removelast data_list ++ [r]) rows
             end
    end.
  (** parse_alr.py:81 *)
  Definition parse_stream (rows : list record) : option (list record) := loop 0 [] rows.
End Stream.
