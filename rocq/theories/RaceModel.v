(** Model of the background writers: process.py:595-638, 1800-2030 start one thread per CSV
    file; each reads the fields of shared record objects one after the other
    (csv_tools.py:80-92) while the main thread goes on, and 2042-2050 assigns to fields of
    the same objects before the threads are joined (2098-2100).
    A location is a record and a field; the store holds the current values.  A writer is
    the locations it still has to read and what it has written; the main thread is the
    assignments it still has to make, each computed from the current store.  One step is
    one read or one assignment, of any thread. *)
From Verif Require Import PyBase.

Section Race.
  Context {V : Type}.
  Definition loc : Type := (nat * nat)%type.
  Definition loc_eqb (a b : loc) : bool := ((fst a =? fst b) && (snd a =? snd b))%nat.
  Definition store : Type := loc -> V.
  Definition put (s : store) (l : loc) (v : V) : store := fun k => if loc_eqb k l then v else s k.
  Definition assign : Type := (loc * (store -> V))%type.
  Definition writer : Type := (list loc * list V)%type.
  Record world := mkworld { st : store; main : list assign; writers : list writer }.

  Inductive step : world -> world -> Prop :=
  | step_main : forall s l f rest ws, step (mkworld s ((l, f) :: rest) ws) (mkworld (put s l (f s)) rest ws)
  | step_write : forall s m l todo out before after,
      step (mkworld s m (before ++ (l :: todo, out) :: after)) (mkworld s m (before ++ (todo, out ++ [s l]) :: after)).
  Inductive steps : world -> world -> Prop :=
  | steps_refl : forall w, steps w w
  | steps_cons : forall a b c, step a b -> steps b c -> steps a c.
  (** Every thread has been joined. *)
  Definition joined (w : world) : Prop := main w = [] /\ forall x, In x (writers w) -> fst x = [].
  Definition start (s : store) (m : list assign) (files : list (list loc)) : world := mkworld s m (map (fun f => (f, [])) files).
End Race.

(** The locations a CSV of [n] records with [k] fields reads. *)
Definition file_locs (n k : nat) : list loc := flat_map (fun i => map (fun f => (i, f)) (seq 0 k)) (seq 0 n).
(** process.py:2042-2048 on [k] fields of [n] records. *)
Definition relative_program (n k : nat) : list (@assign Q) :=
  flat_map (fun i => map (fun f => ((i, f), fun s : store => (s (i, f) - s (S i, f))%Q)) (seq 0 k)) (seq 0 (n - 1)).
