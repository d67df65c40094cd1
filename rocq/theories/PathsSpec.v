From Coq Require Import String.
From Verif Require Import PyBase PathsModel.
Local Open Scope string_scope.

(** The three data trees. *)
Definition trees : list string := ["raw"; "processed"; "configuration"].

(** [p] lies in tree [t]: exactly one component is a tree name, and it is [t]. *)
Definition located (t : string) (pre post : path) (p : path) : Prop :=
  p = (pre ++ t :: post)%list /\ In t trees /\
  (forall c, In c pre -> ~ In c trees) /\ (forall c, In c post -> ~ In c trees).

(** File paths below a directory. *)
Inductive below : path -> entry -> path -> Prop :=
| below_file : forall pre n, below pre (File n) (pre ++ [n])%list
| below_dir : forall pre n ch e p, In e ch -> below (pre ++ [n])%list e p -> below pre (Dir n ch) p.
