From mathcomp Require Import all_ssreflect all_algebra.
From Verif Require Import EkfModel EkfSpec EkfRunModel.
Set Implicit Arguments.
Unset Strict Implicit.
Unset Printing Implicit Defensive.
Import Order.TTheory GRing.Theory Num.Theory.
Local Open Scope ring_scope.

Section Spec.
Variables (R : realFieldType) (n : nat) (T : Type) (time : T -> R).

(** Time-ordered lists, equal stamps allowed. *)
Definition in_order (l : seq T) : bool := sorted <=%R (map time l).
Definition input_in_order (i : input R T) : bool :=
  [&& in_order (i_o i), in_order (i_u i), in_order (i_d i), in_order (i_v i) & sorted <=%R (i_q i)].

(** Later than the start. *)
Definition after (start : R) (l : seq T) : seq T := [seq e <- l | start < time e].

(** Samples of each kind used by the passes, in order of use. *)
Definition used (sel : pass R T -> option T) (ps : seq (pass R T)) : seq T := pmap sel ps.
Definition queried (ps : seq (pass R T)) : seq R := [seq p_time p | p <- ps & p_q p].

(** Every sample used in a pass carries the stamp of the pass. *)
Definition stamped (p : pass R T) : Prop :=
  let ok oe := if oe is Some e then time e = p_time p else True in
  ok (p_o p) /\ ok (p_u p) /\ ok (p_d p) /\ ok (p_v p).

(** Each prediction step is the time since the previous pass. *)
Fixpoint deltas_from (t : R) (ps : seq (pass R T)) : Prop :=
  if ps is p :: ps' then p_delta p = p_time p - t /\ deltas_from (p_time p) ps' else True.

(** The sensors' measurement builders: independent components, own stamp. *)
Definition good_builder (build : kind -> T -> 'cV[R]_n -> measurement R n) : Prop :=
  forall kd e x, independent (build kd e x) /\ m_time (build kd e x) = time e.
End Spec.
