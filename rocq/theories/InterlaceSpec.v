From Coq Require Import Permutation.
From Verif Require Import PyBase.

(** [s] is the decimal notation of [v] with [w] digits before the point. *)
Definition digits_value (l : list N) : Z := fold_left (fun a d => 10 * a + Z.of_N d)%Z l 0%Z.
Definition decimal_text (w : nat) (s : list N) (v : Q) : Prop :=
  exists ip fp, s = map (N.add 48) ip ++ 46%N :: map (N.add 48) fp /\ length ip = w /\
    (forall d, In d (ip ++ fp) -> (d < 10)%N) /\
    (v == inject_Z (digits_value ip) + (digits_value fp # Pos.of_nat (10 ^ length fp)))%Q.

(** [out] is [l] in time order, equal times in their original order: every
    record keeps its place number in [l] and (time, place) increases. *)
Definition time_sorted {C} (l out : list (Q * C)) : Prop :=
  exists places : list nat, Permutation places (seq 0 (length l)) /\
    map (nth_error l) places = map Some out /\
    forall a b i j p q, (a < b)%nat -> nth_error places a = Some i -> nth_error places b = Some j ->
      nth_error l i = Some p -> nth_error l j = Some q ->
      (fst p < fst q)%Q \/ ((fst p == fst q)%Q /\ (i < j)%nat).
