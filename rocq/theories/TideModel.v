(** Model of the tidal correction in parse.py:699-743.  A result is its timestamp,
    its depth (["data"][0]["depth"] or ["data_target"][4]["depth"], parse.py:735, 739)
    and everything else it holds; a tide sample is (timestamp, height). *)
From Verif Require Import PyBase InterpModel.
Open Scope Q_scope.

Section Tide.
  Context {X : Type}.
  Record result := mkRes { r_t : Q; r_depth : Q; r_rest : X }.
  Definition tide_sample : Type := Q * Q.

  (** parse.py:715-720, the while loop; bound [n] = len(tide_list) - 2 as a (possibly
      negative) integer. *)
  Fixpoint seek (fuel : nat) (tide : list (Q * Q)) (t : Q) (j : nat) : nat :=
    match fuel with
    | O => j
    | S fuel' =>
        if (Z.of_nat j <? Z.of_nat (length tide) - 2)%Z then
          match nth_error tide j with
          | Some (tj, _) => if Qltb tj t then seek fuel' tide t (S j) else j
          | None => j
          end
        else j
    end.

  (** parse.py:722-743 for one result. *)
  Definition correct_one (tide : list (Q * Q)) (j : nat) (r : result) : option result :=
    match j with
    | O => Some r
    | S j' =>
        match nth_error tide j', nth_error tide j with
        | Some (t1, h1), Some (t2, h2) =>
            if Qle_bool (r_t r) t2
            then Some (mkRes (r_t r) (r_depth r - interpolate (r_t r) t1 t2 h1 h2) (r_rest r))
            else Some r
        | _, _ => None
        end
    end.

  (** parse.py:713-743: [j] persists from one result to the next. *)
  Fixpoint correct_from (tide : list (Q * Q)) (j : nat) (rs : list result) : option (list result) :=
    match rs with
    | [] => Some []
    | r :: rs' =>
        let j' := seek (length tide) tide (r_t r) j in
        match correct_one tide j' r, correct_from tide j' rs' with
        | Some r', Some l => Some (r' :: l)
        | _, _ => None
        end
    end.
  Definition correct_tide (tide : list (Q * Q)) (rs : list result) : option (list result) :=
    correct_from tide 0 rs.
End Tide.
Arguments result : clear implicits.
