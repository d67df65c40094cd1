(** Model of EkfImpl.clamp_rotation (auv_nav/localisation/ekf.py:444-464) over the
    reals.  The warning at 446-459 does not change the result. *)
From Coq Require Import Reals Lra.
Open Scope R_scope.

(** ekf.py:460-461. *)
Fixpoint turn_back (fuel : nat) (r : R) : option R :=
  match fuel with
  | O => None
  | S fuel => if Rlt_dec PI r then turn_back fuel (r - 2 * PI) else Some r
  end.

(** ekf.py:462-463. *)
Fixpoint turn_forth (fuel : nat) (r : R) : option R :=
  match fuel with
  | O => None
  | S fuel => if Rlt_dec r (- PI) then turn_forth fuel (r + 2 * PI) else Some r
  end.

(** [None]: the loops took more than [fuel] turns. *)
Definition clamp_rotation (fuel : nat) (r : R) : option R :=
  match turn_back fuel r with
  | Some r' => turn_forth fuel r'
  | None => None
  end.
