(** Model of ExtendedKalmanFilter.run (auv_nav/localisation/ekf.py:874-1047). *)
From mathcomp Require Import all_ssreflect all_algebra.
From Verif Require Import EkfModel.
Set Implicit Arguments.
Unset Strict Implicit.
Unset Printing Implicit Defensive.
Import Order.TTheory GRing.Theory Num.Theory.
Local Open Scope ring_scope.

Inductive kind := Orientation | Usbl | Depth | Velocity.

Section Run.
Variables (R : realFieldType) (n : nat) (wrap : R -> R)
  (transfer jacobian : R -> 'cV[R]_n -> 'M[R]_n).
(** Sensor samples and their time stamps. *)
Variables (T : Type) (time : T -> R).
(** Measurement.from_orientation, from_usbl, from_depth, from_dvl
    (ekf.py:222-359); the lever arms of USBL and depth use the current state. *)
Variable build : kind -> T -> 'cV[R]_n -> measurement R n.

(** The lists that are still to be processed (a list and its running index). *)
Record input := Input { i_o : seq T; i_u : seq T; i_d : seq T; i_v : seq T; i_q : seq R }.

(** ekf.py:893-922: the elements up to the start time are passed over. *)
Fixpoint skip_t (start : R) (l : seq T) : seq T :=
  if l is e :: l' then (if time e <= start then skip_t start l' else l) else [::].
Fixpoint skip_q (start : R) (l : seq R) : seq R :=
  if l is e :: l' then (if e <= start then skip_q start l' else l) else [::].

(** ekf.py:953-982: the stamps of the next elements. *)
Definition next_t (l : seq T) : seq R := if l is e :: _ then [:: time e] else [::].
Definition next_stamps (i : input) : seq R :=
  next_t (i_u i) ++ next_t (i_d i) ++ next_t (i_o i) ++ next_t (i_v i) ++ take 1 (i_q i).

(** ekf.py:983-986: [min], nothing when no element is left. *)
Definition minimum (l : seq R) : option R :=
  if l is a :: l' then Some (foldr Num.min a l') else None.

(** ekf.py:995-1029: take the next element if its stamp is the current one. *)
Definition take_t (t : R) (l : seq T) : option T * seq T :=
  if l is e :: l' then (if time e == t then (Some e, l') else (None, l)) else (None, [::]).
Definition take_q (t : R) (l : seq R) : bool * seq R :=
  if l is e :: l' then (if e == t then (true, l') else (false, l)) else (false, [::]).
Definition use (kd : kind) (oe : option T) (k : filter R n) : option (filter R n) :=
  if oe is Some e then correct wrap (build kd e (f_x k)) k else Some k.

(** What one pass through the loop did (not in the code; observed effects). *)
Record pass := Pass { p_time : R; p_delta : R; p_o : option T; p_u : option T;
                      p_d : option T; p_v : option T; p_q : bool }.

Definition obind2 {A B : Type} (a : option A) (f : A -> option B) : option B :=
  if a is Some x then f x else None.

(** ekf.py:939-1032.  [cur] is current_stamp; the result is the list of passes,
    the elements left over and the filter, [None] an exception. *)
Fixpoint loop (fuel : nat) (endt cur : R) (i : input) (k : filter R n)
    : option (seq pass * input * filter R n) :=
  if fuel is fuel'.+1 then
    if cur < endt then
      if minimum (next_stamps i) is Some t then
        let delta := t - f_time k in
        let (o, o') := take_t t (i_o i) in
        let (u, u') := take_t t (i_u i) in
        let (d, d') := take_t t (i_d i) in
        let (v, v') := take_t t (i_v i) in
        let (q, q') := take_q t (i_q i) in
        obind2 (use Orientation o (predict wrap transfer jacobian t delta k)) (fun k1 =>
        obind2 (use Usbl u k1) (fun k2 =>
        obind2 (use Depth d k2) (fun k3 =>
        obind2 (use Velocity v k3) (fun k4 =>
        obind2 (loop fuel' endt t (Input o' u' d' v' q') k4) (fun r =>
          let: (ps, i', k') := r in
          Some (Pass t delta o u d v q :: ps, i', k'))))))
      else Some ([::], i, k)
    else Some ([::], i, k)
  else None.

Definition count (i : input) : nat :=
  (size (i_o i) + size (i_u i) + size (i_d i) + size (i_v i) + size (i_q i))%N.

(** ekf.py:874-1032 [run]: [start] is the time of the initial state. *)
Definition skip (start : R) (i : input) : input :=
  Input (skip_t start (i_o i)) (skip_t start (i_u i)) (skip_t start (i_d i))
    (skip_t start (i_v i)) (skip_q start (i_q i)).
Definition run (start endt : R) (x : 'cV[R]_n) (P Q : 'M[R]_n) (thr : R) (i : input) :=
  let i' := skip start i in
  loop (count i').+1 endt 0 i' (initial start x P Q thr).

End Run.
