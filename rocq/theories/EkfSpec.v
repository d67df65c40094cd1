From mathcomp Require Import all_ssreflect all_algebra.
From Verif Require Import EkfModel.
Set Implicit Arguments.
Unset Strict Implicit.
Unset Printing Implicit Defensive.
Import GRing.Theory Num.Theory.
Local Open Scope ring_scope.

Section Every.
  Variables (T : Type) (p : T -> Prop).
  Fixpoint every (l : seq T) : Prop :=
    match l with [::] => True | a :: l' => p a /\ every l' end.
End Every.

Section Spec.
Variables (R : realFieldType) (n : nat).

(** A covariance matrix: symmetric, no negative variance in any direction. *)
Definition symmetric k (M : 'M[R]_k) : Prop := M^T = M.
Definition psd k (M : 'M[R]_k) : Prop :=
  symmetric M /\ forall v : 'cV[R]_k, 0 <= (v^T *m M *m v) 0 0.

(** Independent components: the measurement covariance is diagonal, as built
    for every sensor (ekf.py:222-359). *)
Definition independent (m : measurement R n) : Prop :=
  forall i j, i != j -> m_cov m i j = 0.

Definition op_independent (o : op R n) : Prop :=
  match o with Predict _ _ => True | Correct m => independent m end.

(** Time stamps given to the predictions of a sequence of operations. *)
Fixpoint stamps (ops : seq (op R n)) : seq R :=
  match ops with
  | [::] => [::]
  | Predict t _ :: ops' => t :: stamps ops'
  | Correct _ :: ops' => stamps ops'
  end.

Definition recorded_times (l : seq (ekf_state R n)) : seq R := [seq e_time s | s <- l].

(** [P'] is no more uncertain than [P] in any direction. *)
Definition no_more_uncertain (P' P : 'M[R]_n) : Prop :=
  forall v : 'cV[R]_n, (v^T *m P' *m v) 0 0 <= (v^T *m P *m v) 0 0.

(** Equal estimates: everything but the counters. *)
Definition same_estimates (k k' : filter R n) : Prop :=
  f_time k = f_time k' /\ f_x k = f_x k' /\ f_P k = f_P k' /\ f_Q k = f_Q k' /\
  f_threshold k = f_threshold k' /\ f_states k = f_states k'.

(** Corrections of type [t] in a sequence of operations. *)
Definition attempts (t : nat) (ops : seq (op R n)) : nat :=
  count (fun o => if o is Correct m then m_type m == t else false) ops.

(** Squared Mahalanobis distance of an innovation [y] with covariance [S]:
    the [q] with S w = y and q = y . w. *)
Definition squared_distance k (y : 'cV[R]_k) (S : 'M[R]_k) (q : R) : Prop :=
  exists w, S *m w = y /\ (y^T *m w) 0 0 = q.

(** Roll, pitch and yaw are components 3, 4 and 5 of the state. *)
Definition angular (i : 'I_n) : bool := (i : nat) \in [:: 3; 4; 5]%N.
(** [u] lists, once each, the components the measurement updates and has a number for. *)
Definition picks (m : measurement R n) s (u : 'I_s -> 'I_n) : Prop :=
  injective u /\ forall j, (exists i, u i = j) <-> (m_update m j = true /\ m_nan m j = false).

(** Smoothing (Rauch, Tung and Striebel): [s'] is the filtered state [s] corrected by what its
    smoothed successor [sf] says beyond the prediction from [s]. *)
Definition smoothed_from (transfer jacobian : R -> 'cV[R]_n -> 'M[R]_n) (wrap : R -> R) (Q : 'M[R]_n)
    (s sf s' : ekf_state R n) : Prop :=
  let d := e_time sf - e_time s in
  let A := jacobian d (e_x s) in
  let M := A *m e_P s *m A^T + d *: Q in
  e_time s' = e_time s /\ exists (J : 'M[R]_n) (y : 'cV[R]_n),
    J *m M = e_P s *m A^T /\
    (forall i, let e := e_x sf i 0 - (transfer d (e_x s) *m e_x s) i 0 in y i 0 = if angular i then wrap e else e) /\
    e_x s' = e_x s + J *m y /\ e_P s' = e_P s + J *m (e_P sf - M) *m J^T.
End Spec.
