(** Model of EkfImpl in auv_nav/localisation/ekf.py over exact matrices: any
    ordered field [R], state dimension [n] (Index.DIM = 12, ekf.py:23-36; the
    roll, pitch, yaw indices are 3, 4, 5). *)
From mathcomp Require Import all_ssreflect all_algebra.
Set Implicit Arguments.
Unset Strict Implicit.
Unset Printing Implicit Defensive.
Import GRing.Theory Num.Theory.
Local Open Scope ring_scope.

Section Ekf.
Variables (R : realFieldType) (n : nat).

(** ekf.py:187-211 [Measurement]; NaN entries are flagged by [m_nan]. *)
Record measurement := Measurement {
  m_z : 'cV[R]_n; m_cov : 'M[R]_n; m_update : pred 'I_n; m_nan : pred 'I_n;
  m_type : nat; m_time : R }.

(** ekf.py:55-66 [EkfState]. *)
Record ekf_state := EkfState { e_time : R; e_x : 'cV[R]_n; e_P : 'M[R]_n }.

(** ekf.py:39-52 [MeasurementReport]. *)
Record report := Report { r_valid : nat; r_dropped : nat; r_total : nat }.
Definition report0 := Report 0 0 0.
Definition report_add (r : report) (valid : bool) : report :=
  let v := if valid then (r_valid r).+1 else r_valid r in
  let d := if valid then r_dropped r else (r_dropped r).+1 in
  Report v d (v + d).

(** ekf.py:368-400 [EkfImpl]: the part of the object the filter changes.  The
    dictionaries are functions of the measurement type. *)
Record filter := Filter {
  f_time : R; f_x : 'cV[R]_n; f_P : 'M[R]_n; f_Q : 'M[R]_n; f_threshold : R;
  f_exceeded : nat; f_states : seq ekf_state;
  f_report : nat -> report; f_rejected : nat -> seq R }.

(** ekf.py:439-464: [wrap] is clamp_rotation (see AngleModel). *)
Variable wrap : R -> R.
Definition is_angle (i : 'I_n) : bool := (3 <= i)%N && (i <= 5)%N.
Definition wrap_angles (x : 'cV[R]_n) : 'cV[R]_n :=
  \col_i if is_angle i then wrap (x i 0) else x i 0.

(** Transition matrix and its Jacobian, ekf.py:667-782 (see EkfJacModel). *)
Variables transfer jacobian : R -> 'cV[R]_n -> 'M[R]_n.

(** ekf.py:504-526 [predict] (save_state=True). *)
Definition predict (timestamp delta : R) (k : filter) : filter :=
  let A := jacobian delta (f_x k) in
  let x := wrap_angles (transfer delta (f_x k) *m f_x k) in
  let P := A *m f_P k *m A^T + `|delta| *: f_Q k in
  Filter timestamp x P (f_Q k) (f_threshold k) (f_exceeded k)
    (rcons (f_states k) (EkfState timestamp x P)) (f_report k) (f_rejected k).

(** ekf.py:530-535: the components to update. *)
Definition update_indices (m : measurement) : seq 'I_n :=
  [seq i <- enum 'I_n | m_update m i && ~~ m_nan m i].

(** ekf.py:546-573: the sub-matrices. *)
Definition tiny : R := (10 ^+ 9)^-1.
Definition floor_variance (v : R) : R :=
  let v := if v < 0 then `|v| else v in if v < tiny then tiny else v.
Section Sub.
  Variable idx : seq 'I_n.
  Let u (i : 'I_(size idx)) : 'I_n := tnth (in_tuple idx) i.
  Definition H_of : 'M[R]_(size idx, n) := \matrix_(i, j) (j == u i)%:R.
  Definition R_of (C : 'M[R]_n) : 'M[R]_(size idx) :=
    \matrix_(i, j) if i == j then floor_variance (C (u i) (u i)) else C (u i) (u j).
  Definition sub_of (x : 'cV[R]_n) : 'cV[R]_(size idx) := \col_i x (u i) 0.
  (** ekf.py:594-600: angle components of the innovation are wrapped. *)
  Definition wrap_innovation (y : 'cV[R]_(size idx)) : 'cV[R]_(size idx) :=
    \col_i if is_angle (u i) then wrap (y i 0) else y i 0.
End Sub.

(** numpy.linalg.inv: [None] is LinAlgError (singular matrix). *)
Definition inverse k (M : 'M[R]_k) : option 'M[R]_k :=
  if M \in unitmx then Some (invmx M) else None.

(** ekf.py:466-502: squared Mahalanobis distance and test. *)
Definition mahalanobis2 k (y : 'cV[R]_k) (Sinv : 'M[R]_k) : R := (y^T *m (Sinv *m y)) 0 0.

(** ekf.py:620-622: the last recorded state takes the corrected values. *)
Definition set_last (l : seq ekf_state) (x : 'cV[R]_n) (P : 'M[R]_n) : seq ekf_state :=
  match l with
  | [::] => [::]
  | s :: l' => rcons (belast s l') (EkfState (e_time (last s l')) x P)
  end.

Definition upd {A : Type} (f : nat -> A) (t : nat) (v : A) : nat -> A :=
  fun t' => if t' == t then v else f t'.

(** ekf.py:528-630 [correct]. *)
Definition correct_with (idx : seq 'I_n) (m : measurement) (k : filter) : option filter :=
  let H := H_of idx in
  let Rm := R_of idx (m_cov m) in
  let pht := f_P k *m H^T in
  match inverse (H *m pht + Rm) with
  | None => None
  | Some Sinv =>
      let K := pht *m Sinv in
      let y := wrap_innovation (sub_of idx (m_z m) - sub_of idx (f_x k)) in
      let valid := ~~ (f_threshold k ^+ 2 <= mahalanobis2 y Sinv) in
      let rep := upd (f_report k) (m_type m) (report_add (f_report k (m_type m)) valid) in
      Some (if valid then
        let x := wrap_angles (f_x k + K *m y) in
        let G := 1%:M - K *m H in
        let P := G *m f_P k *m G^T + K *m Rm *m K^T in
        Filter (m_time m) x P (f_Q k) (f_threshold k) (f_exceeded k)
          (set_last (f_states k) x P) rep (f_rejected k)
      else
        Filter (f_time k) (f_x k) (f_P k) (f_Q k) (f_threshold k) (f_exceeded k).+1
          (f_states k) rep
          (upd (f_rejected k) (m_type m) (rcons (f_rejected k (m_type m)) (m_time m))))
  end.

Definition correct (m : measurement) (k : filter) : option filter :=
  correct_with (update_indices m) m k.

(** ekf.py:402-407 and 430-434, 409: the filter at the start of a run. *)
Definition initial (t : R) (x : 'cV[R]_n) (P Q : 'M[R]_n) (thr : R) : filter :=
  Filter t x P Q thr 0 [:: EkfState t x P] (fun _ => report0) (fun _ => [::]).

(** Any sequence of operations. *)
Inductive op := Predict (timestamp delta : R) | Correct (m : measurement).
Definition step (o : op) (k : filter) : option filter :=
  match o with Predict t d => Some (predict t d k) | Correct m => correct m k end.
Fixpoint steps (ops : seq op) (k : filter) : option filter :=
  match ops with
  | [::] => Some k
  | o :: ops' => match step o k with Some k' => steps ops' k' | None => None end
  end.

(** ekf.py:645-665: one smoothing step, given the smoothed successor [sf].
    [gain] is the product at line 651; the covariance stored in the first state
    is a plain array (it is not converted at ekf.py:406, process.py:287-298), for
    which [*] is the entrywise product, in all other states it is a matrix. *)
Variable wrap2 : R -> R. (* arctan2(sin, cos), ekf.py:657 *)
Definition smooth_step (entrywise : bool) (Q : 'M[R]_n) (s sf : ekf_state) : option ekf_state :=
  let delta := e_time sf - e_time s in
  let A := jacobian delta (e_x s) in
  let Ppred := A *m e_P s *m A^T + delta *: Q in
  match inverse Ppred with
  | None => None
  | Some Pinv =>
      let PA := if entrywise then \matrix_(i, j) (e_P s i j * A^T i j) else e_P s *m A^T in
      let J := PA *m Pinv in
      let innov0 := e_x sf - transfer delta (e_x s) *m e_x s in
      let innov := \col_i if is_angle i then wrap2 (innov0 i 0) else innov0 i 0 in
      Some (EkfState (e_time s) (e_x s + J *m innov) (e_P s + J *m (e_P sf - Ppred) *m J^T))
  end.

(** ekf.py:632-665 [smooth] on the states after the first. *)
Fixpoint smooth_tail (Q : 'M[R]_n) (l : seq ekf_state) : option (seq ekf_state) :=
  match l with
  | [::] => Some [::]
  | s :: l' =>
      match smooth_tail Q l' with
      | Some [::] => Some [:: s]
      | Some (sf :: r) =>
          match smooth_step false Q s sf with
          | Some s' => Some [:: s', sf & r]
          | None => None
          end
      | None => None
      end
  end.

(** ekf.py:632-665 [smooth]; fewer than two states leave no smoothed states. *)
Definition smooth (Q : 'M[R]_n) (l : seq ekf_state) : option (seq ekf_state) :=
  match l with
  | s :: (_ :: _) as l' =>
      match smooth_tail Q l' with
      | Some (sf :: r) =>
          match smooth_step true Q s sf with
          | Some s' => Some [:: s', sf & r]
          | None => None
          end
      | Some [::] => Some [::]
      | None => None
      end
  | _ => Some [::]
  end.

End Ekf.
