(** Model of the seafloor depths computed in auv_nav/process.py:640-667. *)
From Verif Require Import PyBase InterpModel.
Open Scope Q_scope.

Record depth_m := mkdepth { d_ts : Q; d_val : Q }.
Record alt_m := mkalt { a_ts : Q; a_val : Q }.
Definition none_d : depth_m := mkdepth 0 0.

(** 645-649: the while loop; [len ds - j] steps are enough. *)
Fixpoint advance (fuel : nat) (ds : list depth_m) (t : Q) (j : nat) : nat :=
  match fuel with
  | O => j
  | S fuel => if ((S j <? length ds)%nat && Qltb (d_ts (nth j ds none_d)) t)%bool then advance fuel ds t (S j) else j
  end.
(** 644-663: [None] marks the indices put on non_processed_altitude_index_list. *)
Fixpoint first_pass (ds : list depth_m) (j : nat) (alts : list alt_m) : list (option Q) :=
  match alts with
  | [] => []
  | a :: alts =>
      let j := advance (length ds) ds (a_ts a) j in
      (if (0 <? j)%nat then
         let d1 := nth (j - 1) ds none_d in
         let d2 := nth j ds none_d in
         Some (interpolate (a_ts a) (d_ts d1) (d_ts d2) (d_val d1) (d_val d2) + a_val a)
       else None) :: first_pass ds j alts
  end.
(** 665-667, from the last such index to the first; [None]: IndexError. *)
Fixpoint fill (l : list (option Q)) : option (list Q) :=
  match l with
  | [] => Some []
  | Some v :: l => option_map (cons v) (fill l)
  | None :: l => match fill l with Some (w :: r) => Some (w :: w :: r) | _ => None end
  end.
Definition seafloor (ds : list depth_m) (alts : list alt_m) : option (list Q) := fill (first_pass ds 0 alts).
