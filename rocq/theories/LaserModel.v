(** Model of auv_cal/laser_calibrator.py: findLaserInImage, 131-202.  Exact arithmetic; the
    rows searched are taken to be rows of the image (an end row below the image is an
    IndexError, left out). *)
From Verif Require Import PyBase.
Open Scope Q_scope.

Definition qn (n : nat) : Q := inject_Z (Z.of_nat n).

(** 184-191, one row of the window at [vw]; [col] is the image column. *)
Definition weight (k vw v : nat) : Q := 1 - 2 * Qabs (qn vw + (qn k - 1) / 2 - qn v) / qn k.
Definition accumulate (col : nat -> Q) (k vw : nat) (acc : Q * Q * Q) (v : nat) : Q * Q * Q :=
  let '(gt, gt_m, gt_mv) := acc in
  (gt + weight k vw v * col v, gt_m + col v, gt_mv + (qn v - qn vw) * col v).
Definition window (col : nat -> Q) (k vw : nat) : Q * Q * Q := fold_left (accumulate col k vw) (seq vw k) (0, 0, 0).

(** 175-197: the best window so far, its sum and row; no row while no window was taken. *)
Definition step (col : nat -> Q) (k : nat) (best : Q * option Q) (vw : nat) : Q * option Q :=
  let '(gmax, vgmax) := best in
  let '(gt, gt_m, gt_mv) := window col k vw in
  if Qltb gmax gt then (gt, Some (qn vw + gt_mv / gt_m)) else best.
Definition scan (col : nat -> Q) (k start_row end_row : nat) : Q * option Q :=
  fold_left (step col k) (seq start_row (end_row - k - start_row)) (0, None).

(** 198-202; for a threshold that is not negative there is a row (the row of the previous column,
    or none and an exception, for negative thresholds is not modelled). *)
Definition detect (col : nat -> Q) (k start_row end_row : nat) (threshold : Q) : option Q :=
  let '(gmax, vgmax) := scan col k start_row end_row in
  if Qltb threshold gmax then vgmax else None.

(** 160-173: the columns without prior; 80 to width - 81, every [incr]th. *)
Definition width_array (width : nat) : list nat := seq 80 (width - 160).
Fixpoint every (incr n : nat) (l : list nat) : list nat :=
  match l with
  | [] => []
  | x :: l => match n with O => x :: every incr (incr - 1) l | S n => every incr n l end
  end.
Definition columns (width num_columns : nat) : list nat :=
  let w := width_array width in
  if (0 <? num_columns)%nat then every (Nat.max (length w / num_columns - 1) 1) 0 w else w.

(** The whole function: rows and columns of the detections, in column order. *)
Fixpoint find_laser (img : nat -> nat -> Q) (k start_row end_row : nat) (threshold : Q) (cols : list nat) : list (Q * nat) :=
  match cols with
  | [] => []
  | u :: cols =>
      match detect (fun v => img v u) k start_row end_row threshold with
      | Some r => (r, u) :: find_laser img k start_row end_row threshold cols
      | None => find_laser img k start_row end_row threshold cols
      end
  end.
