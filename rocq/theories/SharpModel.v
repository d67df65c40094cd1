(** auv_cal/camera_calibrator.py:220-243 (_is_sharp): whether the part of an image with the calibration board is in focus. Pixels and positions are
    rationals (float32 and binary64 in the code), so the threshold 0.26 is exact. [None] is an exception. *)
From Verif Require Import PyBase.
Open Scope Q_scope.

(** What cv2.imread returns: rows, columns, channels and the values at a row, a column and a channel. *)
Record image := mkimage { rows : nat; cols : nat; chans : nat; at_ : nat -> nat -> nat -> Q }.
Definition point := (Q * Q)%type.

(** int() of a float: towards zero. *)
Definition int (q : Q) : Z := Z.quot (Qnum q) (Zpos (Qden q)).
(** min and max of the four *)
Definition qmin (a b : Q) : Q := if Qle_bool a b then a else b.
Definition qmax (a b : Q) : Q := if Qle_bool a b then b else a.
Definition min4 (a b c d : Q) : Q := qmin (qmin (qmin a b) c) d.
Definition max4 (a b c d : Q) : Q := qmax (qmax (qmax a b) c) d.

(** A bound of a slice of [n] elements: a negative one counts from the end. *)
Definition bound (i : Z) (n : nat) : nat := Z.to_nat (Z.min (Z.of_nat n) (Z.max 0 (if (i <? 0)%Z then i + Z.of_nat n else i))).
(** img[y0:y1, x0:x1] *)
Definition crop (g : image) (y0 y1 x0 x1 : Z) : image :=
  let b := bound y0 (rows g) in let l := bound x0 (cols g) in
  mkimage (bound y1 (rows g) - b) (bound x1 (cols g) - l) (chans g) (fun r c k => at_ g (b + r) (l + c) k).

(** OpenCV's BORDER_REFLECT_101 for the neighbours of an index under [n]: the border itself is not repeated. *)
Definition before (i n : nat) : nat := match i with O => if (n <=? 1)%nat then 0 else 1 | S i => i end.
Definition after (i n : nat) : nat := if (S i <? n)%nat then S i else i - 1.
(** cv2.Laplacian with the default aperture: the four neighbours less four times the pixel. A slice given by numpy has no pixels outside. *)
Definition laplacian (g : image) (r c k : nat) : Q :=
  at_ g (before r (rows g)) c k + at_ g (after r (rows g)) c k + at_ g r (before c (cols g)) k + at_ g r (after c (cols g)) k - 4 * at_ g r c k.
(** ndarray.var *)
Definition total (l : list Q) : Q := fold_right Qplus 0 l.
Definition mean (l : list Q) : Q := total l / inject_Z (Z.of_nat (length l)).
Definition var (l : list Q) : Q := mean (map (fun x => (x - mean l) * (x - mean l)) l).
Definition places (g : image) : list (nat * nat * nat) := list_prod (list_prod (seq 0 (rows g)) (seq 0 (cols g))) (seq 0 (chans g)).
Definition values (g : image) : list Q := map (fun p => laplacian g (fst (fst p)) (snd (fst p)) (snd p)) (places g).

(** 220-243, from the four outer corners (BoardModel.outside) on; OpenCV refuses an empty image. *)
Definition is_sharp (g : image) (ul ur dr dl : point) : option bool :=
  let roi := crop g (int (min4 (snd ul) (snd ur) (snd dr) (snd dl))) (int (max4 (snd ul) (snd ur) (snd dr) (snd dl)))
                    (int (min4 (fst ul) (fst ur) (fst dr) (fst dl))) (int (max4 (fst ul) (fst ur) (fst dr) (fst dl))) in
  match values roi with [] => None | l => Some (negb (Qle_bool (var l) (26 # 100))) end.
