(** auv_cal/camera_calibrator.py: what a detected board looks like (_get_outside_corners 70-89, _get_skew 92-115, _get_area 118-131,
    get_parameters 351-369), the order of its corners and the search radius (_get_corners 134-217), the circles (_get_circles 242-291), the
    points of the board (mk_object_points 402-418), the boards (312-331) and resize_with_padding (464-490).  Pixels are reals, image sizes
    integers; the detectors are arguments.  [None] is an exception. *)
From Verif Require Import PyBase.
From Coq Require Import Qround Reals Lra.
From Verif Require Import CalibModel.
Open Scope R_scope.

Definition point := (R * R)%type.
Definition origin : point := (0, 0).
Record board := mkboard { n_cols : nat; n_rows : nat; dim : R }.
Definition ltb (a b : R) : bool := if Rlt_dec a b then true else false.
Definition leb (a b : R) : bool := if Rle_dec a b then true else false.

(** * Description of a view *)
(** 70-89.  A list of corners for the array of shape (n, 1, 2). *)
Definition outside (l : list point) (b : board) : option (point * point * point * point) :=
  if (length l =? n_cols b * n_rows b)%nat then
    Some (nth 0 l origin, nth (n_cols b - 1)%nat l origin, nth (length l - 1)%nat l origin, nth (length l - n_cols b)%nat l origin)
  else None.
Definition minus (p q : point) : point := (fst p - fst q, snd p - snd q).
Definition plus (p q : point) : point := (fst p + fst q, snd p + snd q).
Definition dot (p q : point) : R := fst p * fst q + snd p * snd q.
Definition norm (p : point) : R := sqrt (dot p p).
Definition pdist (p q : point) : R := sqrt ((fst p - fst q) ^ 2 + (snd p - snd q) ^ 2).
(** 102-115; coinciding corners (a division by zero) are left out. *)
Definition angle (a b c : point) : R := acos (dot (minus a b) (minus c b) / (norm (minus a b) * norm (minus c b))).
Definition skew (l : list point) (b : board) : option R :=
  match outside l b with Some (ul, ur, dr, _) => Some (Rmin 1 (2 * Rabs (PI / 2 - angle ul ur dr))) | None => None end.
(** 118-131 *)
Definition area (l : list point) (b : board) : option R :=
  match outside l b with
  | Some (ul, ur, dr, dl) =>
      let a := minus ur ul in let b := minus dr ur in let c := minus dl dr in
      let p := plus b c in let q := plus a b in Some (Rabs (fst p * snd q - snd p * fst q) / 2)
  | None => None
  end.
(** 351-369; [width - border = 0] is left out. *)
Definition clamp (x : R) : R := Rmin 1 (Rmax 0 x).
Definition place (ps : list R) (size border : R) : R := clamp ((mean ps - border / 2) / (size - border)).
Definition get_parameters (l : list point) (b : board) (width height : R) : option (R * R * R * R) :=
  match area l b, skew l b with
  | Some a, Some s => Some (place (map fst l) width (sqrt a), place (map snd l) height (sqrt a), sqrt (a / (width * height)), s)
  | _, _ => None
  end.

(** * Corners of a chessboard (134-217) *)
Definition inside (w h : R) (p : point) : bool := (ltb 8 (fst p) && ltb (fst p) (w - 8) && ltb 8 (snd p) && ltb (snd p) (h - 8))%bool.
(** numpy.rot90 of the n x n array, once and three times *)
Definition rot90 (n : nat) (l : list point) : list point := map (fun k => nth (k mod n * n + (n - 1 - k / n))%nat l origin) (seq 0 (n * n)%nat).
Definition rot270 (n : nat) (l : list point) : list point := map (fun k => nth ((n - 1 - k mod n) * n + k / n)%nat l origin) (seq 0 (n * n)%nat).
Definition oriented (b : board) (l : list point) : list point :=
  let first := nth 0 l origin in let last := nth (length l - 1)%nat l origin in
  if (n_rows b =? n_cols b)%nat then
    let dx := leb 0 (fst last - fst first) in let dy := leb 0 (snd last - snd first) in
    if (dx && dy)%bool then l
    else if negb (dx || dy) then rev l
    else if dx then rot90 (n_cols b) l else rot270 (n_cols b) l
  else if ltb (snd last) (snd first) then rev l else l.
(** 192-207: the pairs of indices whose distances are compared, with row * n_rows + col *)
Definition pairs (b : board) : list (nat * nat) :=
  flat_map (fun row => map (fun col => (row * n_rows b + col, row * n_rows b + col + 1)%nat) (seq 0 (n_cols b - 1))) (seq 0 (n_rows b)) ++
  flat_map (fun row => map (fun col => (row * n_rows b + col, row * n_rows b + col + n_cols b)%nat) (seq 0 (n_cols b))) (seq 0 (n_rows b - 1)).
Fixpoint shortest (l : list point) (ps : list (nat * nat)) (best : option R) : option (option R) :=
  match ps with
  | [] => Some best
  | (i, j) :: ps =>
      match nth_error l i, nth_error l j with
      | Some p, Some q => shortest l ps (Some (match best with None => pdist p q | Some d => Rmin d (pdist p q) end))
      | _, _ => None
      end
  end.
(** 208: int(ceil(x)) of infinity raises *)
Definition ceil (x : R) : Z := (- Int_part (- x))%Z.
Definition radius (b : board) (l : list point) : option Z :=
  match shortest l (pairs b) None with Some (Some d) => Some (ceil (d * (1 / 2))) | _ => None end.
(** The whole; [find]: cv2.findChessboardCorners with (n_cols, n_rows), [subpix]: cv2.cornerSubPix with the radius *)
Definition get_corners (find : nat * nat -> option (list point)) (subpix : Z -> list point -> list point) (refine : bool) (w h : R) (b : board)
  : option (bool * list point) :=
  match find (n_cols b, n_rows b) with
  | None => Some (false, [])
  | Some l =>
      let ok := forallb (inside w h) l in
      let l := oriented b l in
      if (refine && ok)%bool then match radius b l with Some r => Some (ok, subpix r l) | None => None end else Some (ok, l)
  end.

(** * Boards and their points *)
Inductive pattern := Chessboard | ACircles | Circles.
(** 312-331 *)
Definition board_of (p : pattern) (b : board) : board :=
  match p with
  | Chessboard => mkboard (Nat.max (n_cols b) (n_rows b)) (Nat.min (n_cols b) (n_rows b)) (dim b)
  | ACircles => mkboard (Nat.min (n_cols b) (n_rows b)) (Nat.max (n_cols b) (n_rows b)) (dim b)
  | Circles => b
  end.
(** 402-418 for one board; the third coordinate is zero. *)
Definition object_points (p : pattern) (b : board) : list (R * R * R) :=
  flat_map (fun i => map (fun j =>
    (match p with ACircles => INR (2 * j + i mod 2)%nat * dim b | _ => INR j * dim b end, INR i * dim b, 0)) (seq 0 (n_cols b))) (seq 0 (n_rows b)).
(** 274-291: the detector, asked with dimensions, with or without clustering *)
Definition get_circles (find : nat * nat -> bool -> option (list point)) (p : pattern) (b : board) : option (list point) :=
  match find (n_cols b, n_rows b) true, p with
  | None, Circles => find (n_cols b, n_rows b) false
  | r, _ => r
  end.

(** * resize_with_padding (464-490) *)
Open Scope Q_scope.
(** Rows added above and below, columns added left and right; the arithmetic of the ratios is exact. *)
Definition padding (width height ow oh : Z) : Z * Z :=
  let ar := inject_Z width / inject_Z height in
  let o_ar := inject_Z ow / inject_Z oh in
  if Qltb ar o_ar then (Qfloor ((inject_Z ow / ar - inject_Z oh) / 2), 0%Z)
  else if Qltb o_ar ar then (0%Z, Qfloor ((ar * inject_Z oh - inject_Z ow) / 2))
  else (0%Z, 0%Z).
Definition resized (width height ow oh : Z) : Z * Z :=
  let '(v, h) := padding width height ow oh in
  if Z.eqb (oh + 2 * v) height then (ow + 2 * h, oh + 2 * v)%Z else (width, height).
