(** The mean distance and the mean image of one altitude bin as whole arrays: correct_images/corrector.py:1116-1200 and 1230-1235 (compute_distance_bin),
    tools/memmap.py:38-104 (create_memmap, memmap_loader), tools/numerical.py:68-131 (running_mean_std, median_array) and 279-365
    (image_mean_std_trimmed, calc_mean_and_std_trimmed).  The arrays are those of TrainModel; real arithmetic.

    An image is what the loader returns for an entry of the list, [None] for an entry that is None (memmap.py:87-90 quits).  [resize] is
    cv2.resize (its third argument is taken for dst, so that the interpolation is linear, not cubic).  [choose] is random.sample.
    Smoothing by "ransac_mean" is left out (C73), and so are figures, the messages and the name of the file of the memory map.  An image whose
    shape has more dimensions than the memory map is refused, although numpy accepts leading dimensions of size 1. *)
From Coq Require Import Reals List Arith Lia.
From Verif Require Import TrainModel.
Import ListNotations.
Open Scope R_scope.

Section Bin.
Variable resize : array -> nat -> nat -> array.
Variables height width channels : nat.

(** memmap.py:38-63 and 82-104: one row for each image, in order. *)
Definition memmap_shape : list nat := if (channels =? 1)%nat then [height; width] else [height; width; channels].
Definition memmap_row (img : option array) : option array :=
  let? img := img in
  match shape img with
  | rows :: columns :: _ =>
      let img := if ((width =? columns) && (height =? rows))%nat%bool then img else resize img width height in
      in_place (fun _ v => v) (filled memmap_shape 0) img
  | _ => None
  end.
Definition create_memmap (images : list (option array)) : option array :=
  let? rows := each memmap_row images in
  Some (mkarray (length images :: memmap_shape) (concat (map data rows))).

(** np.sort and np.median of one series *)
Fixpoint insert (x : R) (l : list R) : list R := match l with [] => [x] | y :: l' => if Rle_dec x y then x :: l else y :: insert x l' end.
Fixpoint sort (l : list R) : list R := match l with [] => [] | x :: l => insert x (sort l) end.
Definition median (l : list R) : R :=
  let s := sort l in
  let n := length l in
  if Nat.even n then (nth (n / 2 - 1) s 0 + nth (n / 2) s 0) / 2 else nth (n / 2) s 0.
Definition series (a : array) (idx : list nat) : list R := map (fun k => get a (k :: idx)) (seq 0 (hd 0%nat (shape a))).
(** median_array, 115-128; other shapes: nothing is returned. *)
Definition median_array (a : array) : option array :=
  match shape a with
  | [_; h; w] => Some (build [h; w] (fun idx => median (series a idx)))
  | [_; h; w; c] => Some (build [h; w; c] (fun idx => median (series a idx)))
  | _ => None
  end.

(** calc_mean_and_std_trimmed, 330-365, for ratio_trimming 0.2: [rows] is a two-dimensional array, np.sort sorts each of its rows, the limits
    are computed from and applied to the number of rows.  [None]: NaN. *)
Definition mean_of (l : list R) : option R := match l with [] => None | _ => Some (fold_right Rplus 0 l / INR (length l)) end.
Definition trimmed (rows : list (list R)) : option R :=
  let left := (length rows / 10)%nat in
  let right := (length rows * 9 / 10)%nat in
  mean_of (concat (firstn (right - left) (skipn left (map sort rows)))).

Inductive sample := Image (a : array) | NotANumber | Fails.
(** image_mean_std_trimmed, 279-327: data[[[0, ..., n - 1]], y, x, ch] has one row of n values; four indices fail for three dimensions.
    [NotANumber]: some element is NaN. *)
Definition mean_trimmed (a : array) : sample :=
  match shape a with
  | [_; h; w; c] =>
      let pixels := map (fun idx => trimmed [series a idx]) (indices [h; w; c]) in
      match each (fun v => v) pixels with Some values => Image (mkarray [h; w; c] values) | None => NotANumber end
  | _ => Fails
  end.

(** running_mean_std, 68-111: its mean *)
Definition file_step (ignore_zeroes : bool) (count : nat) (mean value : array) : option array :=
  let? value := (if ignore_zeroes
                 then if list_eq_dec Nat.eq_dec (shape value) (shape mean) then broadcast (fun v m => if Req_EM_T v 0 then m else v) value mean else None
                 else Some value) in
  let? delta := broadcast Rminus value mean in
  in_place Rplus mean (mapped (fun d => d / INR count) delta).
Fixpoint file_loop (ignore_zeroes : bool) (count : nat) (mean : array) (files : list array) : option array :=
  match files with [] => Some mean | v :: files => let? mean := file_step ignore_zeroes (S count) mean v in file_loop ignore_zeroes (S count) mean files end.
Definition running_mean (ignore_zeroes : bool) (files : list array) : option array :=
  match files with [] => None | v :: _ => file_loop ignore_zeroes 0 (filled (shape v) 0) files end.

Inductive smoothing := Mean | MeanTrimmed | Median | Unknown.
Definition returned (a : option array) : sample := match a with Some a => Image a | None => Fails end.
Definition image_sample (s : smoothing) (images : list (option array)) : sample :=
  match s with
  | Mean => returned (let? images := each (fun i => i) images in running_mean false images)
  | MeanTrimmed => match create_memmap images with Some a => mean_trimmed a | None => Fails end
  | Median => returned (let? a := create_memmap images in median_array a)
  | Unknown => Fails
  end.

(** 1116-1235.  [distances] are those of the bin's images, [depths] their depth maps if there are any, [fallback] altitude_min + bin_band * idx_bin. *)
Variable choose : nat -> list (option array) -> list (option array).
Inductive bin := TooFew | Filled (distance image : array) | Undefined | Error.
Definition compute_bin (s : smoothing) (max_size : nat) (fallback : R) (images : list (option array)) (distances : list R) (depths : option (list array)) : bin :=
  if (10 <=? length images)%nat then
    let many := match s with Mean => false | _ => (max_size <? length images)%nat end in
    let chosen := if many then choose max_size images else images in
    let distance := match depths with
                    | None => let d := fold_right Rplus 0 distances / INR (length distances) in
                              Some (filled [height; width] (if Rle_dec d 0 then fallback else d))
                    | Some maps => running_mean true maps
                    end in
    match distance with
    | Some d => match image_sample s chosen with Image a => Filled d a | NotANumber => Undefined | Fails => Error end
    | None => Error
    end
  else TooFew.
End Bin.
