(** Model of correct_images/tools/numerical.py, one pixel at a time (every operation there
    is element by element over the images).  Exact rationals; the square roots are left
    out: [variance] is what np.sqrt is applied to.  [None] is NaN or Python's None as said
    at each definition. *)
From Verif Require Import PyBase SortQ.
Open Scope Q_scope.

Record acc := mkacc { count : nat; mean : Q; m2 : Q }.
Definition start : acc := mkacc 0 0 0.
Definition q (n : nat) : Q := inject_Z (Z.of_nat n).
(** Welford's step. *)
Definition step (a : acc) (x : Q) : acc :=
  let n := S (count a) in
  let delta := x - mean a in
  let m := mean a + delta / q n in
  mkacc n m (m2 a + delta * (x - m)).

(** RunningMeanStd.compute, 32-47: a pixel above [clip] is replaced by the mean so far. *)
Definition compute (clip : Q) (a : acc) (x : Q) : acc := step a (if Qltb clip x then mean a else x).
Definition running (clip : Q) (xs : list Q) : acc := fold_left (compute clip) xs start.
(** 49-65; [None]: Python's None. *)
Definition running_mean (clip : Q) (xs : list Q) : option Q :=
  let a := running clip xs in if (1 <? count a)%nat then Some (mean a) else None.
(** [self._std[self._std < 1e-6] = 1e-6], squared. *)
Definition running_variance (clip : Q) (xs : list Q) : option Q :=
  let a := running clip xs in
  if (1 <? count a)%nat then let v := m2 a / q (count a) in Some (if Qltb v (1 # 1000000000000) then 1 # 1000000000000 else v) else None.

(** running_mean_std, 68-111; [std] stays zero for one image. *)
Definition file_step (ignore : bool) (a : acc) (x : Q) : acc := step a (if (ignore && Qeq_bool x 0)%bool then mean a else x).
Definition file_stats (ignore : bool) (xs : list Q) : Q * Q :=
  let a := fold_left (file_step ignore) xs start in
  (mean a, if (1 <? count a)%nat then m2 a / q (count a) else 0).

(** mean_std_array, 130-159, one pixel. *)
Definition array_stats (xs : list Q) : Q * Q :=
  let a := fold_left step xs start in (mean a, m2 a / q (length xs)).

(** np.mean and np.var of a list; [None]: NaN. *)
Definition sum (xs : list Q) : Q := fold_right Qplus 0 xs.
Definition np_mean (xs : list Q) : option Q := match xs with [] => None | _ => Some (sum xs / q (length xs)) end.

(** ransac_mean_std_1d, 191-232: [samples] is what np.random.choice drew in each iteration
    (indices into the data).  The best inliers start as an uninitialised array. *)
Definition inliers (data : list Q) (thr m : Q) : list Q := filter (fun x => Qltb (Qabs (x - m)) thr) data.
Definition sample_mean (data : list Q) (idx : list nat) : Q := sum (map (fun i => nth i data 0) idx) / q (length idx).
Definition ransac_error (data : list Q) (thr : Q) (idx : list nat) : Q :=
  let m := sample_mean data idx in sum (map (fun x => x - m) (inliers data thr m)).
Definition ransac_step (data : list Q) (thr : Q) (best : option (Q * list nat)) (idx : list nat) : option (Q * list nat) :=
  let e := ransac_error data thr idx in
  match best with Some (b, _) => if Qltb e b then Some (e, idx) else best | None => Some (e, idx) end.
Definition ransac_best (data : list Q) (thr : Q) (samples : list (list nat)) : option (Q * list nat) :=
  fold_left (ransac_step data thr) samples None.
Definition ransac_mean (data : list Q) (thr : Q) (samples : list (list nat)) : option Q :=
  match ransac_best data thr samples with
  | Some (_, idx) => np_mean (inliers data thr (sample_mean data idx))
  | None => None
  end.

(** calc_mean_and_std_trimmed, 333-363, for a positive rate.  [data] is an array of one or
    two dimensions: len(data) and the slice are about the first dimension, the sorting is
    along the last.  int() truncates, here of a non-negative number. *)
Definition trunc (x : Q) : nat := Z.to_nat (Qnum x / Zpos (Qden x)).
Definition cut {A} (n : nat) (rate : Q) (l : list A) : list A :=
  let left := trunc (q n * rate / 2) in
  let right := trunc (q n * (1 - rate / 2)) in
  firstn (right - left) (skipn left l).
Definition trimmed_1d (rate : Q) (data : list Q) : option Q := np_mean (cut (length data) rate (qsort (fun x => x) data)).
Definition trimmed_2d (rate : Q) (rows : list (list Q)) : option Q :=
  np_mean (concat (cut (length rows) rate (map (qsort (fun x => x)) rows))).
(** image_mean_std_trimmed, 279-330, one pixel: [effective_index = [list(range(0, n))]] makes
    the selection an array of one row. *)
Definition image_trimmed (rate : Q) (xs : list Q) : option Q := trimmed_2d rate [xs].
