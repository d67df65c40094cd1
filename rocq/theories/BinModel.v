(** correct_images/corrector.py:730-875 and 1116-1235: the table of mean distances and mean images from which the attenuation curves are
    fitted.  One pixel and channel at a time (every operation is element by element); exact rationals; the figures are left out.
    The smoothing other than "mean" and the random sample are arguments. *)
From Coq Require Import Qround.
From Verif Require Import PyBase StatsModel.
Open Scope Q_scope.

(** 776 *)
Definition band : Q := 1 # 10.
(** 777-781: np.arange has ceil((stop - start) / step) elements. *)
Definition edge_count (lo hi : Q) : nat := Z.to_nat (Qceiling ((hi + (1 # 2) * band - lo) / band)).
Definition hist_bins (lo hi : Q) : list Q := map (fun i => lo + q i * band) (seq 0 (edge_count lo hi)).
(** np.digitize for increasing edges: the number of edges not above [x]; NaN ([None]) is above all. *)
Fixpoint digitize (x : option Q) (edges : list Q) : nat :=
  match edges with
  | [] => 0
  | e :: edges => match x with Some v => if Qle_bool e v then S (digitize x edges) else 0%nat | None => S (digitize x edges) end
  end.
(** 806 *)
Definition bin_of (lo hi : Q) (x : option Q) : Z := Z.of_nat (digitize x (hist_bins lo hi)) - 1.

(** One image: its distance (altitude or mean of its depth map), and of one pixel the depth (depth maps) and the value. *)
Record shot := mkshot { distance : option Q; depth : Q; value : Q }.
Record setting := mksetting {
  parse_min : Q; parse_max : Q; altitude_min : Q;
  use_depths : bool;                    (** depth_map_list is not empty *)
  plain_mean : bool;                    (** smoothing == "mean" *)
  max_bin_size : nat;
  sample : nat -> list Q -> list Q;     (** random.sample *)
  smooth : list Q -> Q                  (** the other smoothings *)
}.
(** 1127: the images of the bin *)
Definition members (s : setting) (b : nat) (shots : list shot) : list shot :=
  filter (fun h => Z.eqb (bin_of (parse_min s) (parse_max s) (distance h)) (Z.of_nat b)) shots.
(** np.mean of the distances; images in a bin have one. *)
Definition mean_distance (l : list shot) : Q := sum (map (fun h => match distance h with Some d => d | None => 0 end) l) / q (length l).
(** 1116-1235: the row written for bin [b], distance and value; [None]: nothing written. *)
Definition compute_bin (s : setting) (shots : list shot) (b : nat) : option (Q * Q) :=
  let l := members s b shots in
  if (10 <=? length l)%nat then
    let values := map value l in
    let values := if (negb (plain_mean s) && (max_bin_size s <? length l)%nat)%bool then sample s (max_bin_size s) values else values in
    let d := if use_depths s then fst (file_stats true (map depth l))
             else let d := mean_distance l in if Qle_bool d 0 then altitude_min s + band * q b else d in
    Some (d, if plain_mean s then fst (file_stats false values) else smooth s values)
  else None.
Fixpoint write {A} (b : nat) (x : A) (m : list A) : list A :=
  match m, b with [] , _ => [] | _ :: m, O => x :: m | y :: m, S b => y :: write b x m end.
Definition bin_count (s : setting) : nat := edge_count (parse_min s) (parse_max s) - 1.
(** 825-863: fresh memory maps are zero; the bins are computed in the order [order] by parallel jobs. *)
Definition fill_maps (s : setting) (shots : list shot) (order : list nat) : list (Q * Q) :=
  fold_left (fun m b => match compute_bin s shots b with Some r => write b r m | None => m end) order (repeat (0, 0) (bin_count s)).
(** 735-739 and curve_fitting.py:125-129: what is fitted; [None]: too few images. *)
Definition training_pairs (s : setting) (shots : list shot) (order : list nat) : option (list (Q * Q)) :=
  if (length shots <? 3)%nat then None
  else Some (filter (fun p => (Qltb 0 (fst p) && Qltb 0 (snd p))%bool) (fill_maps s shots order)).
