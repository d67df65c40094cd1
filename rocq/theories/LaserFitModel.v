(** auv_cal/plane_fitting.py:47-111 (residuals, fit) and auv_cal/laser_calibrator.py:767-830, 846-890 (fit_and_save up to the text), 1067-1118 (gathering of the
    detections) and 1156-1173 (the clouds that are saved and fitted), over the reals.  scipy's least_squares is its result, [solution].  A division by zero
    in from_coeffs or by the first coefficient is excluded in the theorems. *)
From Coq Require Import Reals Lra List.
From Verif Require Import FramesModel PlaneModel TriModel.
Import ListNotations.
Open Scope R_scope.

(** plane_fitting.py:47-52 *)
Definition residuals (c : buffer) (points : list vec) : list R := map (distance (from_coeffs c)) points.
(** What least_squares minimises with loss="soft_l1" (83-93), within the bounds of 78 *)
Definition soft_l1 (z : R) : R := 2 * (sqrt (1 + z) - 1).
Definition cost (c : buffer) (points : list vec) : R := / 2 * fold_right Rplus 0 (map (fun r => soft_l1 (r * r)) (residuals c points)).
Definition within (c : buffer) : Prop := let '(a, b, c, _) := c in -1 <= a <= 1 /\ -1 <= b <= 1 /\ -1 <= c <= 1.
(** 94-101: the coefficients returned and the inliers *)
Definition fit (solution : buffer) (points : list vec) (threshold : R) : buffer * list vec :=
  (coeffs (from_coeffs solution), filter (fun p => if Rlt_dec (distance (from_coeffs solution) p) threshold then true else false) points).

(** np.mean and np.std of a column of an array that is not empty *)
Definition mean_of (l : list R) : R := fold_right Rplus 0 l / INR (length l).
Definition std_of (l : list R) : R := sqrt (mean_of (map (fun x => (x - mean_of l) * (x - mean_of l)) l)).
Record laser := mklaser { mean_xyz : vec; mean_plane : buffer; planes : list buffer }.
(** laser_calibrator.py:814-830 *)
Definition centre (inliers : list vec) : vec := (mean_of (map vx inliers), mean_of (map vy inliers), mean_of (map vz inliers)).
Definition min_dist (inliers : list vec) : R :=
  2 * sqrt (std_of (map vy inliers) * std_of (map vy inliers) + std_of (map vz inliers) * std_of (map vz inliers)).
(** 767-890.  [before]: the uncertainty planes already there; [samples]: the random samples in order, of three inliers each.
    [Raised]: (814) no inlier or (848) less than three to sample from; [Running]: the search is still going on. *)
Inductive outcome := Raised | Running | Done (l : laser).
Definition fit_and_save (solution : buffer) (threshold : R) (num : nat) (before : list buffer) (samples : list triple) (cloud : list vec) : outcome :=
  let '(plane, inliers) := fit solution cloud threshold in
  match inliers with
  | [] => Raised
  | _ =>
      if (Nat.ltb (length before) num && Nat.ltb (length inliers) 3)%bool then Raised
      else match gather (min_dist inliers) num before samples with
           | Some ps => Done (mklaser (centre inliers) (TriModel.scaled plane) ps)
           | None => Running
           end
  end.

(** 1071-1087; an entry is what get_laser_pixels_in_image_pair returns for a pair: top left, top right, bottom left, bottom right. *)
Section Gather.
  Context {A : Type}.
  Definition entry : Type := (option A * option A * option A * option A)%type.
  Record peaks := mkpeaks { top1 : list A; top2 : list A; bottom1 : list A; bottom2 : list A }.
  Definition add_pair (two : bool) (s : peaks) (e : entry) : peaks :=
    let '(p1, p2, b1, b2) := e in
    let s := match p1, p2 with Some a, Some b => mkpeaks (top1 s ++ [a]) (top2 s ++ [b]) (bottom1 s) (bottom2 s) | _, _ => s end in
    if two then match b1, b2 with Some a, Some b => mkpeaks (top1 s) (top2 s) (bottom1 s ++ [a]) (bottom2 s ++ [b]) | _, _ => s end else s.
  Definition gather_peaks (two : bool) (result : list entry) : peaks := fold_left (add_pair two) result (mkpeaks [] [] [] []).
  (** 1102, 1118: zip *)
  Definition top_pairs (p : peaks) : list (A * A) := combine (top1 p) (top2 p).
  Definition bottom_pairs (p : peaks) : list (A * A) := combine (bottom1 p) (bottom2 p).
End Gather.
(** 1156-1173: what is saved as points_rs and what is fitted; [draw]: random.sample *)
Definition saved_and_fitted {A} (draw : list A -> nat -> list A) (max_cloud_size : nat) (stratified : list A) : list A * list A :=
  (draw stratified (Nat.min (length stratified) max_cloud_size), stratified).
