(** Model of auv_cal/ransac.py: run_ransac, called by plane_fitting_ransac with its own
    fit_plane and inlier test.  The samples are given as a sequence (random.sample is not
    modelled: a sample size above the number of points, a ValueError there, is left out). *)
From Verif Require Import PyBase.

Section Ransac.
Variables P M : Type.
(** fit_plane on at least one point: the last right singular vector, 24-26, external. *)
Variable svd : list P -> M.
Variable is_inlier : M -> P -> bool.

(** 16-27: only the first three points are used; no point at all cannot be assigned to the
    array (ValueError). *)
Definition fit_plane (l : list P) : option M := match l with [] => None | _ => Some (svd (firstn 3 l)) end.

(** 53-57. *)
Definition inliers_of (data : list P) (m : M) : list P := filter (is_inlier m) data.

Record outcome := mkout { model : M; inliers : list P; iteration : nat }.

(** The loop from iteration [i] with [n] more iterations allowed; [best] is best_ic.
    [None]: an exception (no iteration at all leaves [inliers] unbound). *)
Fixpoint loop (data : list P) (sample : nat -> list P) (goal : nat) (stop : bool) (n i best : nat) (last : option (list P * nat)) : option (list P * nat) :=
  match n with
  | O => last
  | S n =>
      match fit_plane (sample i) with
      | None => None
      | Some m =>
          let found := inliers_of data m in
          let ic := length found in
          if (best <? ic)%nat then
            if (goal <? ic)%nat && stop then Some (found, i)
            else loop data sample goal stop n (S i) ic (Some (found, i))
          else loop data sample goal stop n (S i) best (Some (found, i))
      end
  end.
(** 68-70. *)
Definition run_ransac (data : list P) (sample : nat -> list P) (goal maximum : nat) (stop : bool) : option outcome :=
  match loop data sample goal stop maximum 0 0 None with
  | None => None
  | Some (found, i) => match fit_plane found with Some m => Some (mkout m found i) | None => None end
  end.
End Ransac.
Arguments model {P M} _. Arguments inliers {P M} _. Arguments iteration {P M} _.
