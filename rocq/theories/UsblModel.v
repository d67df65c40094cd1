(** Model of auv_nav/localisation/usbl_filter.py.  Times and depths are exact
    rationals, horizontal positions are reals (the code takes square roots). *)
From Coq Require Import Reals Qreals.
From Verif Require Import PyBase InterpModel.
Open Scope Q_scope.

(** The fields of Usbl (sensors.py) the filter reads. *)
Record usbl := mkUsbl {
  u_t : Q; u_depth : Q; u_depth_std : Q;
  u_n : R; u_e : R; u_n_std : R; u_e_std : R }.
Record depth_sample := mkDepth { d_t : Q; d_d : Q; d_std : Q }.

(** usbl_filter.py:26-30 [depth_filter]. *)
Definition depth_filter (u : usbl) (depth depth_std sigma : Q) : bool :=
  Qle_bool (Qabs (u_depth u - depth)) (sigma * (Qabs (u_depth_std u) + Qabs depth_std)).

(** usbl_filter.py:36-48 [distance_filter]; [** 0.5] is [sqrt]. *)
Definition distance_filter (a b : usbl) (sigma max_speed : R) : bool :=
  let lateral := sqrt ((u_n a - u_n b) ^ 2 + (u_e a - u_e b) ^ 2)%R in
  let dt := Rabs (Q2R (u_t a) - Q2R (u_t b)) in
  let envelope := (sqrt (u_n_std a ^ 2 + u_e_std a ^ 2) + sqrt (u_n_std b ^ 2 + u_e_std b ^ 2)
                   + dt * max_speed)%R in
  if Rle_dec lateral (sigma * envelope) then true else false.

(** usbl_filter.py:81-101: both time tests use a margin of 1 second. *)
Definition in_time (first last t : Q) : bool :=
  if Qltb t (first + 1) then false else if Qltb last (t + 1) then false else true.

(** usbl_filter.py:121-125: the inner while loop; [j] only moves forward. *)
Fixpoint advance (fuel : nat) (depth : list depth_sample) (t : Q) (j : nat) : nat :=
  match fuel with
  | O => j
  | S f => match nth_error depth j with
           | Some d => if (Nat.ltb j (length depth - 1) && Qltb (d_t d) t)%bool
                       then advance f depth t (S j) else j
           | None => j
           end
  end.

(** usbl_filter.py:119-144: one interpolated (depth, std) per fix, appended
    only when [j >= 1]. *)
Fixpoint depth_at (depth : list depth_sample) (us : list usbl) (j : nat) : list (Q * Q) :=
  match us with
  | [] => []
  | u :: us' =>
      let j' := advance (length depth) depth (u_t u) j in
      match j', nth_error depth (j' - 1), nth_error depth j' with
      | S _, Some a, Some b =>
          (interpolate (u_t u) (d_t a) (d_t b) (d_d a) (d_d b),
           interpolate (u_t u) (d_t a) (d_t b) (d_std a) (d_std b)) :: depth_at depth us' j'
      | _, _, _ => depth_at depth us' j'
      end
  end.

(** usbl_filter.py:146-154: the i-th interpolated depth is used for the i-th fix. *)
Definition depth_kept (us : list usbl) (ds : list (Q * Q)) (sigma : Q) : list usbl :=
  flat_map (fun p => if depth_filter (fst p) (fst (snd p)) (snd (snd p)) sigma then [fst p] else [])
           (combine us ds).

(** usbl_filter.py:167-184: the distance loop, state (i, n); [near] is the
    distance test.  [None] is IndexError (or running out of fuel). *)
Section Dist.
  Context {A : Type} (near : A -> A -> bool).
  Fixpoint dist_loop (fuel : nat) (l : list A) (i n : Z) (acc : list A) : option (list A) :=
    match fuel with
    | O => None
    | S f =>
        if (i <? Z.of_nat (length l) - 2)%Z then
          match py_nth l i, py_nth l (i + n) with
          | Some a, Some b =>
              if near a b then
                let n1 := (n + 1)%Z in
                let n2 := if (n1 =? 0)%Z then (n1 + 1)%Z else n1 in
                if (2 <? n2)%Z then dist_loop f l (i + 1) (-2) (acc ++ [a])
                else dist_loop f l i n2 acc
              else dist_loop f l (i + 1) (-2) acc
          | _, _ => None
          end
        else Some acc
    end.
  Definition dist_kept (l : list A) : option (list A) := dist_loop (4 * length l + 1) l 2 (-2) [].
End Dist.

(** usbl_filter.py:51-193 [usbl_filter]: the two returned lists. *)
Definition usbl_filter (us : list usbl) (depth : list depth_sample) (sigma : Q) (sigmaR max_speed : R)
    (north_east depth_on : bool) : option (list usbl * list usbl) :=
  match depth with
  | [] => Some ([], [])
  | d0 :: _ =>
      let dl := last depth d0 in
      let timed := filter (fun u => in_time (d_t d0) (d_t dl) (u_t u)) us in
      let '(ul, fl) := if depth_on
                       then (timed, depth_kept timed (depth_at depth timed 0) sigma)
                       else (us, timed) in
      if north_east then
        match dist_kept (fun a b => distance_filter a b sigmaR max_speed) fl with
        | Some r => Some (fl, r)
        | None => None
        end
      else Some (ul, fl)
  end.
