(** Model of auv_nav/localisation/usbl_offset.py and of its use in auv_nav/process.py:1097-1151. *)
From Verif Require Import PyBase InterpModel.
Open Scope Q_scope.

(** A time with northing and easting: one entry of the three dead-reckoning lists or of the three USBL
    lists of the arguments (20-27), which are built from one list each (process.py:1100-1107). *)
Record fix_ := mkfix { f_t : Q; f_n : Q; f_e : Q }.
Definition none_f : fix_ := mkfix 0 0 0.
Definition threshold : Q := 20.

(** 36-55: [None]: IndexError (or the fuel is used up, which does not happen with [length dr + length
    us]). *)
Fixpoint start_before (fuel : nat) (dr us : list fix_) (sd su : nat) : option (nat * nat) :=
  match fuel with
  | O => None
  | S fuel =>
      if (length us <=? su + 1)%nat then Some (sd, su)
      else match nth_error dr sd with
           | None => None
           | Some d =>
               if Qltb 0 (f_t d - f_t (nth (su + 1) us none_f)) then start_before fuel dr us sd (su + 1)
               else if (Qltb (f_t d - f_t (nth su us none_f)) threshold && Qltb (f_t (nth (su + 1) us none_f) - f_t (nth su us none_f)) threshold)%bool
                    then Some (sd, (su + 1)%nat)
                    else start_before fuel dr us (sd + 1) su
           end
  end.
(** 57-71. *)
Fixpoint start_after (fuel : nat) (dr us : list fix_) (sd su : nat) : option (nat * nat) :=
  match fuel with
  | O => None
  | S fuel =>
      match nth_error dr sd, nth_error us su with
      | Some d, Some u =>
          if Qltb (f_t d - f_t u) 0 then start_after fuel dr us (sd + 1) su
          else if Qltb (f_t d - f_t u) threshold then
                 match nth_error us (su + 1) with
                 | None => None
                 | Some v => if Qltb (f_t v - f_t u) threshold then Some (sd, (su + 1)%nat) else start_after fuel dr us sd (su + 1)
                 end
               else start_after fuel dr us sd (su + 1)
      | _, _ => None
      end
  end.
Definition start (dr us : list fix_) : option (nat * nat) :=
  match dr, us with
  | d :: _, u :: _ =>
      if Qltb (f_t u) (f_t d) then start_before (S (length dr + length us)) dr us 0 0
      else start_after (S (length dr + length us)) dr us 0 0
  | _, _ => None
  end.

(** 79-83: the while loop; [None]: the IndexError that ends the for loop. *)
Fixpoint advance (fuel : nat) (dr : list fix_) (t : Q) (sd : nat) : option nat :=
  match fuel with
  | O => None
  | S fuel => match nth_error dr (sd + 1) with
              | None => None
              | Some d => if Qltb (f_t d) t then advance fuel dr t (sd + 1) else Some sd
              end
  end.
Definition at_time (t : Q) (a b : fix_) : fix_ :=
  mkfix t (interpolate t (f_t a) (f_t b) (f_n a) (f_n b)) (interpolate t (f_t a) (f_t b) (f_e a) (f_e b)).
(** 76-101: the dead-reckoning positions at the times of the fixes; 77-78 is the same as the IndexError. *)
Fixpoint positions (dr : list fix_) (sd : nat) (us : list fix_) : list fix_ :=
  match us with
  | [] => []
  | u :: us => match advance (length dr) dr (f_t u) sd with
               | None => []
               | Some sd => at_time (f_t u) (nth sd dr none_f) (nth (sd + 1) dr none_f) :: positions dr sd us
               end
  end.
Definition sum (l : list Q) : Q := fold_left Qplus l 0.
(** 103-134; [None]: ZeroDivisionError. *)
Definition offset_of (g : fix_ -> Q) (us ps : list fix_) : option Q :=
  let used := firstn (length ps) us in
  match length used, length ps with
  | O, _ | _, O => None
  | n, m => Some (sum (map g used) / inject_Z (Z.of_nat n) - sum (map g ps) / inject_Z (Z.of_nat m))
  end.
Definition usbl_offset (dr us : list fix_) : option (Q * Q) :=
  match start dr us with
  | None => None
  | Some (sd, su) =>
      let ps := positions dr sd (skipn su us) in
      match offset_of f_n (skipn su us) ps, offset_of f_e (skipn su us) ps with
      | Some n, Some e => Some (n, e)
      | _, _ => None
      end
  end.
(** process.py:1108-1119 (1120-1131 for the DVL positions): only northings and eastings; the geographic
    coordinates are recomputed from them. *)
Definition shift (o : Q * Q) (dr : list fix_) : list fix_ := map (fun d => mkfix (f_t d) (f_n d + fst o) (f_e d + snd o)) dr.
