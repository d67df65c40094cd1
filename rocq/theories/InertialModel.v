(** Model of the dead reckoning from the DVL's own (inertial) velocities: process.py:989-1094.
    Exact rationals. *)
From Verif Require Import PyBase InterpModel DrModel.
Open Scope Q_scope.

Record attitude := mkatt { at_roll : Q; at_pitch : Q; at_yaw : Q }.
(** The fields of InertialVelocity read or set here (sensors.py:485-512, interpolated ones start
    as Python's None); positions are kept apart. *)
Record ivel := mkiv { i_vel : vel; i_att : option attitude; i_depth : option Q }.

(** 1013-1052: between orientations [a] (index j - 1) and [b] (index j). *)
Definition attitude_at (t : Q) (a b : orient) : attitude :=
  mkatt (interpolate t (o_t a) (o_t b) (o_roll a) (o_roll b))
        (interpolate t (o_t a) (o_t b) (o_pitch a) (o_pitch b))
        (interpolate_yaw t (o_t a) (o_t b) (o_yaw a) (o_yaw b)).

(** 1003-1008: the same loop as for altitudes, [adv_pair], on the orientations' times. *)
Definition adv_orient (os : list orient) (t : Q) (j : nat) : nat :=
  adv_pair (length os) (map (fun o => (o_t o, 0)) os) t j.

(** 1002-1069: the loop over the velocities; [j], [k] and the flag are kept from one to the
    next.  [None]: IndexError. *)
Fixpoint attach (os : list orient) (depths : list (Q * Q)) (j k : nat) (flag : bool) (vs : list vel) : option (list ivel * bool) :=
  match vs with
  | [] => Some ([], flag)
  | v :: vs =>
      let t := v_t v in
      let j := adv_orient os t j in
      let att := if (j =? 1)%nat then Some None
                 else match py_nth os (Z.of_nat j - 1), nth_error os j with
                      | Some a, Some b => Some (Some (attitude_at t a b))
                      | _, _ => None
                      end in
      let k := adv_pair (length depths) depths t k in
      let depth := if (1 <=? k)%nat then at_pair depths t k else None in
      match att, attach os depths j k (if (j =? 1)%nat then true else flag) vs with
      | Some a, Some (rest, flag) => Some (mkiv v a depth :: rest, flag)
      | _, _ => None
      end
  end.

(** 1071-1092: positions from (0, 0) (the loop of [dr_track]), then the first record is deleted
    if the flag is set.  An empty list skips everything (992). *)
Definition inertial_track (os : list orient) (depths : list (Q * Q)) (vs : list vel) : option (list (ivel * (Q * Q))) :=
  match vs with
  | [] => Some []
  | _ => match attach os depths 0 0 false vs with
         | Some (rs, flag) => let out := combine rs (dr_track vs) in Some (if flag then tl out else out)
         | None => None
         end
  end.
