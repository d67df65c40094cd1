(** Model of save_ekf_to_list and update_camera_list (auv_nav/localisation/ekf.py:
    1073-1171).  The pose conversions (lever arms, latitude, longitude) act on each
    element separately and are not part of this model. *)
From Verif Require Import PyBase InterpModel.
Open Scope Q_scope.

Section Cam.
  Variables (C E : Type) (ct : C -> Q) (et : E -> Q).

  (** ekf.py:1131-1171 [update_camera_list]: the image and the state its new
      entry is made from; [None] is out of fuel. *)
  Fixpoint pair_up (fuel : nat) (cams : list C) (ekf : list E) : option (list (C * E)) :=
    match fuel with
    | O => None
    | S fuel =>
        match cams, ekf with
        | c :: cams', e :: ekf' =>
            if Qltb (ct c) (et e) then pair_up fuel cams' ekf
            else if Qltb (et e) (ct c) then pair_up fuel cams ekf'
            else option_map (cons (c, e)) (pair_up fuel cams' ekf')
        | _, _ => Some []
        end
    end.
  Definition update_camera_list (cams : list C) (ekf : list E) : option (list (C * E)) :=
    pair_up (S (length cams + length ekf)) cams ekf.
End Cam.

(** ekf.py:1107-1119: altitude from the dead-reckoning list [dr] of (time,
    altitude); [dr_idx] carries over from state to state. *)
Fixpoint advance (fuel : nat) (dr : list (Q * Q)) (t : Q) (idx : nat) : nat :=
  match fuel with
  | O => idx
  | S fuel =>
      match nth_error dr idx with
      | Some (ta, _) => if Qltb ta t then advance fuel dr t (S idx) else idx
      | None => idx
      end
  end.

(** [None] is IndexError. *)
Definition altitude_at (dr : list (Q * Q)) (t : Q) (idx : nat) : option Q :=
  match nth_error dr (idx - 1), nth_error dr idx with
  | Some (t0, a0), Some (t1, a1) => Some (interpolate t t0 t1 a0 a1)
  | _, _ => None
  end.

(** ekf.py:1080-1121 [save_ekf_to_list], the altitudes of the states at [ts]. *)
Fixpoint altitudes (dr : list (Q * Q)) (ts : list Q) (idx : nat) : option (list Q) :=
  match ts with
  | [] => Some []
  | t :: ts' =>
      let idx' := advance (length dr) dr t idx in
      match altitude_at dr t idx' with
      | None => None
      | Some a => option_map (cons a) (altitudes dr ts' idx')
      end
  end.
Definition save_ekf_to_list (dr : list (Q * Q)) (ts : list Q) : option (list Q) := altitudes dr ts 1.
