(** Model of angular speeds, dead reckoning and the synchronisation loop
    (exact rationals). *)
From Verif Require Import PyBase InterpModel.
Open Scope Q_scope.

(** An orientation sample: the fields read by compute_angular_speeds. *)
Record orient := mkOrient { o_t : Q; o_roll : Q; o_pitch : Q; o_yaw : Q }.

(** dvl_level_arm.py:44-54: the two samples the rates are taken from.  [None]
    when no branch applies (o1, o2 stay None and line 56 raises). *)
Definition rate_pair (v : list orient) (i : nat) : option (orient * orient) :=
  let n := length v in
  if ((1 <=? i) && (i <? n - 1))%nat%bool then
    match nth_error v (i - 1), nth_error v (i + 1) with
    | Some a, Some b => Some (a, b) | _, _ => None end
  else if ((1 <? i) && (i =? n - 1))%nat%bool then
    match nth_error v (i - 1), nth_error v i with
    | Some a, Some b => Some (a, b) | _, _ => None end
  else if (i =? 0)%nat then
    match nth_error v i, nth_error v (i + 1) with
    | Some a, Some b => Some (a, b) | _, _ => None end
  else None.

(** dvl_level_arm.py:41-69 [compute_angular_speeds]; [None] is an exception. *)
Definition compute_angular_speeds (v : list orient) (i : nat) : option (Q * Q * Q) :=
  match rate_pair v i with
  | None => None
  | Some (o1, o2) =>
      let dt := o_t o2 - o_t o1 in
      let droll := o_roll o2 - o_roll o1 in
      let dpitch := o_pitch o2 - o_pitch o1 in
      let dyaw := o_yaw o2 - o_yaw o1 in
      let dyaw := if Qltb 180 dyaw then dyaw - 360
                  else if Qltb dyaw (-180) then dyaw + 360 else dyaw in
      if Qeq_bool dt 0 then None                       (* ZeroDivisionError *)
      else Some (droll / dt, dpitch / dt, dyaw / dt)
  end.

(** dead_reckoning.py:11-27 [dead_reckoning]. *)
Definition dead_reckoning (t tp vn vnp ve vep np ep : Q) : Q * Q :=
  (((t - tp) * (vnp + vn)) / 2 + np, ((t - tp) * (vep + ve)) / 2 + ep).

(** A velocity sample of the dead-reckoning list: time, north, east. *)
Record vel := mkVel { v_t : Q; v_n : Q; v_e : Q }.

(** process.py:933-950: positions, starting at (0, 0). *)
Fixpoint dr_from (prev : vel) (pos : Q * Q) (l : list vel) : list (Q * Q) :=
  match l with
  | [] => []
  | v :: rest =>
      let p := dead_reckoning (v_t v) (v_t prev) (v_n v) (v_n prev) (v_e v) (v_e prev)
                              (fst pos) (snd pos) in
      p :: dr_from v p rest
  end.
Definition dr_track (l : list vel) : list (Q * Q) :=
  match l with
  | [] => []                       (* process.py:933 would raise IndexError *)
  | v :: rest => (0, 0) :: dr_from v (0, 0) rest
  end.

(** * Synchronisation of velocity, altitude and depth to orientation times,
    process.py:770-930 and 977-982.  Lever arm and rotation (853-895) are
    applied to the result and modelled in FramesModel.v; [y_*] are the
    interpolated values that enter them.  An exception of [compute_angular_speeds] (858) is left
    out, and depth_std (923-929) is interpolated as the depth. *)
Record bodyvel := mkBv { b_t : Q; b_x : Q; b_y : Q; b_z : Q; b_sx : Q; b_sy : Q; b_sz : Q }.
Record synced := mkSynced { y_t : Q; y_vel : bodyvel; y_alt : Q; y_depth : Q }.

(** process.py:775-779; [None] is IndexError. *)
Fixpoint start_index (os : list Q) (t0 : Q) : option nat :=
  match os with
  | [] => None
  | t :: rest => if Qltb t t0 then option_map S (start_index rest t0) else Some O
  end.

(** process.py:795-800. *)
Fixpoint adv_vel (fuel : nat) (vels : list bodyvel) (t : Q) (j : nat) : nat :=
  match fuel with
  | O => j
  | S f => match nth_error vels (S j) with
           | Some v => if Qltb (b_t v) t then adv_vel f vels t (S j) else j
           | None => j
           end
  end.

(** process.py:897-901 and 910-914 (same loop on altitude and depth). *)
Fixpoint adv_pair (fuel : nat) (l : list (Q * Q)) (t : Q) (n : nat) : nat :=
  match fuel with
  | O => n
  | S f => if (S n <? length l)%nat then
             match nth_error l n with
             | Some a => if Qltb (fst a) t then adv_pair f l t (S n) else n
             | None => n
             end
           else n
  end.

(** process.py:902-908 / 916-922, with Python's [l[-1]] when n = 0. *)
Definition at_pair (l : list (Q * Q)) (t : Q) (n : nat) : option Q :=
  match py_nth l (Z.of_nat n - 1), nth_error l n with
  | Some a, Some b => Some (interpolate t (fst a) (fst b) (snd a) (snd b))
  | _, _ => None
  end.

Definition at_vel (vels : list bodyvel) (t : Q) (j : nat) : option bodyvel :=
  match nth_error vels j, nth_error vels (S j) with
  | Some a, Some b =>
      let f g := interpolate t (b_t a) (b_t b) (g a) (g b) in
      Some {| b_t := t; b_x := f b_x; b_y := f b_y; b_z := f b_z;
              b_sx := f b_sx; b_sy := f b_sy; b_sz := f b_sz |}
  | _, _ => None
  end.

(** process.py:789-930, the loop over orientation times. *)
Fixpoint sync_from (vels : list bodyvel) (alts depths : list (Q * Q)) (tlast : Q)
         (j n k : nat) (os : list Q) : option (list synced) :=
  match os with
  | [] => Some []
  | t :: rest =>
      if Qltb tlast t then Some []
      else
        let j := adv_vel (length vels) vels t j in
        let n := adv_pair (length alts) alts t n in
        let k := adv_pair (length depths) depths t k in
        match at_vel vels t j, at_pair alts t n, at_pair depths t k with
        | Some v, Some a, Some d =>
            match sync_from vels alts depths tlast j n k rest with
            | Some out => Some ({| y_t := t; y_vel := v; y_alt := a; y_depth := d |} :: out)
            | None => None
            end
        | _, _, _ => None
        end
  end.

(** The whole block, including the deletion of the first record at 977-982
    when exactly one orientation precedes the first velocity.  [None] is an
    exception. *)
Definition synchronise (os : list Q) (vels : list bodyvel) (alts depths : list (Q * Q))
  : option (list synced) :=
  match nth_error vels 0, py_nth vels (-1) with
  | Some v0, Some vl =>
      match start_index os (b_t v0) with
      | None => None
      | Some s =>
          match sync_from vels alts depths (b_t vl) 0 0 0 (skipn s os) with
          | None => None
          | Some [] => None                    (* process.py:933 IndexError *)
          | Some (r :: out) => if (s =? 1)%nat then Some out else Some (r :: out)
          end
      end
  | _, _ => None
  end.
