(** Model of the particles' state arrays and trajectories (auv_nav/localisation/
    pf.py:45-76, 142-222, 259-279, 296-321) with an explicit heap of arrays, because
    [p.trajectory] holds references to the arrays that [p.state] refers to. *)
From Verif Require Import PyBase.
Open Scope Q_scope.

(** pf.py:31-42, 51: one state array. *)
Record pstate := mkS { px : Q; py : Q; pz : Q; proll : Q; ppitch : Q; pyaw : Q;
                       pvx : Q; pvy : Q; pvz : Q; palt : Q }.

(** The seven values drawn by [linear_noise] at pf.py:180-198. *)
Record reading := mkR { rz : Q; rroll : Q; rpitch : Q; ryaw : Q; rvx : Q; rvy : Q; rvz : Q }.

(** pf.py:180-198: what the seven in-place assignments do to an array. *)
Definition write (r : reading) (s : pstate) : pstate :=
  mkS (px s) (py s) (rz r) (rroll r) (rpitch r) (ryaw r) (rvx r) (rvy r) (rvz r) (palt s).

Section Rotation.
  (** Rows X, Y, Z of [f] times the velocities (pf.py:200-216): world displacement
      during dt for a state's attitude and velocity. *)
  Variable disp : Q -> pstate -> Q * Q * Q.

  (** pf.py:207-219 [f @ p.state]: all other rows are those of the identity. *)
  Definition advance (dt : Q) (s : pstate) : pstate :=
    let '(dx, dy, dz) := disp dt s in
    mkS (px s + dx) (py s + dy) (pz s + dz) (proll s) (ppitch s) (pyaw s) (pvx s) (pvy s) (pvz s) (palt s).

  Definition heap := list pstate.
  (** pf.py:45-61 without the weight and the error list; [loc] is the array
      [p.state] refers to, [traj] those in [p.trajectory]. *)
  Record particle := mkP { loc : nat; time : Q; traj : list nat; traj_time : list Q }.

  Fixpoint upd (h : heap) (l : nat) (f : pstate -> pstate) : heap :=
    match h, l with
    | [], _ => []
    | s :: h', O => f s :: h'
    | s :: h', S l' => s :: upd h' l' f
    end.

  (** pf.py:179-222: assignments into the array, then a new array. *)
  Definition propagate (dt : Q) (r : reading) (h : heap) (p : particle) : option (heap * particle) :=
    let h1 := upd h (loc p) (write r) in
    match nth_error h1 (loc p) with
    | Some s => Some (h1 ++ [advance dt s],
                      mkP (length h1) (time p + dt) (traj p ++ [length h1]) (traj_time p ++ [time p + dt]))
    | None => None
    end.

  (** [copy.deepcopy] of a particle: fresh arrays for everything reachable, sharing
      kept.  Copying the whole heap at an offset does that; the unreachable copies
      are never used. *)
  Definition deepcopy (h : heap) (p : particle) : heap * particle :=
    (h ++ h, mkP (length h + loc p) (time p) (map (Nat.add (length h)) (traj p)) (traj_time p)).

  (** pf.py:273-275, one reading per particle; [None] if the lists differ in length. *)
  Fixpoint propagate_all (dt : Q) (rs : list reading) (h : heap) (ps : list particle)
    : option (heap * list particle) :=
    match rs, ps with
    | [], [] => Some (h, [])
    | r :: rs', p :: ps' =>
        match propagate dt r h p with
        | Some (h1, p1) =>
            match propagate_all dt rs' h1 ps' with
            | Some (h2, ps2) => Some (h2, p1 :: ps2)
            | None => None
            end
        | None => None
        end
    | _, _ => None
    end.

  (** pf.py:307-321: deep copies of the particles at the drawn positions. *)
  Fixpoint copy_all (idx : list nat) (h : heap) (ps : list particle) : option (heap * list particle) :=
    match idx with
    | [] => Some (h, [])
    | i :: idx' =>
        match nth_error ps i with
        | Some p =>
            let '(h1, p1) := deepcopy h p in
            match copy_all idx' h1 ps with
            | Some (h2, ps2) => Some (h2, p1 :: ps2)
            | None => None
            end
        | None => None
        end
    end.

  (** pf.py:284: the sort moves references to particles about; [idx] is the list of
      old positions in the new order. *)
  Fixpoint reorder {A} (idx : list nat) (ps : list A) : option (list A) :=
    match idx with
    | [] => Some []
    | i :: idx' => match nth_error ps i, reorder idx' ps with
                   | Some p, Some ps' => Some (p :: ps')
                   | _, _ => None
                   end
    end.

  Inductive op := Propagate (dt : Q) (rs : list reading) | Resample (idx : list nat) | Sort (idx : list nat).

  Definition exec (o : op) (c : heap * list particle) : option (heap * list particle) :=
    match o with
    | Propagate dt rs => propagate_all dt rs (fst c) (snd c)
    | Resample idx => copy_all idx (fst c) (snd c)
    | Sort idx => match reorder idx (snd c) with Some ps => Some (fst c, ps) | None => None end
    end.

  Fixpoint execs (os : list op) (c : heap * list particle) : option (heap * list particle) :=
    match os with
    | [] => Some c
    | o :: os' => match exec o c with Some c' => execs os' c' | None => None end
    end.

  (** pf.py:259-262: n deep copies of the prior, which has an empty trajectory. *)
  Definition set_prior (n : nat) (s : pstate) (t : Q) : heap * list particle :=
    (repeat s n, map (fun l => mkP l t [] []) (seq 0 n)).

  (** What [ParticleToSyncedOrientationBodyVelocity] reads (pf.py:331-343). *)
  Definition trajectory (h : heap) (p : particle) : list (option pstate) := map (nth_error h) (traj p).
End Rotation.
