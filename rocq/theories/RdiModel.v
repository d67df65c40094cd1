(** Model of parse_rdi.py:62-137 with [OutputFormat.export] (sensors.py:115-126) and the
    [valid]/[clear] of the three records it fills (152-168, 617-628, 995-1009).  Lines are
    given by their tag and decoded numbers; a line with the wrong number of fields is
    [Other].  Only the "oplab" output is modelled ([_to_acfr] is not implemented). *)
From Verif Require Import PyBase.
Open Scope Q_scope.

Section Rdi.
  (** math.radians; the rotation by the heading offset (123-128). *)
  Variable radians : Q -> Q.
  Variable rotate : Q -> Q -> Q * Q.
  (** altitude_std_factor, orientation_std_offset *)
  Variable alt_factor : Q.
  Variable ot_std : option Q.

  (** [:SA,pitch,roll,heading]; [:TS]; [:BI,x,y,z,err,status] (status "A" or not);
      [:BD,..,..,..,range,..]. *)
  Inductive line :=
  | SA (pitch roll heading : Q)
  | TS (stamp : Q)
  | BI (ok : bool) (x y z err : Q)
  | BD (range : Q)
  | Other.

  Record velocity := mkvel { v_x : Q; v_y : Q; v_z : Q; v_std : Q }.
  Record attitude := mkatt { a_roll : Q; a_pitch : Q; a_yaw : Q }.

  (** The attributes that matter: [b_*] BodyVelocity, [o_*] Orientation, [l_*] Altitude. *)
  Record state := mkst {
    b_t : option Q; b_dvl : option Q; b_v : option velocity;
    o_t : option Q; o_a : option attitude;
    l_t : option Q; l_at : option Q; l_alt : option Q;
    alt_valid : bool }.
  Definition start : state := mkst None None None None None None None None false.

  Inductive category := Velocity | Orientation | Altitude.
  Inductive output :=
  | OutVelocity (t dvl : Q) (v : velocity)
  | OutOrientation (t : Q) (a : attitude)
  | OutAltitude (t dvl a : Q).

  (** export: the record if valid, and the cleared object. *)
  Definition export (c : category) (s : state) : list output * state :=
    match c with
    | Velocity =>
        match b_t s, b_dvl s, b_v s with
        | Some t, Some d, Some v =>
            ([OutVelocity t d v], mkst (b_t s) None None (o_t s) (o_a s) (l_t s) (l_at s) (l_alt s) (alt_valid s))
        | _, _, _ => ([], s)
        end
    | Orientation =>
        match o_t s, o_a s, ot_std with
        | Some t, Some a, Some _ =>
            ([OutOrientation t a], mkst (b_t s) (b_dvl s) (b_v s) (o_t s) None (l_t s) (l_at s) (l_alt s) (alt_valid s))
        | _, _, _ => ([], s)
        end
    | Altitude =>
        match l_t s, l_at s, l_alt s with
        | Some t, Some d, Some a =>
            ([OutAltitude t d a], mkst (b_t s) (b_dvl s) (b_v s) (o_t s) (o_a s) (l_t s) None None (alt_valid s))
        | _, _, _ => ([], s)
        end
    end.

  Definition step (c : category) (s : state) (l : line) : list output * state :=
    match l with
    | SA p r h =>                                                         (* 69-72 *)
        ([], mkst (b_t s) (b_dvl s) (b_v s) (o_t s) (Some (mkatt (radians r) (radians p) (radians h)))
                  (l_t s) (l_at s) (l_alt s) (alt_valid s))
    | TS t =>                                                             (* 73-116 *)
        let (o, s) := export c s in
        (o, mkst (Some t) (Some t) (b_v s) (Some t) (o_a s) (Some t) (Some t) (l_alt s) false)
    | BI ok x y z e =>                                                    (* 117-132 *)
        if ok then
          let (x', y') := rotate (x * (1 # 1000)) (y * (1 # 1000)) in
          ([], mkst (b_t s) (b_dvl s) (Some (mkvel x' y' (z * (1 # 1000)) (e * (1 # 1000)))) (o_t s) (o_a s)
                    (l_t s) (l_at s) (l_alt s) true)
        else ([], s)
    | BD r =>                                                             (* 133-135 *)
        if alt_valid s then
          ([], mkst (b_t s) (b_dvl s) (b_v s) (o_t s) (o_a s) (l_t s) (l_at s) (Some r) true)
        else ([], s)
    | Other => ([], s)
    end.

  Fixpoint run (c : category) (s : state) (ls : list line) : list output :=
    match ls with
    | [] => []
    | l :: r => let (o, s) := step c s l in o ++ run c s r
    end.
  Definition parse_rdi (c : category) (ls : list line) : list output := run c start ls.
End Rdi.
