(** Model of the ACFR exchange files: the vehicle and stereo pose files
    (acfr_vehicle_pose.py, acfr_stereo_pose.py) and the combined raw file
    (acfr_combined_raw.py:66-103).  A line is the list of its blank separated tokens, and
    float(str(x)) = x, so a number is written and read as itself; image names contain no
    blanks. *)
From Coq Require Import Ascii String.
From Verif Require Import PyBase.
Open Scope Q_scope.

Inductive token := Num (q : Q) | Txt (s : string).
Definition fline : Type := list token.
Definition float (t : token) : option Q := match t with Num q => Some q | Txt _ => None end.

(** acfr_vehicle_pose.py:15-58: an empty line and 42 comment lines;
    acfr_stereo_pose.py:15-70: an empty line and 54 comment lines. *)
Definition header (n : nat) : list fline := [] :: repeat [Txt "%"%string] n.
Definition vehicle_header : list fline := header 42.
Definition stereo_header : list fline := header 54.

Record pose := mkpose {
  t : Q; lat : Q; lon : Q; north : Q; east : Q; depth : Q;
  roll : Q; pitch : Q; yaw : Q; alt : Q }.
Record camera := mkcam { c_pose : pose; c_file : string }.

Record entry := mkentry {
  e_t : Q; e_lat : Q; e_lon : Q; e_north : Q; e_east : Q; e_depth : Q;
  e_x : Q; e_y : Q; e_z : Q; e_left : string; e_right : string; e_alt : Q }.

Record parsed := mkparsed { o_lat : option Q; o_lon : option Q; entries : list entry }.

Section Acfr.
  (** math.degrees; Path(f).name *)
  Variable degrees : Q -> Q.
  Variable basename : string -> string.

  Definition origin_lines (la lo : Q) : list fline :=
    [[Txt "ORIGIN_LATITUDE"%string; Num la]; [Txt "ORIGIN_LONGITUDE"%string; Num lo]].

  (** acfr_vehicle_pose.py:206-239 *)
  Definition vehicle_line (i : Q) (p : pose) : fline :=
    [Num i; Num (t p); Num (lat p); Num (lon p); Num (north p); Num (east p); Num (depth p);
     Num (roll p); Num (pitch p); Num (yaw p); Num (alt p)].
  Fixpoint number {A B} (f : Q -> A -> B) (i : Z) (l : list A) : list B :=
    match l with [] => [] | a :: r => f (inject_Z i) a :: number f (i + 1)%Z r end.
  Definition write_vehicle (la lo : Q) (ps : list pose) : list fline :=
    (vehicle_header ++ origin_lines la lo ++ number vehicle_line 0 ps)%list.

  (** acfr_vehicle_pose.py:100-113; [None]: IndexError or ValueError.  A line with more than
      11 items is an error message (102) and then read; the writer makes none. *)
  Definition vehicle_entry (l : fline) : option entry :=
    match l with
    | [Num _; Num a; Num b; Num c; Num d; Num e; Num f; Num x; Num y; Num z; Num g] =>
        Some (mkentry a b c d e f (degrees x) (degrees y) (degrees z) EmptyString EmptyString g)
    | _ => None
    end.
  (** acfr_stereo_pose.py:120-137 *)
  Definition stereo_entry (l : fline) : option entry :=
    match l with
    | [Num _; Num a; Num b; Num c; Num d; Num e; Num f; Num x; Num y; Num z; Txt n1; Txt n2; Num g; Num _; Num _] =>
        Some (mkentry a b c d e f (degrees x) (degrees y) (degrees z) n1 n2 g)
    | _ => None
    end.

  Definition second (l : fline) : option Q := match l with _ :: k :: _ => float k | _ => None end.

  (** acfr_vehicle_pose.py:158-172 with [k] = 44, acfr_stereo_pose.py:186-199 with
      [k] = 55. *)
  Fixpoint parse_lines (one : fline -> option entry) (k : nat) (i : nat) (p : parsed) (ls : list fline) : option parsed :=
    match ls with
    | [] => Some p
    | l :: r =>
        let next :=
          if (i =? k)%nat then
            match second l with Some v => Some (mkparsed (Some v) (o_lon p) (entries p)) | None => None end
          else if (i =? S k)%nat then
            match second l with Some v => Some (mkparsed (o_lat p) (Some v) (entries p)) | None => None end
          else if (S k <? i)%nat then
            match one l with Some e => Some (mkparsed (o_lat p) (o_lon p) (entries p ++ [e])%list) | None => None end
          else Some p in
        match next with Some p => parse_lines one k (S i) p r | None => None end
    end.
  Definition parse_vehicle (ls : list fline) : option parsed := parse_lines vehicle_entry 44 0 (mkparsed None None []) ls.
  Definition parse_stereo (ls : list fline) : option parsed := parse_lines stereo_entry 55 0 (mkparsed None None []) ls.

  (** acfr_vehicle_pose.py:177-197 *)
  Definition dead_reckoning (e : entry) : pose :=
    mkpose (e_t e) (e_lat e) (e_lon e) (e_north e) (e_east e) (e_depth e) (e_y e) (- e_x e) (e_z e) (e_alt e).

  (** acfr_stereo_pose.py:268-304 *)
  Definition stereo_line (i : Q) (cc : camera * camera) : fline :=
    let p := c_pose (fst cc) in
    [Num i; Num (t p); Num (lat p); Num (lon p); Num (north p); Num (east p); Num (depth p);
     Num (roll p); Num (pitch p); Num (yaw p);
     Txt (basename (c_file (fst cc))); Txt (basename (c_file (snd cc))); Num (alt p); Num 0; Num 0].
  Definition write_stereo (la lo : Q) (c1 c2 : list camera) : list fline :=
    (stereo_header ++ origin_lines la lo ++ number stereo_line 0 (combine c1 c2))%list.

  (** acfr_stereo_pose.py:204-259 *)
  Definition cameras (e : entry) : camera * camera :=
    let p := mkpose (e_t e) (e_lat e) (e_lon e) (e_north e) (e_east e) (e_depth e) (e_y e) (- e_x e) (e_z e + 90) (e_alt e) in
    (mkcam p (e_left e), mkcam p (e_right e)).
End Acfr.

(** acfr_combined_raw.py: a measurement is its kind and an identity. *)
Inductive kind := KBodyVelocity | KInertialVelocity | KAltitude | KDepth | KUsbl | KOrientation | KPayload | KCamera (laser : bool).
Record measurement := mkm { m_kind : kind; m_id : nat }.
Inductive rawline := Rdi (velocity altitude orientation : measurement) | Plain (m : measurement).

Record writer := mkw { rdi_altitude : option measurement; rdi_orientation : option measurement; written : list rawline }.

(** 72-103 *)
Definition add (w : writer) (m : measurement) : writer :=
  match m_kind m with
  | KBodyVelocity =>
      match rdi_altitude w, rdi_orientation w with
      | Some a, Some o => mkw None None (written w ++ [Rdi m a o])%list
      | _, _ => w
      end
  | KInertialVelocity | KPayload => w
  | KAltitude => mkw (Some m) (rdi_orientation w) (written w)
  | KDepth | KUsbl => mkw (rdi_altitude w) (rdi_orientation w) (written w ++ [Plain m])%list
  | KOrientation => mkw (rdi_altitude w) (Some m) (written w ++ [Plain m])%list
  | KCamera laser => if laser then w else mkw (rdi_altitude w) (rdi_orientation w) (written w ++ [Plain m])%list
  end.
Definition run_writer (ms : list measurement) : writer := fold_left add ms (mkw None None []).
