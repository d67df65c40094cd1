(** Model of the GAPS line scanner, parse_gaps.py:67-470.  A line is given by its kind
    and its decoded values (the decoding of positions is in LatlonModel); the conversion
    of positions to metres and the standard deviations (328-376) are left out. *)
From Coq Require Import Qround.
From Verif Require Import PyBase.
Open Scope Q_scope.

Record packet := mkpacket { p_t : Q; p_lat : Q; p_lon : Q; p_broken : bool }.

(** [Target ok p depth]: a $PTSAG line of the tracked transponder, [ok] when fields 11
    and 13 are "F" and "1" (83-87).  [Ship p]: a $PTSAG line with id 0.  [p_broken] says
    that the time field does not decode or has 60 seconds, 60 minutes or 24 hours
    (96-118, 171-194).  [Other]: anything else, including other transponders. *)
Inductive line :=
| Target (ok : bool) (p : packet) (depth : Q)
| Ship (p : packet)
| Heading (h : Q)
| Other.

Record fix_ := mkfix { f_t : Q; f_lat : Q; f_lon : Q; f_depth : Q; f_ship_lat : Q; f_ship_lon : Q; f_ship_heading : Q }.

(** The local variables that survive from line to line (and from file to file);
    [None] for one that is not bound yet. *)
Record state := mkstate {
  flag : nat;
  prior : option packet; heading_prior : option Q;
  target : option (packet * Q);
  posterior : option packet; heading_posterior : option Q }.

Definition initial : state := mkstate 0 None None None None None.

(** 323-326: the two while loops; [n] bounds the number of turns. *)
Fixpoint down (n : nat) (h : Q) : Q :=
  match n with O => h | S n => if Qlt_le_dec 360 h then down n (h - 360) else h end.
Fixpoint up (n : nat) (h : Q) : Q :=
  match n with O => h | S n => if Qlt_le_dec h 0 then up n (h + 360) else h end.
Definition turns (h : Q) : nat := Z.to_nat (Qceiling (Qabs h / 360)).
Definition wrap (h : Q) : Q := let h := down (turns h) h in up (turns h) h.

(** 305-321 and 378-469; [None]: UnboundLocalError or ZeroDivisionError. *)
Definition complete (broken : bool) (s : state) : option (list fix_) :=
  match prior s, heading_prior s, target s, posterior s, heading_posterior s with
  | Some a, Some ha, Some (p, depth), Some b, Some hb =>
      if Qeq_dec (p_t b - p_t a) 0 then None else
      let k := (p_t p - p_t a) / (p_t b - p_t a) in
      let f := mkfix (p_t p) (p_lat p) (p_lon p) depth
                     (k * (p_lat b - p_lat a) + p_lat a) (k * (p_lon b - p_lon a) + p_lon a)
                     (wrap (k * (hb - ha) + ha)) in
      Some (if broken then [] else [f])
  | _, _, _, _, _ => None
  end.

(** One line up to 303; the boolean is [broken_packet_flag], set to False at 76.  A ship
    packet after the target (231-292) is not checked: a broken one raises. *)
Definition read (s : state) (l : line) : option (state * bool) :=
  match l with
  | Target ok p depth =>
      if (flag s =? 2)%nat then
        if ok then Some (mkstate 3 (prior s) (heading_prior s) (Some (p, depth)) (posterior s) (heading_posterior s), p_broken p)
        else Some (mkstate 0 (prior s) (heading_prior s) (target s) (posterior s) (heading_posterior s), false)
      else Some (s, false)
  | Ship p =>
      if (flag s <? 3)%nat then
        Some (mkstate (if (flag s <? 2)%nat then flag s + 1 else flag s) (Some p) (heading_prior s) (target s)
                      (posterior s) (heading_posterior s), p_broken p)
      else if p_broken p then None
      else Some (mkstate (flag s + 1) (prior s) (heading_prior s) (target s) (Some p) (heading_posterior s), false)
  | Heading h =>
      if (flag s <? 3)%nat then
        Some (mkstate (if (flag s <? 2)%nat then flag s + 1 else flag s) (prior s) (Some h) (target s)
                      (posterior s) (heading_posterior s), false)
      else Some (mkstate (flag s + 1) (prior s) (heading_prior s) (target s) (posterior s) (Some h), false)
  | Other => Some (s, false)
  end.

Definition reset (s : state) : state :=
  mkstate 0 (prior s) (heading_prior s) (target s) (posterior s) (heading_posterior s).

Definition step (s : state) (l : line) : option (state * list fix_) :=
  match read s l with
  | None => None
  | Some (s', broken) =>
      if (5 <=? flag s')%nat then
        match complete broken s' with
        | None => None
        | Some out => Some (reset s', out)
        end
      else Some (s', [])
  end.

(** 73-469: the lines of one file. *)
Fixpoint run (s : state) (ls : list line) : option (state * list fix_) :=
  match ls with
  | [] => Some (s, [])
  | l :: r =>
      match step s l with
      | None => None
      | Some (s1, o1) => match run s1 r with None => None | Some (s2, o2) => Some (s2, o1 ++ o2) end
      end
  end.

(** 67-72: file by file, with only [flag_got_time] reset. *)
Fixpoint files (s : state) (fs : list (list line)) : option (state * list fix_) :=
  match fs with
  | [] => Some (s, [])
  | f :: r =>
      match run (reset s) f with
      | None => None
      | Some (s1, o1) => match files s1 r with None => None | Some (s2, o2) => Some (s2, o1 ++ o2) end
      end
  end.
Definition parse_gaps (fs : list (list line)) : option (list fix_) := option_map snd (files initial fs).
