(** Vocabulary for angular rates, dead reckoning and synchronisation. *)
From Verif Require Import PyBase InterpModel InterpSpec DrModel.
Open Scope Q_scope.

(** The orientation samples of a vehicle rotating at constant rates
    [p], [q], [w] (degrees per second), headings reported in [0, 360]. *)
Definition steady_rotation (l : list orient) (p q w : Q) : Prop :=
  exists r0 p0 y0, forall o, In o l ->
    o_roll o == r0 + p * o_t o /\ o_pitch o == p0 + q * o_t o /\
    same_heading (o_yaw o) (y0 + w * o_t o) /\ 0 <= o_yaw o <= 360.

(** The heading turns by less than half a turn over any two sampling steps. *)
Definition slow_turn (l : list orient) (w : Q) : Prop :=
  forall i j a b, (i < j <= i + 2)%nat -> nth_error l i = Some a -> nth_error l j = Some b ->
    Qabs (w * (o_t b - o_t a)) < 180.

Definition pos_eq (a b : Q * Q) : Prop := fst a == fst b /\ snd a == snd b.
Definition pos_add (a b : Q * Q) : Q * Q := (fst a + fst b, snd a + snd b).
Definition pos_scale (k : Q) (a : Q * Q) : Q * Q := (k * fst a, k * snd a).

(** Area under the polyline through the velocity samples. *)
Fixpoint area (f : vel -> Q) (l : list vel) : Q :=
  match l with
  | a :: ((b :: _) as rest) => (v_t b - v_t a) * (f a + f b) / 2 + area f rest
  | _ => 0
  end.

(** Both velocity records lie on the same segment of the record list, at [t]. *)
Definition vel_on_segment (a b v : bodyvel) : Prop :=
  forall g, In g [b_x; b_y; b_z; b_sx; b_sy; b_sz] ->
    on_line (b_t a) (g a) (b_t b) (g b) (b_t v) (g v).

(** [x] is the value at time [t] of the polyline through the samples [l]. *)
Definition on_polyline (l : list (Q * Q)) (t x : Q) : Prop :=
  exists a b, adjacent l a b /\ fst a <= t <= fst b /\ on_line (fst a) (snd a) (fst b) (snd b) t x.

(** A synchronised record: its velocities are on the segment between the two
    adjacent velocity samples bracketing its time, and altitude and depth are on
    the polylines of their samples, if its time is after the first and not after
    the last of them. *)
Definition sync_ok (vels : list bodyvel) (alts depths : list (Q * Q)) (r : synced) : Prop :=
  (exists a b, adjacent vels a b /\ b_t a <= y_t r <= b_t b /\ vel_on_segment a b (y_vel r) /\
               b_t (y_vel r) = y_t r) /\
  (forall a z, is_first alts a -> is_last alts z -> fst a < y_t r <= fst z ->
               on_polyline alts (y_t r) (y_alt r)) /\
  (forall a z, is_first depths a -> is_last depths z -> fst a < y_t r <= fst z ->
               on_polyline depths (y_t r) (y_depth r)).

Definition in_span (v0 vl t : Q) : bool := (Qle_bool v0 t && Qle_bool t vl)%bool.

(** Exactly one orientation sample precedes time [t0]. *)
Definition one_before (os : list Q) (t0 : Q) : Prop :=
  length (filter (fun t => Qltb t t0) os) = 1%nat.
