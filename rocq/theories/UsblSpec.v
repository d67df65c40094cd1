From Coq Require Import Reals Qreals.
From Verif Require Import PyBase InterpSpec UsblModel.

(** [s] is [l] with some elements left out. *)
Inductive subseq {A} : list A -> list A -> Prop :=
| sub_nil : forall l, subseq [] l
| sub_keep : forall x s l, subseq s l -> subseq (x :: s) (x :: l)
| sub_skip : forall x s l, subseq s l -> subseq s (x :: l).

(** The vehicle's own depth (and its uncertainty) at time t, from the two depth
    samples around t, agrees with the fix. *)
Definition depth_agrees (depth : list depth_sample) (sigma : Q) (u : usbl) : Prop :=
  exists a b d sd, adjacent depth a b /\ (d_t a <= u_t u <= d_t b)%Q /\
    on_line (d_t a) (d_d a) (d_t b) (d_d b) (u_t u) d /\
    on_line (d_t a) (d_std a) (d_t b) (d_std b) (u_t u) sd /\
    (Qabs (u_depth u - d) <= sigma * (Qabs (u_depth_std u) + Qabs sd))%Q.

(** Distance travelled between two fixes does not exceed what the speed limit
    and the position uncertainties allow. *)
Definition reachable (sigma speed : R) (a b : usbl) : Prop :=
  (dist_euc (u_n a) (u_e a) (u_n b) (u_e b) <=
   sigma * (dist_euc 0 0 (u_n_std a) (u_e_std a) + dist_euc 0 0 (u_n_std b) (u_e_std b)
            + Rabs (Q2R (u_t a) - Q2R (u_t b)) * speed))%R.

(** One second inside the depth record. *)
Definition inside (depth : list depth_sample) (t : Q) : Prop :=
  exists f l, is_first depth f /\ is_last depth l /\ (d_t f + 1 <= t)%Q /\ (t + 1 <= d_t l)%Q.

(** Element [k] of [l] has two neighbours on each side and agrees with all four. *)
Definition four_neighbours (sigma speed : R) (l : list usbl) (k : nat) (u : usbl) : Prop :=
  (2 <= k)%nat /\ nth_error l k = Some u /\
  forall m, (m = k - 2 \/ m = k - 1 \/ m = k + 1 \/ m = k + 2)%nat ->
    exists v, nth_error l m = Some v /\ reachable sigma speed u v.
