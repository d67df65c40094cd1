(** Model of the magnetic declination of a USBL record: Usbl.clear, valid, set_magnetic_declination and
    apply_declination (auv_nav/sensors.py:1170-1204), over the reals.  [None] is Python's None.
    Other attributes are neither read nor written by these methods and are left out, but for the
    uncertainties. *)
From Coq Require Import Reals.
Open Scope R_scope.

(** sensors.py:1124-1168: the attributes; the references exist only if given to the constructor, so
    [None] stands for a missing attribute there. *)
Record usbl := mkusbl { stamp : option R; latitude : option R; longitude : option R;
  northings : option R; eastings : option R; northings_std : option R; eastings_std : option R;
  declination : option R; latitude_reference : option R; longitude_reference : option R }.

Section Declination.
  (** [metres_to_latlon(latitude, longitude, eastings, northings)], modelled elsewhere. *)
  Variable metres_to_latlon : R -> R -> R -> R -> R * R.

  (** sensors.py:1170-1175. *)
  Definition clear (u : usbl) : usbl :=
    mkusbl None None None None None (northings_std u) (eastings_std u) (declination u)
      (latitude_reference u) (longitude_reference u).

  Definition given {A} (x : option A) : bool := match x with Some _ => true | None => false end.

  (** sensors.py:1177-1184. *)
  Definition valid (u : usbl) : bool :=
    (given (latitude u) && given (longitude u) && given (eastings u) && given (northings u)
     && given (stamp u))%bool.

  (** sensors.py:1186-1187. *)
  Definition set_magnetic_declination (u : usbl) (d : option R) : usbl :=
    mkusbl (stamp u) (latitude u) (longitude u) (northings u) (eastings u) (northings_std u)
      (eastings_std u) d (latitude_reference u) (longitude_reference u).

  Definition put (u : usbl) (lat lon n e : option R) : usbl :=
    mkusbl (stamp u) lat lon n e (northings_std u) (eastings_std u) (declination u)
      (latitude_reference u) (longitude_reference u).

  (** sensors.py:1190-1204: the record afterwards, and whether the method returned ([false]: it raised
      a TypeError or an AttributeError). *)
  Definition apply_declination (u : usbl) : usbl * bool :=
    match northings u, eastings u, declination u with
    | Some n0, Some e0, Some d =>
      let n := n0 * cos d - e0 * sin d in
      let e := n0 * sin d + e0 * cos d in
      match latitude_reference u, longitude_reference u with
      | Some la, Some lo =>
        let p := metres_to_latlon la lo e n in
        (put u (Some (fst p)) (Some (snd p)) (Some n) (Some e), true)
      | _, _ => (put u (latitude u) (longitude u) (Some n) (Some e), false)
      end
    | _, _, _ => (u, false)
    end.
End Declination.
