(** Model of how the parsers decode positions written as degrees, decimal minutes and a
    hemisphere letter: parse_gaps.py:129-152 (and 207-225, 263-289, the same code),
    hybis.py:49-61, parse_usbl_dump.py:82-104.  Texts are lists of code points.
    int() and float() are parameters; [decimal] below is one instance. *)
From Verif Require Import PyBase NmeaModel.
Open Scope Q_scope.

(** Python slice s[a:b] for 0 <= a <= b. *)
Definition slice (a b : nat) (s : text) : text := firstn (b - a) (skipn a s).

Definition letter_N : N := 78. Definition letter_S : N := 83.
Definition letter_E : N := 69. Definition letter_W : N := 87.
Definition is_text (c : N) (s : text) : bool := text_eqb s [c].

(** Unsigned decimal numbers; Python's int() and float() also read signs, blanks,
    underscores and exponents. *)
Definition digit (c : N) : option Z := if ((48 <=? c) && (c <=? 57))%N then Some (Z.of_N c - 48)%Z else None.
Fixpoint digits (acc : Z) (s : text) : option Z :=
  match s with
  | [] => Some acc
  | c :: r => match digit c with Some d => digits (10 * acc + d)%Z r | None => None end
  end.
Definition decimal (s : text) : option Q :=
  match split 46 s with
  | [i] => match i with [] => None | _ => option_map inject_Z (digits 0 i) end
  | [i; f] => match digits 0 (i ++ f) with
              | Some n => Some (inject_Z n / inject_Z (10 ^ Z.of_nat (length f)))
              | None => None
              end
  | _ => None
  end.

Section Decode.
  Variables int_of float_of : text -> option Q.

  (** parse_gaps.py:132-136, 146, 149-150; the hemisphere is the next field. *)
  Definition gaps_latitude (field hemisphere : text) : option Q :=
    match int_of (slice 0 2 field), float_of (slice 2 10 field) with
    | Some d, Some m => let v := d + m / 60 in Some (if is_text letter_S hemisphere then - v else v)
    | _, _ => None
    end.
  (** parse_gaps.py:138-142, 147, 151-152. *)
  Definition gaps_longitude (field hemisphere : text) : option Q :=
    match int_of (slice 0 3 field), float_of (slice 3 11 field) with
    | Some d, Some m => let v := d + m / 60 in Some (if is_text letter_W hemisphere then - v else v)
    | _, _ => None
    end.

  (** hybis.py:49-61 [convert_latlon]; [None] also for the IndexError at 56. *)
  Definition hybis_convert (s : text) : option Q :=
    let final := if (length s =? 11)%nat then 1%nat else 0%nat in
    match float_of (slice 0 (3 - final) s), float_of (slice (3 - final) (11 - final) s), nth_error s (11 - final) with
    | Some d, Some m, Some zone =>
        let v := d + m / 60 in
        Some (if (zone =? letter_W)%N || (zone =? letter_S)%N then - v else v)
    | _, _, _ => None
    end.

  (** parse_usbl_dump.py:84-92 and 94-104: "dd-mm.mmm N"; only the degrees are negated. *)
  Definition dump_coordinate (positive : N) (field : text) : option Q :=
    match split 32 field with
    | number :: hemisphere :: _ =>
        match split 45 number with
        | dd :: mm :: _ =>
            match int_of dd, float_of mm with
            | Some d, Some m =>
                let d' := if is_text positive hemisphere then d else d * -1 in
                Some (d' + m / 60)
            | _, _ => None
            end
        | _ => None
        end
    | _ => None
    end.
  Definition dump_latitude := dump_coordinate letter_N.
  Definition dump_longitude := dump_coordinate letter_E.
End Decode.
