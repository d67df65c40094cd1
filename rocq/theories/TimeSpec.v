(** Civil time, said independently of the code: what the next second is. *)
From Coq Require Import Ascii String.
From Verif Require Import PyBase TimeModel.
Open Scope Z_scope.

(** Length of a month in the Gregorian calendar. *)
Definition leap_year (y : Z) : Prop := (4 | y) /\ (~ (100 | y) \/ (400 | y)).
Definition month_length (y m len : Z) : Prop :=
  (m = 2 /\ (leap_year y /\ len = 29 \/ ~ leap_year y /\ len = 28)) \/
  (In m [4; 6; 9; 11] /\ len = 30) \/
  (In m [1; 3; 5; 7; 8; 10; 12] /\ len = 31).

Definition valid_civil (c : civil) : Prop :=
  exists len, month_length (c_y c) (c_mo c) len /\ 1 <= c_d c <= len /\
              0 <= c_h c <= 23 /\ 0 <= c_mi c <= 59 /\ 0 <= c_s c <= 59.

(** One second later. *)
Inductive next_second : civil -> civil -> Prop :=
| ns_second : forall y mo d h mi s, s < 59 ->
    next_second (mkCivil y mo d h mi s) (mkCivil y mo d h mi (s + 1))
| ns_minute : forall y mo d h mi, mi < 59 ->
    next_second (mkCivil y mo d h mi 59) (mkCivil y mo d h (mi + 1) 0)
| ns_hour : forall y mo d h, h < 23 ->
    next_second (mkCivil y mo d h 59 59) (mkCivil y mo d (h + 1) 0 0)
| ns_day : forall y mo d len, month_length y mo len -> d < len ->
    next_second (mkCivil y mo d 23 59 59) (mkCivil y mo (d + 1) 0 0 0)
| ns_month : forall y mo d, month_length y mo d -> mo < 12 ->
    next_second (mkCivil y mo d 23 59 59) (mkCivil y (mo + 1) 1 0 0 0)
| ns_year : forall y,
    next_second (mkCivil y 12 31 23 59 59) (mkCivil (y + 1) 1 1 0 0 0).

(** [n] seconds after 1970-01-01 00:00:00. *)
Inductive seconds_after_1970 : Z -> civil -> Prop :=
| sa_0 : seconds_after_1970 0 (mkCivil 1970 1 1 0 0 0)
| sa_S : forall n c c', seconds_after_1970 n c -> next_second c c' ->
    seconds_after_1970 (n + 1) c'.

(** Number of occurrences of a format letter. *)
Definition count_char (f : ascii) (fmt : list ascii) : nat :=
  length (filter (fun g => Ascii.eqb g f) fmt).

(** A date with milliseconds and microseconds, as written in a file name. *)
Record stamped := mkStamped { st_civil : civil; st_ms : Z; st_us : Z }.

(** The number written under each format letter, and its width. *)
Definition letter_value (x : stamped) (f : ascii) : option (nat * Z) :=
  let c := st_civil x in
  if Ascii.eqb f "Y" then Some (4%nat, c_y c)
  else if Ascii.eqb f "M" then Some (2%nat, c_mo c)
  else if Ascii.eqb f "D" then Some (2%nat, c_d c)
  else if Ascii.eqb f "h" then Some (2%nat, c_h c)
  else if Ascii.eqb f "m" then Some (2%nat, c_mi c)
  else if Ascii.eqb f "s" then Some (2%nat, c_s c)
  else if Ascii.eqb f "f" then Some (3%nat, st_ms x)
  else if Ascii.eqb f "u" then Some (3%nat, st_us x)
  else None.

(** Decimal digit of weight 10^(w-1-k) of [v]: the k-th character of [v]
    written with [w] digits. *)
Definition decimal_digit (w k : nat) (v : Z) : ascii :=
  chr_digit (v / 10 ^ Z.of_nat (w - 1 - k) mod 10).

(** [name] spells [x] in format [fmt]: under the k-th occurrence of a letter it
    has the k-th digit of that letter's number; other positions are free. *)
Definition spells (x : stamped) (fmt name : list ascii) : Prop :=
  (length fmt <= length name)%nat /\
  forall i f, nth_error fmt i = Some f ->
    forall w v, letter_value x f = Some (w, v) ->
      nth_error name i = Some (decimal_digit w (count_char f (firstn i fmt)) v).

(** A format with every component written in full, milli- and microseconds
    optional, and no index or raw-epoch letters. *)
Definition full_format (fmt : list ascii) : Prop :=
  count_char "Y" fmt = 4%nat /\ count_char "M" fmt = 2%nat /\ count_char "D" fmt = 2%nat /\
  count_char "h" fmt = 2%nat /\ count_char "m" fmt = 2%nat /\ count_char "s" fmt = 2%nat /\
  (count_char "f" fmt = 0%nat \/ count_char "f" fmt = 3%nat) /\
  (count_char "u" fmt = 0%nat \/ count_char "u" fmt = 3%nat) /\
  count_char "i" fmt = 0%nat /\ count_char "e" fmt = 0%nat.

(** Standard offsets from UTC. *)
Definition standard_offset (s : string) : option Q :=
  match s with
  | "utc"%string | "UTC"%string => Some 0%Q
  | "cet"%string | "CET"%string => Some 1%Q
  | "bst"%string | "BST"%string => Some 1%Q
  | "jst"%string | "JST"%string => Some 9%Q
  | _ => None
  end.
