(** C09, C10, C12, C64: time, timezones, file names. *)
From Coq Require Import Ascii String Qround.
From Verif Require Import PyBase TimeModel TimeSpec TimeProofs.
Open Scope Z_scope.

(** ** C09 *)

(** The epoch of a UTC date is the number of seconds counted from 1970. *)
Theorem C09_counts_seconds : forall n c, seconds_after_1970 n c -> c_y c <= 9999 ->
  exists t, date_time_to_epoch (c_y c) (c_mo c) (c_d c) (c_h c) (c_mi c) (c_s c) 0 0 = Some t /\
            (t == inject_Z n)%Q.
Proof. exact counts_seconds. Qed.
Print Assumptions C09_counts_seconds.

(** ... and every second from 1970 on has such a date. *)
Theorem C09_every_second_counted : forall n, 0 <= n -> exists c, seconds_after_1970 n c.
Proof. exact seconds_after_1970_exists. Qed.
Print Assumptions C09_every_second_counted.

(** Before 1970 too, one second later is one second more. *)
Theorem C09_next_second : forall c c' t,
  next_second c c' -> valid_civil c -> 1 <= c_y c -> c_y c' <= 9999 ->
  date_time_to_epoch (c_y c) (c_mo c) (c_d c) (c_h c) (c_mi c) (c_s c) 0 0 = Some t ->
  exists t', date_time_to_epoch (c_y c') (c_mo c') (c_d c') (c_h c') (c_mi c') (c_s c') 0 0 = Some t' /\
             (t' == t + 1)%Q.
Proof. exact next_second_epoch. Qed.
Print Assumptions C09_next_second.

Theorem C09_timezone_shift : forall y mo d h mi s us tz t0 t,
  date_time_to_epoch y mo d h mi s 0 us = Some t0 ->
  date_time_to_epoch y mo d h mi s tz us = Some t ->
  (t == t0 - 3600 * tz)%Q.
Proof. exact timezone_shift. Qed.
Print Assumptions C09_timezone_shift.

Theorem C09_microseconds : forall y mo d h mi s us tz t0 t,
  date_time_to_epoch y mo d h mi s tz 0 = Some t0 ->
  date_time_to_epoch y mo d h mi s tz us = Some t ->
  (t == t0 + inject_Z us * (1 # 1000000))%Q.
Proof. exact microseconds_add. Qed.
Print Assumptions C09_microseconds.

(** Formatting an epoch and reading the text back gives the same second. *)
Theorem C09_text_round_trip : forall t s, epoch_to_datetime t = Some s ->
  exists t', string_to_epoch s = Some t' /\ (t' == inject_Z (Qfloor t))%Q.
Proof. exact datetime_round_trip. Qed.
Print Assumptions C09_text_round_trip.

Theorem C09_date_round_trip : forall c t, valid_civil c -> 1000 <= c_y c <= 9999 ->
  date_time_to_epoch (c_y c) (c_mo c) (c_d c) (c_h c) (c_mi c) (c_s c) 0 0 = Some t ->
  gmtime t = c /\ epoch_to_datetime t <> None.
Proof. exact datetime_round_trip_back. Qed.
Print Assumptions C09_date_round_trip.

(** epoch_to_day gives the UTC day only on a computer set to UTC ... *)
Theorem C09_epoch_to_day : forall c t L, valid_civil c -> 1 <= c_y c <= 9999 ->
  date_time_to_epoch (c_y c) (c_mo c) (c_d c) (c_h c) (c_mi c) (c_s c) 0 0 = Some t -> L = 0 ->
  epoch_to_day L t = (c_y c, c_mo c, c_d c).
Proof. exact epoch_to_day_utc. Qed.
Print Assumptions C09_epoch_to_day.

(** ... and another day elsewhere. *)
Theorem C109_epoch_to_day_refuted : exists c t L, valid_civil c /\
  date_time_to_epoch (c_y c) (c_mo c) (c_d c) (c_h c) (c_mi c) (c_s c) 0 0 = Some t /\
  epoch_to_day L t <> (c_y c, c_mo c, c_d c).
Proof.
  exists (mkCivil 2020 2 29 23 0 0). eexists. exists 3600.
  split; [apply valid_civil_fields; cbn; lia|]. split; [reflexivity|]. vm_compute. discriminate.
Qed.
Print Assumptions C109_epoch_to_day_refuted.

Example C09_example :
  date_time_to_epoch 2020 2 29 12 30 15 9 250000 = Some (1582947015250000 # 1000000)%Q /\
  option_map (map (fun c => Z.of_N (N_of_ascii c) - 48)) (epoch_to_datetime (1582947015 # 1)) =
    Some [2;0;2;0; 0;2; 2;9; 0;3; 3;0; 1;5].
Proof. split; vm_compute; reflexivity. Qed.

(** ** C10 *)

(** What the mission loader accepts, the parsers read back unchanged, and the
    names utc, cet, jst get their standard offsets.  bst is missing from the
    loader, see C110. *)
Theorem C10_loaded_offset_is_standard : forall pf s h,
  In s ["utc"; "UTC"; "cet"; "CET"; "jst"; "JST"]%string -> standard_offset s = Some h ->
  load_timezone pf (TzStr s) = Hours h /\ read_timezone (TzNum h) = Hours h.
Proof. intros pf s h H E. split; [now apply loader_standard|reflexivity]. Qed.
Print Assumptions C10_loaded_offset_is_standard.

Theorem C10_numbers_agree : forall pf h,
  load_timezone pf (TzNum h) = Hours h /\ read_timezone (TzNum h) = Hours h.
Proof. split; reflexivity. Qed.
Print Assumptions C10_numbers_agree.

(** The parsers' own table gives Central European Time no offset. *)
Theorem C110_cet_refuted : exists s h, standard_offset s = Some h /\
  (forall pf, load_timezone pf (TzStr s) = Hours h) /\
  exists h', read_timezone (TzStr s) = Hours h' /\ ~ (h' == h)%Q.
Proof. exists "cet"%string, 1%Q. repeat split. exists 0%Q. split; [reflexivity|discriminate]. Qed.
Print Assumptions C110_cet_refuted.

(** British Summer Time is accepted by the parsers and rejected by the loader
    (for a float parser that rejects the text "bst"). *)
Theorem C110_bst_refuted : exists s h, standard_offset s = Some h /\
  read_timezone (TzStr s) = Hours h /\
  forall pf, pf s = None -> load_timezone pf (TzStr s) = Quit.
Proof. exists "bst"%string, 1%Q. repeat split. intros pf H. cbn. now rewrite H. Qed.
Print Assumptions C110_bst_refuted.

(** An unknown name is not rejected with a message by the parsers: the result
    variable is never assigned.  So is a number written as a string. *)
Theorem C110_unknown_name_refuted : exists s, standard_offset s = None /\ read_timezone (TzStr s) = Unbound.
Proof. exists "8.0"%string. split; reflexivity. Qed.
Print Assumptions C110_unknown_name_refuted.

Example C10_example : load_timezone (fun _ => None) (TzStr "JST") = Hours 9 /\
  read_timezone (TzStr "jst") = Hours 9.
Proof. split; reflexivity. Qed.

(** ** C12 *)
Definition chars (s : string) : list ascii := list_ascii_of_string s.

Theorem C12_decodes_encoded_instant : forall x fmt name n,
  seconds_after_1970 n (st_civil x) -> c_y (st_civil x) <= 9999 ->
  0 <= st_ms x <= 999 -> 0 <= st_us x <= 999 ->
  (count_char "f" fmt = 0%nat -> st_ms x = 0) -> (count_char "u" fmt = 0%nat -> st_us x = 0) ->
  full_format fmt -> spells x fmt name ->
  exists t, filename_stamp name fmt = Stamp t /\
    (t == inject_Z n + inject_Z (st_ms x) * (1 # 1000) + inject_Z (st_us x) * (1 # 1000000))%Q.
Proof.
  intros x fmt name n Hn Y Hms Hus F0 U0 FF SP.
  destruct (seconds_after_1970_csec _ _ Hn) as (E & V & Y0 & _).
  rewrite (filename_decodes x fmt name V ltac:(lia) Hms Hus FF SP). eexists. split; [reflexivity|].
  unfold stamp_value. rewrite E, inject_Z_plus, inject_Z_mult. change (inject_Z 1000) with 1000%Q.
  destruct (Nat.eqb_spec (count_char "f" fmt) 0) as [Ef|Ef]; [rewrite (F0 Ef)|];
    (destruct (Nat.eqb_spec (count_char "u" fmt) 0) as [Eu|Eu]; [rewrite (U0 Eu)|]);
    change (inject_Z 0) with 0%Q; field.
Qed.
Print Assumptions C12_decodes_encoded_instant.

(** Characters under positions that are not format letters never matter. *)
Theorem C12_other_characters_ignored : forall fmt name name',
  (length fmt <= length name)%nat -> (length fmt <= length name')%nat ->
  (forall i f, nth_error fmt i = Some f ->
     In f ["Y"; "M"; "D"; "h"; "m"; "s"; "f"; "u"; "i"; "e"]%char -> nth_error name i = nth_error name' i) ->
  filename_stamp name fmt = filename_stamp name' fmt.
Proof.
  intros fmt name name' L L' H.
  assert (E : forall f, In f ["Y"; "M"; "D"; "h"; "m"; "s"; "f"; "u"; "i"; "e"]%char ->
              field f name fmt = field f name' fmt).
  { intros f Hf. revert name name' L L' H. induction fmt as [|c fmt IH]; intros [|a n] [|b n'] L L' H; cbn in L, L'; try lia; try reflexivity.
    cbn [field]. assert (K : field f n fmt = field f n' fmt).
    { apply IH; [lia|lia|]. intros i g Hi Hg. apply (H (S i) g Hi Hg). }
    destruct (Ascii.eqb_spec c f) as [->|N]; [|exact K].
    pose proof (H O f eq_refl Hf) as H0. cbn in H0. injection H0 as ->. now rewrite K. }
  unfold filename_stamp. cbv zeta.
  rewrite (E "Y"%char), (E "M"%char), (E "D"%char), (E "h"%char), (E "m"%char), (E "s"%char),
    (E "f"%char), (E "u"%char), (E "i"%char), (E "e"%char) by (cbn; tauto). reflexivity.
Qed.
Print Assumptions C12_other_characters_ignored.

Example C12_example :
  filename_stamp (chars "PR_20200229_123015_250_LC16") (chars "xxxYYYYMMDDxhhmmssxfffxxxxx") =
  Stamp (1582979415250000 # 1000000)%Q /\
  full_format (chars "xxxYYYYMMDDxhhmmssxfffxxxxx") /\
  spells (mkStamped (mkCivil 2020 2 29 12 30 15) 250 0)
         (chars "xxxYYYYMMDDxhhmmssxfffxxxxx") (chars "PR_20200229_123015_250_LC16").
Proof.
  split; [vm_compute; reflexivity|]. split; [vm_compute; tauto|].
  split; [vm_compute; lia|].
  intros i f Hf w v Hv. assert (Hi : (i < length (chars "xxxYYYYMMDDxhhmmssxfffxxxxx"))%nat) by (apply nth_error_Some; rewrite Hf; discriminate).
  change (length (chars "xxxYYYYMMDDxhhmmssxfffxxxxx")) with 27%nat in Hi.
  do 27 (destruct i as [|i]; [injection Hf as <-; vm_compute in Hv; first [discriminate|injection Hv as <- <-; vm_compute; reflexivity]|]).
  lia.
Qed.

(** Formats the decoder accepts without complaint but misreads: fewer than three
    letters for the fraction (the digit 5 in the tenths place, 500 ms, is read
    as 5 ms) ... *)
Theorem C112_short_fraction_refuted : exists x fmt name n t,
  seconds_after_1970 n (st_civil x) /\ count_char "f" fmt = 1%nat /\ st_ms x = 500 /\ st_us x = 0 /\
  letter_value x "f" = Some (3%nat, 500) /\
  nth_error fmt 14 = Some "f"%char /\ nth_error name 14 = Some (decimal_digit 3 0 500) /\
  filename_stamp name fmt = Stamp t /\ ~ (t == inject_Z n + (1 # 2))%Q.
Proof.
  exists (mkStamped (mkCivil 1970 1 1 0 0 0) 500 0), (chars "YYYYMMDDhhmmssf"), (chars "197001010000005"), 0.
  eexists. split; [constructor|]. do 6 (split; [reflexivity|]). split; [vm_compute; reflexivity|]. discriminate.
Qed.
Print Assumptions C112_short_fraction_refuted.

(** ... and a date-only format, for which no file name at all is decoded. *)
Theorem C112_missing_seconds_refuted : exists fmt, count_char "Y" fmt = 4%nat /\ count_char "M" fmt = 2%nat /\
  count_char "D" fmt = 2%nat /\ count_char "h" fmt = 2%nat /\ count_char "m" fmt = 2%nat /\
  forall name, exists e, filename_stamp name fmt = e /\ forall t, e <> Stamp t.
Proof.
  exists (chars "YYYYMMDDhhmm"). do 5 (split; [reflexivity|]).
  intro name. eexists. split; [reflexivity|]. intro t. 
  assert (E : field "s" name (chars "YYYYMMDDhhmm") = []).
  { do 13 (destruct name as [|? name]; [reflexivity|]). reflexivity. }
  unfold filename_stamp. cbv zeta. rewrite E. change (py_int []) with (@None Z).
  assert (N : forall o : option Z, bind o (fun _ => @None Q) = None) by (intros [?|]; reflexivity).
  destruct (field "i" name _), (field "e" name _); try discriminate.
  match goal with |- (if ?b then _ else _) <> _ => destruct b; [|discriminate] end.
  do 5 (match goal with |- context [bind ?o _] => lazymatch o with None => fail | _ => destruct o end end; cbn [bind]; try discriminate).
Qed.
Print Assumptions C112_missing_seconds_refuted.

(** ** C64 *)

(** All parsers that convert through date_time_to_epoch agree: local time minus
    the zone, plus the clock offset. *)
Theorem C64_common_convention : forall p h off t,
  ~ In p [SonardyneText; Voyis; Rdi; Rosbag] ->
  (clock_to_utc p h off t == t - 3600 * h + off)%Q.
Proof. intros p h off t H. destruct p; cbn [clock_to_utc]; try ring; cbn in H; tauto. Qed.
Print Assumptions C64_common_convention.

(** Same mission entries, same clock reading, different instants. *)
Theorem C164_zone_sign_refuted : exists h t, 
  ~ (clock_to_utc Rdi h 0 t == clock_to_utc Phins h 0 t)%Q.
Proof. exists 9%Q, 0%Q. discriminate. Qed.
Print Assumptions C164_zone_sign_refuted.

Theorem C164_offset_sign_refuted : exists off t,
  ~ (clock_to_utc Voyis 0 off t == clock_to_utc AcfrImages 0 off t)%Q.
Proof. exists 5%Q, 0%Q. discriminate. Qed.
Print Assumptions C164_offset_sign_refuted.

(** A rosbag stamp is moved by 3660 seconds per hour of zone. *)
Theorem C164_rosbag_zone_refuted : exists h t, 
  ~ (clock_to_utc Rosbag h 0 t == t - 3600 * h)%Q /\ (clock_to_utc Rosbag h 0 t == t - 3660 * h)%Q.
Proof. exists 1%Q, 0%Q. split; [discriminate|reflexivity]. Qed.
Print Assumptions C164_rosbag_zone_refuted.

Example C64_example : (clock_to_utc Gaps 9 2 100000 == 67602)%Q.
Proof. reflexivity. Qed.
