From Coq Require Import Ascii String Qround.
From Verif Require Import PyBase TimeModel TimeSpec.
Open Scope Z_scope.

Ltac dm := Z.div_mod_to_equations.

(** * Calendar *)

Lemma is_leap_spec y : is_leap y = true <-> leap_year y.
Proof.
  unfold is_leap, leap_year.
  rewrite Bool.andb_true_iff, Bool.orb_true_iff, Bool.negb_true_iff, Z.eqb_eq, Z.eqb_neq, Z.eqb_eq.
  rewrite !Z.mod_divide by lia. tauto.
Qed.

Lemma month_length_unique y m a b : month_length y m a -> month_length y m b -> a = b.
Proof.
  unfold month_length. cbn [In].
  intros [[A [[L ->]|[L ->]]]|[[A ->]|[A ->]]] [[B [[K ->]|[K ->]]]|[[B ->]|[B ->]]]; try tauto; lia.
Qed.

Lemma month_length_range y m len : month_length y m len -> 1 <= m <= 12 /\ 28 <= len <= 31.
Proof. unfold month_length. cbn [In]. intros [[A [[L ->]|[L ->]]]|[[A ->]|[A ->]]]; lia. Qed.

Lemma month_cases m : 1 <= m <= 12 ->
  m = 1 \/ m = 2 \/ m = 3 \/ m = 4 \/ m = 5 \/ m = 6 \/ m = 7 \/ m = 8 \/ m = 9 \/ m = 10 \/ m = 11 \/ m = 12.
Proof. lia. Qed.

Ltac months H := apply month_cases in H;
  destruct H as [H|[H|[H|[H|[H|[H|[H|[H|[H|[H|[H|H]]]]]]]]]]]; subst.

Lemma days_in_month_spec y m : 1 <= m <= 12 -> month_length y m (days_in_month y m).
Proof.
  intro H. unfold month_length, days_in_month. pose proof (is_leap_spec y) as L.
  months H; cbn; destruct (is_leap y); intuition (try lia; try congruence).
Qed.

Lemma month_length_dim y m len : month_length y m len <-> 1 <= m <= 12 /\ len = days_in_month y m.
Proof.
  split.
  - intro H. split; [apply (month_length_range _ _ _ H)|].
    eapply month_length_unique; [exact H|]. apply days_in_month_spec. apply (month_length_range _ _ _ H).
  - intros [H ->]. now apply days_in_month_spec.
Qed.

Lemma dbm_next y m : 1 <= m < 12 -> days_before_month y (m + 1) = days_before_month y m + days_in_month y m.
Proof.
  intro H. unfold days_before_month, days_in_month.
  assert (C : 1 <= m <= 12) by lia.
  months C; try lia; cbn; destruct (is_leap y); reflexivity.
Qed.

Lemma dbm_1 y : days_before_month y 1 = 0.
Proof. reflexivity. Qed.
Lemma dbm_12 y : days_before_month y 12 = 334 + (if is_leap y then 1 else 0).
Proof. unfold days_before_month. cbn. destruct (is_leap y); reflexivity. Qed.

Lemma dby_next y : days_before_year (y + 1) = days_before_year y + 365 + (if is_leap y then 1 else 0).
Proof.
  unfold days_before_year, is_leap.
  destruct (Z.eqb_spec (y mod 4) 0); destruct (Z.eqb_spec (y mod 100) 0);
    destruct (Z.eqb_spec (y mod 400) 0); cbn [andb orb negb]; dm; lia.
Qed.

Lemma dbm_range y m : 1 <= m <= 12 ->
  0 <= days_before_month y m /\ days_before_month y m + days_in_month y m <= 365 + (if is_leap y then 1 else 0).
Proof.
  intro H. unfold days_before_month, days_in_month.
  months H; generalize (is_leap y); intros []; vm_compute; split; discriminate.
Qed.

Lemma dby_monotone y k : 0 <= k -> days_before_year y + 365 * k <= days_before_year (y + k).
Proof.
  intro H. revert y. pattern k. apply natlike_ind; [intro y; replace (y + 0) with y by lia; lia| |exact H].
  intros x Hx IH y. replace (y + Z.succ x) with (y + x + 1) by lia. rewrite dby_next.
  specialize (IH y). destruct (is_leap (y + x)); lia.
Qed.

Lemma ymd2ord_range y m d : 1 <= m <= 12 -> 1 <= d <= days_in_month y m ->
  days_before_year y < ymd2ord y m d <= days_before_year (y + 1).
Proof.
  intros Hm Hd. unfold ymd2ord. rewrite dby_next. pose proof (dbm_range y m Hm). lia.
Qed.

Lemma dbm_mono y m1 m2 : 1 <= m1 -> m1 < m2 -> m2 <= 12 ->
  days_before_month y m1 + days_in_month y m1 <= days_before_month y m2.
Proof.
  intros H1 H H2. assert (C1 : 1 <= m1 <= 12) by lia. assert (C2 : 1 <= m2 <= 12) by lia.
  unfold days_before_month, days_in_month.
  months C1; months C2; try lia; generalize (is_leap y); intros []; vm_compute; discriminate.
Qed.

Lemma ymd2ord_inj y1 m1 d1 y2 m2 d2 :
  1 <= m1 <= 12 -> 1 <= d1 <= days_in_month y1 m1 ->
  1 <= m2 <= 12 -> 1 <= d2 <= days_in_month y2 m2 ->
  ymd2ord y1 m1 d1 = ymd2ord y2 m2 d2 -> y1 = y2 /\ m1 = m2 /\ d1 = d2.
Proof.
  intros M1 D1 M2 D2 E.
  pose proof (ymd2ord_range y1 m1 d1 M1 D1) as R1. pose proof (ymd2ord_range y2 m2 d2 M2 D2) as R2.
  assert (Ey : y1 = y2).
  { destruct (Z.lt_trichotomy y1 y2) as [H|[H|H]]; [|exact H|].
    - pose proof (dby_monotone (y1 + 1) (y2 - y1 - 1) ltac:(lia)) as K.
      replace (y1 + 1 + (y2 - y1 - 1)) with y2 in K by lia. lia.
    - pose proof (dby_monotone (y2 + 1) (y1 - y2 - 1) ltac:(lia)) as K.
      replace (y2 + 1 + (y1 - y2 - 1)) with y1 in K by lia. lia. }
  subst y2. split; [reflexivity|]. unfold ymd2ord in E.
  destruct (Z.lt_trichotomy m1 m2) as [H|[H|H]].
  - pose proof (dbm_mono y1 m1 m2). lia.
  - subst m2. lia.
  - pose proof (dbm_mono y1 m2 m1). lia.
Qed.

(** * Seconds *)

Definition csec (c : civil) : Z := utc_seconds (c_y c) (c_mo c) (c_d c) (c_h c) (c_mi c) (c_s c).

Lemma next_second_csec c c' : next_second c c' -> csec c' = csec c + 1.
Proof.
  intro H. destruct H; unfold csec, utc_seconds, ymd2ord; cbn [c_y c_mo c_d c_h c_mi c_s]; try lia.
  - apply month_length_dim in H as [Hm ->]. rewrite dbm_next by lia. lia.
  - rewrite dby_next, dbm_1, dbm_12. destruct (is_leap y); lia.
Qed.

Lemma next_second_valid c c' : valid_civil c -> next_second c c' -> valid_civil c'.
Proof.
  intros (len & ML & D & Hh & Hmi & Hs) H. destruct H; cbn [c_y c_mo c_d c_h c_mi c_s] in *.
  1-3: exists len; cbn; split; [exact ML|lia].
  - exists len0. cbn. split; [exact H|]. lia.
  - assert (1 <= mo <= 12) by apply (month_length_range _ _ _ ML).
    exists (days_in_month y (mo + 1)). cbn. split; [apply days_in_month_spec; lia|].
    pose proof (month_length_range _ _ _ (days_in_month_spec y (mo + 1) ltac:(lia))). lia.
  - exists 31. cbn. split; [right; right; cbn; tauto|]. lia.
Qed.

Lemma valid_civil_fields c : valid_civil c <->
  1 <= c_mo c <= 12 /\ 1 <= c_d c <= days_in_month (c_y c) (c_mo c) /\
  0 <= c_h c <= 23 /\ 0 <= c_mi c <= 59 /\ 0 <= c_s c <= 59.
Proof.
  unfold valid_civil. split.
  - intros (len & ML & D). apply month_length_dim in ML as [Hm ->]. tauto.
  - intros (Hm & D & R). exists (days_in_month (c_y c) (c_mo c)).
    split; [now apply days_in_month_spec|tauto].
Qed.

Lemma valid_fields_spec c us : 1 <= c_y c <= 9999 -> 0 <= us < 1000000 -> valid_civil c ->
  valid_fields (c_y c) (c_mo c) (c_d c) (c_h c) (c_mi c) (c_s c) us = true.
Proof.
  intros Hy Hu H. apply valid_civil_fields in H. unfold valid_fields.
  rewrite !Bool.andb_true_iff, !Z.leb_le, !Z.ltb_lt. lia.
Qed.

Lemma valid_fields_inv y mo d h mi s us : valid_fields y mo d h mi s us = true ->
  valid_civil (mkCivil y mo d h mi s) /\ 1 <= y <= 9999 /\ 0 <= us < 1000000.
Proof.
  unfold valid_fields. rewrite !Bool.andb_true_iff, !Z.leb_le, !Z.ltb_lt. intro H.
  split; [apply valid_civil_fields; cbn; lia|lia].
Qed.

Lemma csec_range c : 1 <= c_y c <= 9999 -> valid_civil c -> -62135596800 <= csec c < 253402300800.
Proof.
  intros Hy H. apply valid_civil_fields in H as (Hm & Hd & Hh & Hmi & Hs).
  pose proof (ymd2ord_range _ _ _ Hm Hd) as R.
  pose proof (dby_monotone 1 (c_y c - 1) ltac:(lia)) as L.
  replace (1 + (c_y c - 1)) with (c_y c) in L by lia.
  pose proof (dby_monotone (c_y c + 1) (9999 - c_y c) ltac:(lia)) as U.
  replace (c_y c + 1 + (9999 - c_y c)) with 10000 in U by lia.
  change (days_before_year 1) with 0 in L. change (days_before_year 10000) with 3652059 in U.
  unfold csec, utc_seconds. lia.
Qed.

Lemma epoch_utc c : 1 <= c_y c <= 9999 -> valid_civil c ->
  date_time_to_epoch (c_y c) (c_mo c) (c_d c) (c_h c) (c_mi c) (c_s c) 0 0 =
  Some (inject_Z (csec c) + inject_Z 0 / 1000000 - 3600 * 0)%Q.
Proof.
  intros Hy Hv. unfold date_time_to_epoch. rewrite (valid_fields_spec c 0 Hy ltac:(lia) Hv). cbv zeta.
  pose proof (csec_range c Hy Hv) as R. change (utc_seconds _ _ _ _ _ _) with (csec c).
  assert (E : (inject_Z (csec c) + inject_Z 0 / 1000000 - 3600 * 0 == inject_Z (csec c))%Q).
  { change (inject_Z 0) with 0%Q. field. }
  rewrite (proj2 (Qle_bool_iff _ _)).
  - rewrite (proj2 (Qltb_lt _ _)); [reflexivity|]. rewrite E. rewrite <- Zlt_Qlt. lia.
  - rewrite E. rewrite <- Zle_Qle. lia.
Qed.

Lemma epoch_utc_eq c : 1 <= c_y c <= 9999 -> valid_civil c ->
  exists t, date_time_to_epoch (c_y c) (c_mo c) (c_d c) (c_h c) (c_mi c) (c_s c) 0 0 = Some t /\
            (t == inject_Z (csec c))%Q.
Proof.
  intros Hy Hv. rewrite epoch_utc by assumption. eexists. split; [reflexivity|].
  change (inject_Z 0) with 0%Q. field.
Qed.

Lemma seconds_after_1970_csec n c : seconds_after_1970 n c ->
  csec c = n /\ valid_civil c /\ 1970 <= c_y c /\ 0 <= n.
Proof.
  induction 1 as [|n c c' _ (E & V & Y & N) H].
  - split; [reflexivity|]. split; [|cbn; lia]. apply valid_civil_fields. cbn. lia.
  - split; [rewrite (next_second_csec _ _ H); lia|]. split; [eapply next_second_valid; eassumption|].
    destruct H; cbn in *; lia.
Qed.

Lemma counts_seconds n c : seconds_after_1970 n c -> c_y c <= 9999 ->
  exists t, date_time_to_epoch (c_y c) (c_mo c) (c_d c) (c_h c) (c_mi c) (c_s c) 0 0 = Some t /\
            (t == inject_Z n)%Q.
Proof.
  intros H Hy. destruct (seconds_after_1970_csec n c H) as (E & V & Y & _).
  rewrite <- E. apply epoch_utc_eq; [lia|exact V].
Qed.

Lemma seconds_after_1970_exists n : 0 <= n -> exists c, seconds_after_1970 n c.
Proof.
  intro H. pattern n. apply natlike_ind; [exists (mkCivil 1970 1 1 0 0 0); constructor| |exact H].
  intros x Hx (c & Hc). destruct (seconds_after_1970_csec _ _ Hc) as (_ & V & _).
  assert (exists c', next_second c c') as [c' Hn].
  { apply valid_civil_fields in V. destruct c as [y mo d h mi s]. cbn in V. destruct V as (Vm & Vd & Vh & Vi & Vs).
    destruct (Z_lt_dec s 59); [eexists; apply ns_second; lia|]. replace s with 59 by lia.
    destruct (Z_lt_dec mi 59); [eexists; apply ns_minute; lia|]. replace mi with 59 by lia.
    destruct (Z_lt_dec h 23); [eexists; apply ns_hour; lia|]. replace h with 23 by lia.
    destruct (Z_lt_dec d (days_in_month y mo)).
    { eexists. eapply ns_day; [apply days_in_month_spec; lia|lia]. }
    replace d with (days_in_month y mo) by lia.
    destruct (Z_lt_dec mo 12); [eexists; apply ns_month; [apply days_in_month_spec; lia|lia]|].
    replace mo with 12 by lia. change (days_in_month y 12) with 31. eexists. apply ns_year. }
  exists c'. apply (sa_S x c c' Hc Hn).
Qed.

Lemma next_second_epoch c c' t : next_second c c' -> valid_civil c -> 1 <= c_y c -> c_y c' <= 9999 ->
  date_time_to_epoch (c_y c) (c_mo c) (c_d c) (c_h c) (c_mi c) (c_s c) 0 0 = Some t ->
  exists t', date_time_to_epoch (c_y c') (c_mo c') (c_d c') (c_h c') (c_mi c') (c_s c') 0 0 = Some t' /\
             (t' == t + 1)%Q.
Proof.
  intros H V Y1 Y2 E.
  assert (Hyy : c_y c <= c_y c') by (destruct H; cbn; lia).
  destruct (epoch_utc_eq c ltac:(lia) V) as (u & Eu & Hu). rewrite Eu in E. injection E as ->.
  destruct (epoch_utc_eq c' ltac:(lia) (next_second_valid _ _ V H)) as (u' & Eu' & Hu').
  exists u'. split; [exact Eu'|]. rewrite Hu', Hu, (next_second_csec _ _ H), inject_Z_plus. reflexivity.
Qed.

Lemma timezone_shift y mo d h mi s us tz t0 t :
  date_time_to_epoch y mo d h mi s 0 us = Some t0 ->
  date_time_to_epoch y mo d h mi s tz us = Some t ->
  (t == t0 - 3600 * tz)%Q.
Proof.
  unfold date_time_to_epoch. destruct (valid_fields y mo d h mi s us); [|discriminate]. cbv zeta.
  destruct (_ && _)%bool; [|discriminate]. intro A. injection A as <-.
  destruct (_ && _)%bool; [|discriminate]. intro A. injection A as <-. ring.
Qed.

Lemma microseconds_add y mo d h mi s us tz t0 t :
  date_time_to_epoch y mo d h mi s tz 0 = Some t0 ->
  date_time_to_epoch y mo d h mi s tz us = Some t ->
  (t == t0 + inject_Z us * (1 # 1000000))%Q.
Proof.
  unfold date_time_to_epoch. destruct (valid_fields y mo d h mi s us); [|discriminate].
  destruct (valid_fields y mo d h mi s 0); [|discriminate]. cbv zeta.
  destruct (_ && _)%bool; [|discriminate]. intro A. injection A as <-.
  destruct (_ && _)%bool; [|discriminate]. intro A. injection A as <-.
  change (inject_Z 0) with 0%Q. field.
Qed.

(** * gmtime *)

Lemma find_year n : let e := 400 * n / 146097 in
  let y := latest (fun y => days_before_year y <? n) [e + 2; e + 1; e; e - 1] in
  days_before_year y < n <= days_before_year (y + 1).
Proof.
  cbv zeta. set (e := 400 * n / 146097). cbn [latest].
  assert (He : 146097 * e <= 400 * n < 146097 * (e + 1)) by (unfold e; dm; lia).
  assert (U : n <= days_before_year (e + 2 + 1)) by (unfold days_before_year; dm; lia).
  assert (L : days_before_year (e - 1) < n) by (unfold days_before_year; dm; lia).
  destruct (Z.ltb_spec (days_before_year (e + 2)) n); [lia|].
  destruct (Z.ltb_spec (days_before_year (e + 1)) n); [replace (e + 1 + 1) with (e + 2) by lia; lia|].
  destruct (Z.ltb_spec (days_before_year e) n); [lia|].
  replace (e - 1 + 1) with e by lia. lia.
Qed.

Lemma find_month y r : 1 <= r <= 365 + (if is_leap y then 1 else 0) ->
  let m := latest (fun m => days_before_year y + days_before_month y m <? days_before_year y + r)
                  [12; 11; 10; 9; 8; 7; 6; 5; 4; 3; 2; 1] in
  1 <= m <= 12 /\ 1 <= r - days_before_month y m <= days_in_month y m.
Proof.
  intro H. cbv zeta.
  assert (K : forall m, 1 <= m <= 12 -> days_before_month y m < r ->
              (m = 12 \/ r <= days_before_month y (m + 1)) ->
              1 <= m <= 12 /\ 1 <= r - days_before_month y m <= days_in_month y m).
  { intros m Hm Hl Hu. split; [exact Hm|]. split; [lia|]. destruct Hu as [->|Hu].
    - rewrite dbm_12. change (days_in_month y 12) with 31. destruct (is_leap y); lia.
    - destruct (Z.eq_dec m 12) as [->|N].
      + rewrite dbm_12. change (days_in_month y 12) with 31. destruct (is_leap y); lia.
      + rewrite dbm_next in Hu by lia. lia. }
  cbn [latest].
  repeat match goal with
  | |- context [if ?a <? ?b then ?m else _] =>
      destruct (Z.ltb_spec a b);
      [apply K; [lia|lia|first [left; reflexivity|right; change (m + 1) with (Z.succ m); cbn [Z.succ Z.add]; cbn; lia]]|]
  end.
  apply K; [lia|rewrite dbm_1; lia|right; cbn; lia].
Qed.

Lemma civil_from_days_spec z y m d : civil_from_days z = (y, m, d) ->
  1 <= m <= 12 /\ 1 <= d <= days_in_month y m /\ ymd2ord y m d - 719163 = z.
Proof.
  unfold civil_from_days. cbv zeta. set (n := z + 719163).
  pose proof (find_year n) as Y. cbv zeta in Y.
  set (y0 := latest _ _) in *. set (m0 := latest _ _).
  intro E. injection E as <- <- <-. rewrite dby_next in Y.
  pose proof (find_month y0 (n - days_before_year y0) ltac:(lia)) as M. cbv zeta in M.
  replace (days_before_year y0 + (n - days_before_year y0)) with n in M by lia.
  fold m0 in M. unfold ymd2ord. lia.
Qed.

Lemma gmtime_valid t : valid_civil (gmtime t) /\ csec (gmtime t) = Qfloor t.
Proof.
  unfold gmtime. destruct (civil_from_days (Qfloor t / 86400)) as [[y m] d] eqn:E.
  apply civil_from_days_spec in E as (Hm & Hd & Ho). set (r := Qfloor t mod 86400).
  assert (Hr : 0 <= r < 86400) by (unfold r; dm; lia).
  split.
  - apply valid_civil_fields. cbn. split; [lia|]. split; [lia|]. split; [dm; lia|]. split; dm; lia.
  - unfold csec, utc_seconds. cbn [c_y c_mo c_d c_h c_mi c_s]. rewrite Ho.
    assert (r = r / 3600 * 3600 + r / 60 mod 60 * 60 + r mod 60) by (dm; lia).
    assert (Qfloor t = Qfloor t / 86400 * 86400 + r) by (unfold r; dm; lia). lia.
Qed.

Lemma csec_inj c1 c2 : valid_civil c1 -> valid_civil c2 -> csec c1 = csec c2 -> c1 = c2.
Proof.
  intros V1 V2 E. apply valid_civil_fields in V1. apply valid_civil_fields in V2.
  destruct c1 as [y1 mo1 d1 h1 mi1 s1], c2 as [y2 mo2 d2 h2 mi2 s2]. cbn in *.
  unfold csec, utc_seconds in E. cbn in E.
  assert (Eo : ymd2ord y1 mo1 d1 = ymd2ord y2 mo2 d2) by lia.
  apply ymd2ord_inj in Eo as (-> & -> & ->); try lia.
  f_equal; lia.
Qed.

Lemma gmtime_inverse c t : valid_civil c -> (t == inject_Z (csec c))%Q -> gmtime t = c.
Proof.
  intros V E. destruct (gmtime_valid t) as [Vg Eg]. apply csec_inj; [exact Vg|exact V|].
  rewrite Eg. rewrite E. apply Qfloor_Z.
Qed.

(** * Decimal text *)

Lemma digit_chr d : 0 <= d <= 9 -> digit_val (chr_digit d) = Some d.
Proof.
  intro H. assert (d = 0 \/ d = 1 \/ d = 2 \/ d = 3 \/ d = 4 \/ d = 5 \/ d = 6 \/ d = 7 \/ d = 8 \/ d = 9) as C by lia.
  destruct C as [C|[C|[C|[C|[C|[C|[C|[C|[C|C]]]]]]]]]; subst d; reflexivity.
Qed.

Lemma int_acc_app a : forall acc b, int_acc acc (a ++ b) = bind (int_acc acc a) (fun x => int_acc x b).
Proof.
  induction a as [|c a IH]; intros acc b; [reflexivity|]. cbn [app int_acc].
  destruct (digit_val c); [apply IH|reflexivity].
Qed.

Lemma int_pad w : forall n acc, 0 <= n < 10 ^ Z.of_nat w ->
  int_acc acc (pad w n) = Some (acc * 10 ^ Z.of_nat w + n).
Proof.
  induction w as [|w IH]; intros n acc H.
  - cbn in H |- *. f_equal. lia.
  - cbn [pad]. rewrite int_acc_app. rewrite Nat2Z.inj_succ, Z.pow_succ_r in * by lia.
    rewrite IH by (dm; lia). cbn [bind int_acc]. rewrite digit_chr by (dm; lia).
    f_equal. dm. lia.
Qed.

Lemma pad_length w : forall n, length (pad w n) = w.
Proof. induction w as [|w IH]; intro n; [reflexivity|]. cbn [pad]. rewrite app_length, IH. cbn. lia. Qed.

Lemma py_int_pad w n : 0 <= n < 10 ^ Z.of_nat (S w) -> py_int (pad (S w) n) = Some n.
Proof.
  intro H. unfold py_int. destruct (pad (S w) n) eqn:E.
  - pose proof (pad_length (S w) n). rewrite E in H0. discriminate.
  - rewrite <- E, int_pad by exact H. reflexivity.
Qed.

Lemma slice_app_mid {A} (a b c : list A) i j :
  i = length a -> j = (length a + length b)%nat -> slice i j (a ++ b ++ c) = b.
Proof.
  intros -> ->. unfold slice. rewrite skipn_app, skipn_all, Nat.sub_diag. cbn [app skipn].
  replace (length a + length b - length a)%nat with (length b) by lia.
  rewrite firstn_app, firstn_all, Nat.sub_diag. cbn. apply app_nil_r.
Qed.

Lemma parse_formatted c s : valid_civil c -> strftime14 c = Some s ->
  1000 <= c_y c <= 9999 /\
  string_to_epoch s = date_time_to_epoch (c_y c) (c_mo c) (c_d c) (c_h c) (c_mi c) (c_s c) 0 0.
Proof.
  intros V E. unfold strftime14 in E.
  destruct ((1000 <=? c_y c) && (c_y c <=? 9999)) eqn:Y; [|discriminate]. injection E as <-.
  apply andb_prop in Y as [Y1 Y2]. apply Z.leb_le in Y1. apply Z.leb_le in Y2. split; [lia|].
  apply valid_civil_fields in V as (Hm & Hd & Hh & Hi & Hs).
  assert (Hd31 : c_d c <= 31).
  { pose proof (month_length_range _ _ _ (days_in_month_spec (c_y c) (c_mo c) Hm)). lia. }
  unfold string_to_epoch.
  set (a := pad 4 (c_y c)). set (b := pad 2 (c_mo c)). set (d := pad 2 (c_d c)).
  set (e := pad 2 (c_h c)). set (f := pad 2 (c_mi c)). set (g := pad 2 (c_s c)).
  assert (La : length a = 4%nat) by apply pad_length. assert (Lb : length b = 2%nat) by apply pad_length.
  assert (Ld : length d = 2%nat) by apply pad_length. assert (Le : length e = 2%nat) by apply pad_length.
  assert (Lf : length f = 2%nat) by apply pad_length. assert (Lg : length g = 2%nat) by apply pad_length.
  rewrite (slice_app_mid [] a (b ++ d ++ e ++ f ++ g)) by (cbn; lia).
  rewrite (slice_app_mid a b (d ++ e ++ f ++ g)) by lia.
  replace (a ++ b ++ d ++ e ++ f ++ g) with ((a ++ b) ++ d ++ e ++ f ++ g) by (now rewrite app_assoc).
  rewrite (slice_app_mid (a ++ b) d (e ++ f ++ g)) by (rewrite app_length; lia).
  replace ((a ++ b) ++ d ++ e ++ f ++ g) with ((a ++ b ++ d) ++ e ++ f ++ g) by (now rewrite !app_assoc).
  rewrite (slice_app_mid (a ++ b ++ d) e (f ++ g)) by (rewrite !app_length; lia).
  replace ((a ++ b ++ d) ++ e ++ f ++ g) with ((a ++ b ++ d ++ e) ++ f ++ g) by (now rewrite !app_assoc).
  rewrite (slice_app_mid (a ++ b ++ d ++ e) f g) by (rewrite !app_length; lia).
  replace ((a ++ b ++ d ++ e) ++ f ++ g) with ((a ++ b ++ d ++ e ++ f) ++ g ++ []) by (now rewrite app_nil_r, !app_assoc).
  rewrite (slice_app_mid (a ++ b ++ d ++ e ++ f) g []) by (rewrite !app_length; lia).
  unfold a, b, d, e, f, g. rewrite !py_int_pad by (cbn; lia). reflexivity.
Qed.

Lemma datetime_round_trip t s : epoch_to_datetime t = Some s ->
  exists t', string_to_epoch s = Some t' /\ (t' == inject_Z (Qfloor t))%Q.
Proof.
  intro E. unfold epoch_to_datetime in E. destruct (gmtime_valid t) as [V C].
  destruct (parse_formatted _ _ V E) as [Y ->].
  destruct (epoch_utc_eq (gmtime t) ltac:(lia) V) as (u & Eu & Hu). exists u. split; [exact Eu|]. now rewrite Hu, C.
Qed.

Lemma datetime_round_trip_back c t : valid_civil c -> 1000 <= c_y c <= 9999 ->
  date_time_to_epoch (c_y c) (c_mo c) (c_d c) (c_h c) (c_mi c) (c_s c) 0 0 = Some t ->
  gmtime t = c /\ epoch_to_datetime t <> None.
Proof.
  intros V Y E. destruct (epoch_utc_eq c ltac:(lia) V) as (u & Eu & Hu).
  rewrite Eu in E. injection E as ->. assert (G : gmtime t = c) by (apply gmtime_inverse; assumption).
  split; [exact G|]. unfold epoch_to_datetime. rewrite G. unfold strftime14.
  rewrite (proj2 (Z.leb_le 1000 _)), (proj2 (Z.leb_le _ 9999)) by lia. discriminate.
Qed.

Lemma epoch_to_day_utc c t L : valid_civil c -> 1 <= c_y c <= 9999 ->
  date_time_to_epoch (c_y c) (c_mo c) (c_d c) (c_h c) (c_mi c) (c_s c) 0 0 = Some t -> L = 0 ->
  epoch_to_day L t = (c_y c, c_mo c, c_d c).
Proof.
  intros V Y E ->. destruct (epoch_utc_eq c Y V) as (u & Eu & Hu). rewrite Eu in E. injection E as ->.
  unfold epoch_to_day. change (inject_Z 0) with 0%Q.
  rewrite (gmtime_inverse c) ; [reflexivity|exact V|]. rewrite Hu. ring.
Qed.

(** * File names *)

Lemma count_char_cons f g fmt : count_char f (g :: fmt) = ((if Ascii.eqb g f then 1 else 0) + count_char f fmt)%nat.
Proof. unfold count_char. cbn [filter]. destruct (Ascii.eqb g f); reflexivity. Qed.

Lemma field_spec f (g : nat -> ascii) : forall fmt name base,
  (length fmt <= length name)%nat ->
  (forall i, nth_error fmt i = Some f ->
             nth_error name i = Some (g (base + count_char f (firstn i fmt))%nat)) ->
  field f name fmt = map g (seq base (count_char f fmt)).
Proof.
  induction fmt as [|c fmt IH]; intros [|n name] base HL H; cbn [length] in HL; try lia; try reflexivity.
  cbn [field]. rewrite count_char_cons. destruct (Ascii.eqb_spec c f) as [->|N].
  - cbn [Nat.add seq map]. pose proof (H O eq_refl) as H0. cbn in H0. rewrite Nat.add_0_r in H0. injection H0 as ->.
    f_equal. apply IH; [lia|]. intros i Hi. specialize (H (S i) Hi). cbn [nth_error firstn] in H.
    rewrite count_char_cons, Ascii.eqb_refl in H. rewrite H. do 2 f_equal. lia.
  - cbn [Nat.add]. apply IH; [lia|]. intros i Hi. specialize (H (S i) Hi). cbn [nth_error firstn] in H.
    rewrite count_char_cons in H. apply Ascii.eqb_neq in N. rewrite N in H. exact H.
Qed.

Lemma pad_digits w : forall v, pad w v = map (fun k => decimal_digit w k v) (seq 0 w).
Proof.
  induction w as [|w IH]; intro v; [reflexivity|].
  cbn [pad]. rewrite seq_S, map_app. cbn [map]. f_equal.
  - rewrite IH. apply map_ext_in. intros k Hk. apply in_seq in Hk. unfold decimal_digit. f_equal. f_equal.
    rewrite Z.div_div by lia. f_equal.
    replace (Z.of_nat (S w - 1 - k)) with (Z.succ (Z.of_nat (w - 1 - k))) by lia.
    rewrite Z.pow_succ_r by lia. reflexivity.
  - unfold decimal_digit. replace (S w - 1 - (0 + w))%nat with 0%nat by lia. cbn [Z.of_nat Z.pow].
    now rewrite Z.div_1_r.
Qed.

Lemma field_digits x fmt name f w v :
  spells x fmt name -> letter_value x f = Some (w, v) -> count_char f fmt = w ->
  field f name fmt = pad w v.
Proof.
  intros [HL H] Hv Hc. rewrite pad_digits, <- Hc at 1.
  rewrite (field_spec f (fun k => decimal_digit w k v) fmt name 0); [now rewrite Hc|exact HL|].
  intros i Hi. apply (H i f Hi w v Hv).
Qed.

Lemma field_absent f : forall fmt name, count_char f fmt = 0%nat -> field f name fmt = [].
Proof.
  induction fmt as [|c fmt IH]; intros [|n name] H; try reflexivity.
  rewrite count_char_cons in H. cbn [field]. destruct (Ascii.eqb c f); [discriminate|]. now apply IH.
Qed.

Definition stamp_value (x : stamped) (ms us : Z) : Q :=
  (inject_Z (csec (st_civil x)) + inject_Z (ms * 1000 + us) / 1000000)%Q.

Lemma filename_decodes x fmt name :
  valid_civil (st_civil x) -> 1 <= c_y (st_civil x) <= 9999 ->
  0 <= st_ms x <= 999 -> 0 <= st_us x <= 999 ->
  full_format fmt -> spells x fmt name ->
  filename_stamp name fmt =
  Stamp (stamp_value x (if (count_char "f" fmt =? 0)%nat then 0 else st_ms x)
                       (if (count_char "u" fmt =? 0)%nat then 0 else st_us x)).
Proof.
  intros V Y Hms Hus (CY & CM & CD & Ch & Cm & Cs & Cf & Cu & Ci & Ce) SP.
  unfold filename_stamp. cbv zeta.
  rewrite (field_absent "i" fmt name Ci), (field_absent "e" fmt name Ce).
  rewrite (field_digits x fmt name "Y" 4 _ SP eq_refl CY), (field_digits x fmt name "M" 2 _ SP eq_refl CM),
    (field_digits x fmt name "D" 2 _ SP eq_refl CD), (field_digits x fmt name "h" 2 _ SP eq_refl Ch),
    (field_digits x fmt name "m" 2 _ SP eq_refl Cm), (field_digits x fmt name "s" 2 _ SP eq_refl Cs).
  pose proof V as V'. apply valid_civil_fields in V' as (Hm & Hd & Hh & Hi & Hs).
  assert (Hd31 : c_d (st_civil x) <= 31).
  { pose proof (month_length_range _ _ _ (days_in_month_spec (c_y (st_civil x)) (c_mo (st_civil x)) Hm)). lia. }
  unfold len_is, len_le. rewrite !pad_length. cbn [Nat.eqb Nat.leb andb].
  rewrite !py_int_pad by (cbn; lia). cbn [bind].
  set (ms := if (count_char "f" fmt =? 0)%nat then 0 else st_ms x).
  set (us := if (count_char "u" fmt =? 0)%nat then 0 else st_us x).
  assert (F : (length (field "f" name fmt) <=? 3)%nat = true /\
              py_int (match field "f" name fmt with [] => ["0"%char] | _ => field "f" name fmt end) = Some ms).
  { unfold ms. destruct Cf as [Cf|Cf]; rewrite Cf.
    - rewrite (field_absent "f" fmt name Cf). split; reflexivity.
    - rewrite (field_digits x fmt name "f" 3 _ SP eq_refl Cf). rewrite pad_length. split; [reflexivity|].
      cbn [Nat.eqb]. destruct (pad 3 (st_ms x)) eqn:E.
      + pose proof (pad_length 3 (st_ms x)) as K. rewrite E in K. discriminate.
      + rewrite <- E. apply py_int_pad. cbn. lia. }
  assert (U : (length (field "u" name fmt) <=? 3)%nat = true /\
              py_int (match field "u" name fmt with [] => ["0"%char] | _ => field "u" name fmt end) = Some us).
  { unfold us. destruct Cu as [Cu|Cu]; rewrite Cu.
    - rewrite (field_absent "u" fmt name Cu). split; reflexivity.
    - rewrite (field_digits x fmt name "u" 3 _ SP eq_refl Cu). rewrite pad_length. split; [reflexivity|].
      cbn [Nat.eqb]. destruct (pad 3 (st_us x)) eqn:E.
      + pose proof (pad_length 3 (st_us x)) as K. rewrite E in K. discriminate.
      + rewrite <- E. apply py_int_pad. cbn. lia. }
  destruct F as [F1 F2], U as [U1 U2]. rewrite F1, U1. cbn [andb]. rewrite F2, U2. cbn [bind].
  rewrite (valid_fields_spec (st_civil x)); [reflexivity|exact Y| |exact V].
  unfold ms, us. destruct (_ =? _)%nat; destruct (_ =? _)%nat; lia.
Qed.

(** * Timezones *)

Lemma loaded_timezone_read pf v h : load_timezone pf v = Hours h -> read_timezone (TzNum h) = Hours h.
Proof. reflexivity. Qed.

Lemma loader_standard pf s h :
  In s ["utc"; "UTC"; "cet"; "CET"; "jst"; "JST"]%string -> standard_offset s = Some h ->
  load_timezone pf (TzStr s) = Hours h.
Proof. cbn [In]. intros H. destruct H as [<-|[<-|[<-|[<-|[<-|[<-|[]]]]]]]; cbn; intro E; injection E as <-; reflexivity. Qed.
