(** C217, C218: tides and USBL fixes from text files. *)
From Coq Require Import Ascii String.
From Verif Require Import PyBase TimeModel TimeSpec TimeProofs TimeProps Ae2000Model.
From Coq Require Import Reals Lra.
From Verif Require Import Ae2000Props SeaxProps RovProps NocModel.
From Coq Require Import Lqa Reals.
Open Scope Z_scope.

(** ** Numbers in text *)
Definition blanks (s : text) : Prop := forall c, In c s -> c = " "%char.
Definition sign (neg : bool) : text := if neg then ["-"%char] else [].
Definition negated (neg : bool) (q : Q) : Q := if neg then (- q)%Q else q.
(** A number with or without decimals, perhaps with a minus sign and blanks around it. *)
Inductive written : text -> Q -> Prop :=
| wr_point l r neg wi i wf f : blanks l -> blanks r -> numeral wi i -> numeral wf f ->
    written (l ++ sign neg ++ pad wi i ++ "."%char :: pad wf f ++ r) (negated neg (inject_Z i + inject_Z f / inject_Z (10 ^ Z.of_nat wf)))
| wr_whole l r neg wi i : blanks l -> blanks r -> numeral wi i ->
    written (l ++ sign neg ++ pad wi i ++ r) (negated neg (inject_Z i)).
(** A whole number, and one that fills two places. *)
Inductive whole : text -> Z -> Prop :=
| whole_n l r w n : blanks l -> blanks r -> numeral w n -> whole (l ++ pad w n ++ r) n.
Inductive two_places : text -> Z -> Prop :=
| places_2 n : 0 <= n <= 99 -> two_places (pad 2 n) n
| places_1 n : 0 <= n <= 9 -> two_places (" "%char :: pad 1 n) n.

Lemma lstrip_blanks : forall l s, blanks l -> lstrip (l ++ s) = lstrip s.
Proof. induction l as [|c l IH]; intros s B; [reflexivity|]. cbn [app lstrip]. rewrite (B c) by now left. cbn. apply IH. intros x X. apply B. now right. Qed.
Definition solid (s : text) : Prop := exists c r, s = c :: r /\ is_blank c = false.
Lemma lstrip_solid : forall s, solid s -> lstrip s = s.
Proof. intros s (c & r & -> & B). cbn [lstrip]. now rewrite B. Qed.
Lemma strip_between : forall l s r, blanks l -> blanks r -> solid s -> solid (rev s) -> strip (l ++ s ++ r) = s.
Proof.
  intros l s r L R S1 S2. unfold strip. rewrite lstrip_blanks by exact L.
  assert (lstrip (s ++ r) = s ++ r) as -> by (apply lstrip_solid; destruct S1 as (c & t & -> & B); exists c, (t ++ r); split; [reflexivity|exact B]).
  rewrite rev_app_distr, lstrip_blanks by (intros c I; apply R; now apply in_rev). rewrite lstrip_solid by exact S2. apply rev_involutive.
Qed.
Lemma digit_blank : forall d, is_blank (chr_digit (d mod 10)) = false.
Proof.
  intros d. pose proof (Z.mod_pos_bound d 10 ltac:(lia)) as B. unfold is_blank, chr_digit. rewrite N_ascii_embedding by lia.
  apply Bool.orb_false_iff. split; apply Bool.andb_false_iff; right; apply N.leb_gt; lia.
Qed.
Lemma pad_solid_end : forall w n, (0 < w)%nat -> solid (rev (pad w n)).
Proof. intros [|w] n W; [lia|]. cbn [pad]. rewrite rev_unit. exists (chr_digit (n mod 10)), (rev (pad w (n / 10))). split; [reflexivity|apply digit_blank]. Qed.
Lemma pad_digits : forall w n c, In c (pad w n) -> exists d, c = chr_digit (d mod 10).
Proof. induction w as [|w IH]; intros n c I; [destruct I|]. cbn [pad] in I. apply in_app_or in I. destruct I as [I|[<-|[]]]; eauto. Qed.
Lemma pad_solid : forall w n, (0 < w)%nat -> solid (pad w n).
Proof.
  intros w n W. destruct (pad w n) as [|c r] eqn:E; [apply (f_equal (@length _)) in E; rewrite pad_length in E; cbn in E; lia|].
  exists c, r. split; [reflexivity|]. destruct (pad_digits w n c) as (d & ->); [rewrite E; now left|]. apply digit_blank.
Qed.
Lemma solid_app : forall a b, solid a -> solid (a ++ b).
Proof. intros a b (c & r & -> & B). now exists c, (r ++ b). Qed.
Lemma signed_pad : forall w n r, (0 < w)%nat -> signed (pad w n ++ r) = (false, pad w n ++ r).
Proof.
  intros w n r W. destruct (pad w n) as [|c p] eqn:E; [apply (f_equal (@length _)) in E; rewrite pad_length in E; cbn in E; lia|].
  assert (c <> "-"%char) by (intros ->; apply (digit_not "-"%char ltac:(left; reflexivity) w n); rewrite E; now left).
  assert (c <> "+"%char) by (intros ->; apply (digit_not "+"%char ltac:(left; reflexivity) w n); rewrite E; now left).
  cbn [app signed]. destruct (Ascii.eqb_spec c "-"%char); [contradiction|]. destruct (Ascii.eqb_spec c "+"%char); [contradiction|]. reflexivity.
Qed.
Lemma signed_sign : forall neg w n r, (0 < w)%nat -> signed (sign neg ++ pad w n ++ r) = (neg, pad w n ++ r).
Proof. intros [] w n r W; [reflexivity|]. cbn [sign app]. now apply signed_pad. Qed.

Lemma strip_numeral : forall l r w n, blanks l -> blanks r -> numeral w n -> strip (l ++ pad w n ++ r) = pad w n.
Proof. intros l r w n L R [W _]. apply strip_between; [assumption|assumption|now apply pad_solid|now apply pad_solid_end]. Qed.
Lemma int_whole : forall s n, whole s n -> int_text s = Some n.
Proof.
  intros s n [l r w k L R N]. unfold int_text. rewrite strip_numeral by assumption. destruct N as [W B]. rewrite <- (app_nil_r (pad w k)).
  rewrite signed_pad by exact W. rewrite app_nil_r. now rewrite py_numeral by now split.
Qed.
Lemma whole_pad : forall w n, numeral w n -> whole (pad w n) n.
Proof. intros w n N. rewrite <- (app_nil_r (pad w n)). change (pad w n ++ []) with ([] ++ pad w n ++ []). constructor; [intros c []|intros c []|exact N]. Qed.
Lemma whole_two : forall s n, two_places s n -> whole s n.
Proof.
  intros s n [k K|k K]; [apply whole_pad; split; [lia|cbn; lia]|]. rewrite <- (app_nil_r (pad 1 k)). change (" "%char :: pad 1 k ++ []) with ([" "%char] ++ pad 1 k ++ []).
  constructor; [intros c [<-|[]]; reflexivity|intros c []|split; [lia|cbn; lia]].
Qed.
Lemma int_pad : forall w n, numeral w n -> int_text (pad w n) = Some n.
Proof. intros w n N. apply int_whole. now apply whole_pad. Qed.
Lemma two_length : forall s n, two_places s n -> length s = 2%nat.
Proof. intros s n [k K|k K]; [apply pad_length|cbn [length]; now rewrite pad_length]. Qed.

Lemma float_written : forall s q, written s q -> exists v, float_text s = Some v /\ (v == q)%Q.
Proof.
  intros s q [l r neg wi i wf f L R Ni Nf|l r neg wi i L R Ni].
  - assert (strip (l ++ sign neg ++ pad wi i ++ "."%char :: pad wf f ++ r) = sign neg ++ pad wi i ++ "."%char :: pad wf f) as E.
    { replace (l ++ sign neg ++ pad wi i ++ "."%char :: pad wf f ++ r) with (l ++ (sign neg ++ pad wi i ++ "."%char :: pad wf f) ++ r) by (repeat (rewrite <- app_assoc; cbn [app]); reflexivity).
      apply strip_between; [exact L|exact R| |].
      - destruct neg; [eexists _, _; split; reflexivity|]. cbn [sign app]. apply solid_app, pad_solid, Ni.
      - rewrite app_assoc, rev_app_distr. cbn [rev]. rewrite <- app_assoc. apply solid_app, pad_solid_end, Nf. }
    unfold float_text. rewrite E, signed_sign by apply Ni. rewrite split_cons by nodigit. rewrite split_none by nodigit.
    destruct Ni as [Wi Bi], Nf as [Wf Bf]. rewrite <- pad_app by exact Bf.
    assert (py_int (pad (wi + wf) (i * 10 ^ Z.of_nat wf + f)) = Some (i * 10 ^ Z.of_nat wf + f)) as -> by (apply py_numeral; split; [lia|]; rewrite Nat2Z.inj_add, Z.pow_add_r by lia; nia).
    cbn [option_map]. rewrite pad_length. eexists. split; [reflexivity|].
    assert (P : ~ (inject_Z (10 ^ Z.of_nat wf) == 0)%Q) by (intros H; assert (0 < inject_Z (10 ^ Z.of_nat wf))%Q by (change 0%Q with (inject_Z 0); rewrite <- Zlt_Qlt; lia); lra).
    destruct neg; cbn [negated]; rewrite inject_Z_plus, inject_Z_mult; field; exact P.
  - assert (strip (l ++ sign neg ++ pad wi i ++ r) = sign neg ++ pad wi i) as E.
    { replace (l ++ sign neg ++ pad wi i ++ r) with (l ++ (sign neg ++ pad wi i) ++ r) by now rewrite <- app_assoc.
      apply strip_between; [exact L|exact R| |].
      - destruct neg; [eexists _, _; split; reflexivity|]. apply pad_solid, Ni.
      - rewrite rev_app_distr. apply solid_app, pad_solid_end, Ni. }
    unfold float_text. rewrite E. rewrite <- (app_nil_r (pad wi i)). rewrite signed_sign by apply Ni. rewrite app_nil_r. rewrite split_none by nodigit.
    rewrite py_numeral by exact Ni. cbn [option_map]. eexists. split; [reflexivity|destruct neg; reflexivity].
Qed.

(** ** Tides *)
(** A line of a POLPRED file: the date with day and month in two places, the time to the minute, anything in the next
    five places, the height in six, anything after. [n] are the seconds since 1970 on the clock of the zone. *)
Inductive polpred_row (tz : Q) : text -> Q * Q -> Prop :=
| polpred_record c n dd mm five height q rest : seconds_after_1970 n c -> c_y c <= 9999 -> c_s c = 0 -> (0 <= inject_Z n - 3600 * tz < 253402300800)%Q ->
    two_places dd (c_d c) -> two_places mm (c_mo c) -> length five = 5%nat -> written height q -> length height = 6%nat ->
    polpred_row tz (dd ++ "/"%char :: mm ++ "/"%char :: pad 4 (c_y c) ++ " "%char :: " "%char :: pad 2 (c_h c) ++ ":"%char :: pad 2 (c_mi c) ++ five ++ height ++ rest)
      ((inject_Z n - 3600 * tz)%Q, q).
(** A line of a CTI file: an ISO date and time, and the height between the first two commas. *)
Inductive cti_row (tz : Q) : text -> Q * Q -> Prop :=
| cti_record c n mark height q rest : seconds_after_1970 n c -> c_y c <= 9999 -> (0 <= inject_Z n - 3600 * tz < 253402300800)%Q ->
    ~ In ","%char mark -> written height q -> ~ In ","%char height ->
    cti_row tz (pad 4 (c_y c) ++ "-"%char :: pad 2 (c_mo c) ++ "-"%char :: pad 2 (c_d c) ++ "T"%char :: pad 2 (c_h c) ++ ":"%char :: pad 2 (c_mi c) ++ ":"%char :: pad 2 (c_s c) ++ mark ++ ","%char :: height ++ ","%char :: rest)
      ((inject_Z n - 3600 * tz)%Q, q).
(** The tide [r] tells height [snd e] at time [fst e], corrected by [o]; its deviation is the configured fraction of the height. *)
Definition tells (o k : Q) (e : Q * Q) (r : tide) : Prop := (td_t r == fst e + o)%Q /\ (td_height r == snd e)%Q /\ (td_std r == k * snd e)%Q.

Lemma slice_at : forall k m (a b r s : text), s = a ++ b ++ r -> length a = k -> length b = m -> slice k (k + m) s = b.
Proof.
  intros k m a b r s -> <- <-. unfold slice. rewrite Nat.add_comm, Nat.add_sub, skipn_app, skipn_all, Nat.sub_diag. cbn [app skipn].
  rewrite firstn_app, firstn_all, Nat.sub_diag. apply app_nil_r.
Qed.
Ltac cut a := eapply (slice_at _ _ a); [repeat (rewrite <- app_assoc; cbn [app]); reflexivity|repeat (rewrite app_length; cbn [length]); rewrite ?pad_length; auto|auto using pad_length].

Lemma polpred_row_read : forall tz o k line e, polpred_row tz line e -> exists r, polpred_line tz o k line = Some r /\ tells o k e r.
Proof.
  intros tz o k line e [c n dd mm five height q rest T Y S0 B D M F W H]. pose proof (civil_fields n c T) as (B1 & B2 & B3 & B4 & B5).
  destruct (seconds_after_1970_csec _ _ T) as (_ & _ & Y1 & _). pose proof (two_length _ _ D) as LD. pose proof (two_length _ _ M) as LM.
  unfold polpred_line. set (ln := dd ++ _).
  assert (slice 0 2 ln = dd) as -> by (apply (slice_at 0 2 [] dd (skipn 2 ln)); [unfold ln; cbn [app]; f_equal; rewrite skipn_app, LD, skipn_all2 by lia; reflexivity|reflexivity|exact LD]).
  assert (slice 3 5 ln = mm) as -> by (eapply (slice_at 3 2 (dd ++ ["/"%char])); [unfold ln; rewrite <- app_assoc; reflexivity|rewrite app_length, LD; reflexivity|exact LM]).
  assert (slice 6 10 ln = pad 4 (c_y c)) as -> by (eapply (slice_at 6 4 (dd ++ "/"%char :: mm ++ ["/"%char])); [unfold ln; repeat (rewrite <- app_assoc; cbn [app]); reflexivity|repeat (rewrite app_length; cbn [length]); rewrite LD, LM; reflexivity|apply pad_length]).
  assert (slice 12 14 ln = pad 2 (c_h c)) as -> by (eapply (slice_at 12 2 (dd ++ "/"%char :: mm ++ "/"%char :: pad 4 (c_y c) ++ [" "%char; " "%char])); [unfold ln; repeat (rewrite <- app_assoc; cbn [app]); reflexivity|repeat (rewrite app_length; cbn [length]); rewrite LD, LM, pad_length; reflexivity|apply pad_length]).
  assert (slice 15 17 ln = pad 2 (c_mi c)) as -> by (eapply (slice_at 15 2 (dd ++ "/"%char :: mm ++ "/"%char :: pad 4 (c_y c) ++ " "%char :: " "%char :: pad 2 (c_h c) ++ [":"%char])); [unfold ln; repeat (rewrite <- app_assoc; cbn [app]); reflexivity|repeat (rewrite app_length; cbn [length]); rewrite LD, LM, !pad_length; reflexivity|apply pad_length]).
  assert (slice 22 28 ln = height) as -> by (eapply (slice_at 22 6 (dd ++ "/"%char :: mm ++ "/"%char :: pad 4 (c_y c) ++ " "%char :: " "%char :: pad 2 (c_h c) ++ ":"%char :: pad 2 (c_mi c) ++ five)); [unfold ln; repeat (rewrite <- app_assoc; cbn [app]); reflexivity|repeat (rewrite app_length; cbn [length]); rewrite LD, LM, !pad_length, F; reflexivity|exact H]).
  rewrite (int_whole _ _ (whole_two _ _ D)), (int_whole _ _ (whole_two _ _ M)). rewrite !int_pad by (split; [lia|cbn; lia]). cbn [bind].
  destruct (epoch_zone n c tz T Y B) as (t & E & Et). rewrite S0 in E. rewrite E. cbn [bind]. destruct (float_written _ _ W) as (v & -> & Ev). cbn [bind].
  eexists. split; [reflexivity|]. unfold tells, tide_record. cbn [td_t td_height td_std fst snd]. rewrite Et, Ev. repeat split; ring.
Qed.
Lemma find_none : forall c s, ~ In c s -> forall r, find_char c (s ++ c :: r) = Some (length s).
Proof.
  induction s as [|x s IH]; intros N r; cbn [app find_char length]; [now rewrite Ascii.eqb_refl|]. destruct (Ascii.eqb_spec x c) as [->|_]; [destruct N; now left|].
  rewrite IH by (intros I; apply N; now right). reflexivity.
Qed.
Lemma cti_cell_spec : forall a h r, ~ In ","%char a -> ~ In ","%char h -> cti_cell (a ++ ","%char :: h ++ ","%char :: r) = h.
Proof.
  intros a h r A H. unfold cti_cell. rewrite find_none by exact A.
  assert (skipn (S (length a)) (a ++ ","%char :: h ++ ","%char :: r) = h ++ ","%char :: r) as -> by (rewrite skipn_app, skipn_all2 by lia; replace (S (length a) - length a)%nat with 1%nat by lia; reflexivity).
  rewrite find_none by exact H. eapply (slice_at _ _ (a ++ [","%char])); [rewrite <- app_assoc; reflexivity|rewrite app_length; cbn; lia|reflexivity].
Qed.
Lemma cti_row_read : forall tz o k line e, cti_row tz line e -> exists r, cti_line tz o k line = Some r /\ tells o k e r.
Proof.
  intros tz o k line e [c n mark height q rest T Y B MK W H]. pose proof (civil_fields n c T) as (B1 & B2 & B3 & B4 & B5).
  destruct (seconds_after_1970_csec _ _ T) as (_ & _ & Y1 & _). unfold cti_line. set (ln := pad 4 _ ++ _).
  assert (slice 0 4 ln = pad 4 (c_y c)) as -> by apply SeaxProps.slice_pad.
  assert (slice 5 7 ln = pad 2 (c_mo c)) as -> by (eapply (slice_at 5 2 (pad 4 (c_y c) ++ ["-"%char])); [unfold ln; repeat (rewrite <- app_assoc; cbn [app]); reflexivity|rewrite app_length, pad_length; reflexivity|apply pad_length]).
  assert (slice 8 10 ln = pad 2 (c_d c)) as -> by (eapply (slice_at 8 2 (pad 4 (c_y c) ++ "-"%char :: pad 2 (c_mo c) ++ ["-"%char])); [unfold ln; repeat (rewrite <- app_assoc; cbn [app]); reflexivity|repeat (rewrite app_length; cbn [length]); rewrite !pad_length; reflexivity|apply pad_length]).
  assert (slice 11 13 ln = pad 2 (c_h c)) as -> by (eapply (slice_at 11 2 (pad 4 (c_y c) ++ "-"%char :: pad 2 (c_mo c) ++ "-"%char :: pad 2 (c_d c) ++ ["T"%char])); [unfold ln; repeat (rewrite <- app_assoc; cbn [app]); reflexivity|repeat (rewrite app_length; cbn [length]); rewrite !pad_length; reflexivity|apply pad_length]).
  assert (slice 14 16 ln = pad 2 (c_mi c)) as -> by (eapply (slice_at 14 2 (pad 4 (c_y c) ++ "-"%char :: pad 2 (c_mo c) ++ "-"%char :: pad 2 (c_d c) ++ "T"%char :: pad 2 (c_h c) ++ [":"%char])); [unfold ln; repeat (rewrite <- app_assoc; cbn [app]); reflexivity|repeat (rewrite app_length; cbn [length]); rewrite !pad_length; reflexivity|apply pad_length]).
  assert (slice 17 19 ln = pad 2 (c_s c)) as -> by (eapply (slice_at 17 2 (pad 4 (c_y c) ++ "-"%char :: pad 2 (c_mo c) ++ "-"%char :: pad 2 (c_d c) ++ "T"%char :: pad 2 (c_h c) ++ ":"%char :: pad 2 (c_mi c) ++ [":"%char])); [unfold ln; repeat (rewrite <- app_assoc; cbn [app]); reflexivity|repeat (rewrite app_length; cbn [length]); rewrite !pad_length; reflexivity|apply pad_length]).
  assert (cti_cell ln = height) as ->.
  { replace ln with ((pad 4 (c_y c) ++ "-"%char :: pad 2 (c_mo c) ++ "-"%char :: pad 2 (c_d c) ++ "T"%char :: pad 2 (c_h c) ++ ":"%char :: pad 2 (c_mi c) ++ ":"%char :: (pad 2 (c_s c) ++ mark)) ++ ","%char :: height ++ ","%char :: rest)
      by (unfold ln; repeat (rewrite <- app_assoc; cbn [app]); reflexivity).
    apply cti_cell_spec; [|exact H]. repeat (apply not_in_mid; [discriminate|nodigit|]). intros I. apply in_app_or in I. destruct I as [I|I]; [|exact (MK I)]. revert I. nodigit. }
  rewrite !int_pad by (split; [lia|cbn; lia]). cbn [bind]. destruct (epoch_zone n c tz T Y B) as (t & -> & Et). cbn [bind].
  destruct (float_written _ _ W) as (v & -> & Ev). cbn [bind].
  eexists. split; [reflexivity|]. unfold tells, tide_record. cbn [td_t td_height td_std fst snd]. rewrite Et, Ev. repeat split; ring.
Qed.

(** A file: six lines before the records. *)
Definition tide_file (row : text -> Q * Q -> Prop) (lines : list text) (es : list (Q * Q)) : Prop :=
  exists header records, lines = header ++ records /\ length header = 6%nat /\ Forall2 row records es.
Lemma tide_files_read : forall (row : text -> Q * Q -> Prop) f o k, (forall line e, row line e -> exists r, f line = Some r /\ tells o k e r) ->
  forall files ess, Forall2 (tide_file row) files ess -> exists out, tide_files f files = Some out /\ Forall2 (tells o k) (concat ess) out.
Proof.
  intros row f o k Hf. assert (L : forall lines es, Forall2 row lines es -> exists out, all_lines f lines = Some out /\ Forall2 (tells o k) es out).
  { intros lines es F. induction F as [|line e lines es R F (out & E & O)]; [exists []; split; [reflexivity|constructor]|].
    destruct (Hf _ _ R) as (r & Er & Hr). exists (r :: out). cbn [all_lines]. rewrite Er, E. split; [reflexivity|now constructor]. }
  intros files ess F. induction F as [|lines es files ess R F (out & E & O)]; [exists []; split; [reflexivity|constructor]|].
  destruct R as (header & records & -> & HL & R). destruct (L _ _ R) as (a & Ea & Ha). exists (a ++ out). cbn [tide_files concat].
  assert (skipn 6 (header ++ records) = records) as -> by (rewrite <- HL, skipn_app, skipn_all, Nat.sub_diag; reflexivity).
  rewrite Ea, E. split; [reflexivity|now apply Forall2_app].
Qed.
(** Blanks around a number do not matter: tab, line feed, vertical tab, form feed, carriage return, the four separators and the space. *)
Definition gaps (s : text) : Prop := forall c, In c s -> In (N_of_ascii c) [9; 10; 11; 12; 13; 28; 29; 30; 31; 32]%N.
Lemma gaps_blank : forall s, gaps s -> forall c, In c s -> is_blank c = true.
Proof. intros s G c I. specialize (G c I). unfold is_blank. destruct G as [<-|[<-|[<-|[<-|[<-|[<-|[<-|[<-|[<-|[<-|[]]]]]]]]]]]; reflexivity. Qed.
Lemma lstrip_all : forall l s, (forall c, In c l -> is_blank c = true) -> lstrip (l ++ s) = lstrip s.
Proof. induction l as [|c l IH]; intros s B; [reflexivity|]. cbn [app lstrip]. rewrite (B c) by now left. apply IH. intros x X. apply B. now right. Qed.
Lemma lstrip_cases : forall s, (lstrip s = [] /\ forall c, In c s -> is_blank c = true) \/ forall r, lstrip (s ++ r) = lstrip s ++ r.
Proof.
  induction s as [|c s IH]; [left; split; [reflexivity|intros c []]|]. cbn [app lstrip]. destruct (is_blank c) eqn:B; [|right; reflexivity].
  destruct IH as [[E A]|A]; [left; split; [exact E|]|right; exact A]. intros x [<-|X]; [exact B|now apply A].
Qed.
Lemma strip_gaps : forall a s b, gaps a -> gaps b -> strip (a ++ s ++ b) = strip s.
Proof.
  intros a s b A B. unfold strip. rewrite lstrip_all by (now apply gaps_blank). destruct (lstrip_cases s) as [[E I]|I].
  - rewrite E, lstrip_all by exact I. rewrite <- (app_nil_r b), lstrip_all by (now apply gaps_blank). reflexivity.
  - rewrite I, rev_app_distr, lstrip_all; [reflexivity|]. intros c X. apply in_rev in X. now apply (gaps_blank b).
Qed.
Theorem C217_blanks : forall a s b, gaps a -> gaps b -> int_text (a ++ s ++ b) = int_text s /\ float_text (a ++ s ++ b) = float_text s.
Proof. intros a s b A B. unfold int_text, float_text. now rewrite strip_gaps. Qed.
Print Assumptions C217_blanks.
Theorem C217_polpred : forall tz o k files ess, Forall2 (tide_file (polpred_row tz)) files ess ->
  exists out, parse_polpred tz o k files = Some out /\ Forall2 (tells o k) (concat ess) out.
Proof. intros. now apply (tide_files_read (polpred_row tz)); [intros; now apply polpred_row_read|]. Qed.
Print Assumptions C217_polpred.
Theorem C217_cti : forall tz o k files ess, Forall2 (tide_file (cti_row tz)) files ess ->
  exists out, parse_cti tz o k files = Some out /\ Forall2 (tells o k) (concat ess) out.
Proof. intros. now apply (tide_files_read (cti_row tz)); [intros; now apply cti_row_read|]. Qed.
Print Assumptions C217_cti.

(** ** USBL fixes *)
Definition tab : ascii := ascii_of_nat 9.
Section Fixes.
  Variable pynmea : text -> option gga.
  Variable latlon_to_metres : R -> R -> R -> R -> R * R.
  Variables lat_ref lon_ref factor offset : R.

  (** What a line holds for the mission: nothing, or a sentence [m] of beacon [b] at time [t].  The line is the date and
      time of the log (only the date, dd/mm/yyyy, is used), a tab, and the sentence with the time of day to the
      millisecond in its second field. *)
  Inductive nmea_row (tz : Q) (b : Z) : text -> option (Q * gga) -> Prop :=
  | row_no_tab line : ~ In tab line -> nmea_row tz b line None
  | row_other before sentence m n : ~ In tab before -> ~ In tab sentence -> pynmea sentence = Some m -> whole (g_station m) n -> n <> b ->
      nmea_row tz b (before ++ tab :: sentence) None
  | row_fix c n ms before head rest s1 s2 m : seconds_after_1970 n c -> c_y c <= 9999 -> 0 <= ms < 1000 -> (0 <= inject_Z n - 3600 * tz < 253402300800)%Q ->
      s1 <> " "%char -> s2 <> " "%char -> s1 <> tab -> s2 <> tab -> ~ In tab before -> ~ In ","%char head -> ~ In tab head -> ~ In tab rest ->
      let sentence := head ++ ","%char :: (pad 2 (c_h c) ++ pad 2 (c_mi c) ++ pad 2 (c_s c) ++ "."%char :: pad 3 ms) ++ ","%char :: rest in
      pynmea sentence = Some m -> whole (g_station m) b ->
      nmea_row tz b (pad 2 (c_d c) ++ s1 :: pad 2 (c_mo c) ++ s2 :: pad 4 (c_y c) ++ " "%char :: before ++ tab :: sentence)
        (Some ((inject_Z n + inject_Z ms / 1000 - 3600 * tz)%Q, m)).

  Open Scope R_scope.
  (** The fix [x] lies at the position of the sentence, its depth below the surface, [d] metres from the reference in the
      direction of the bearing, with the deviations of the configuration. *)
  Definition fixed_at (o : Q) (e : Q * gga) (x : fix_) : Prop :=
    let m := snd e in let '(d, b) := latlon_to_metres (g_lat m) (g_lon m) lat_ref lon_ref in
    (f_t x == fst e + o)%Q /\ f_lat x = g_lat m /\ f_lon x = g_lon m /\ f_depth x + g_alt m = 0 /\
    f_north x * f_north x + f_east x * f_east x = d * d /\
    f_north x * cos (b * (PI / 180)) + f_east x * sin (b * (PI / 180)) = d /\
    f_depth_std x = offset + factor * f_depth x /\ f_north_std x = f_depth_std x /\ f_east_std x = f_depth_std x.
  Lemma from_nmea_fixed : forall o t m u, (u == t + o)%Q -> fixed_at o (t, m) (from_nmea latlon_to_metres lat_ref lon_ref factor offset u m).
  Proof.
    intros o t m u E. unfold fixed_at, from_nmea. cbn [fst snd]. destruct (latlon_to_metres (g_lat m) (g_lon m) lat_ref lon_ref) as [d b]. cbn.
    replace (b * PI / 180) with (b * (PI / 180)) by (unfold Rdiv; ring). pose proof (sin2_cos2 (b * (PI / 180))) as SC. unfold Rsqr in SC.
    set (s := sin (b * (PI / 180))) in *. set (co := cos (b * (PI / 180))) in *.
    repeat split; [exact E|ring|replace (co * d * (co * d) + s * d * (s * d)) with ((s * s + co * co) * (d * d)) by ring; rewrite SC; ring
      |replace (co * d * co + s * d * s) with ((s * s + co * co) * d) by ring; rewrite SC; ring|ring].
  Qed.
  Open Scope Z_scope.
  Notation line_of := (nmea_line pynmea latlon_to_metres lat_ref lon_ref factor offset).
  Lemma nmea_row_read : forall tz o b line e, nmea_row tz b line e ->
    match e with
    | None => line_of tz o (LNumber b) line = Some None
    | Some e => exists x, line_of tz o (LNumber b) line = Some (Some x) /\ fixed_at o e x
    end.
  Proof.
    intros tz o b line e H. unfold nmea_line. change (ascii_of_nat 9) with tab.
    destruct H as [line N|before sentence m n Nb Ns P W D|c n ms before head rest s1 s2 m T Y M B S1 S2 T1 T2 NB NH TH TR sentence P W].
    - now rewrite split_none by exact N.
    - rewrite split_cons, split_none by assumption. rewrite P. cbn [bind]. rewrite (int_whole _ _ W). cbn [bind is_beacon]. destruct (Z.eqb_spec n b); [contradiction|reflexivity].
    - pose proof (civil_fields n c T) as (B1 & B2 & B3 & B4 & B5). destruct (seconds_after_1970_csec _ _ T) as (_ & _ & Y1 & _).
      set (date := pad 2 (c_d c) ++ s1 :: pad 2 (c_mo c) ++ s2 :: pad 4 (c_y c)).
      replace (pad 2 (c_d c) ++ s1 :: pad 2 (c_mo c) ++ s2 :: pad 4 (c_y c) ++ " "%char :: before ++ tab :: sentence) with ((date ++ " "%char :: before) ++ tab :: sentence)
        by (unfold date; repeat (rewrite <- app_assoc; cbn [app]); reflexivity).
      assert (ND : forall x, (N_of_ascii x < 48 \/ 57 < N_of_ascii x)%N -> x <> s1 -> x <> s2 -> ~ In x date).
      { intros x X X1 X2. unfold date. apply not_in_mid; [exact X1|now apply digit_not|]. apply not_in_mid; [exact X2|now apply digit_not|now apply digit_not]. }
      assert (NS : ~ In tab sentence).
      { unfold sentence. apply not_in_mid; [discriminate|exact TH|]. apply not_in_mid; [discriminate| |exact TR]. rewrite !in_app_iff. intros [I|[I|[I|I]]]; revert I; try nodigit.
        change ("."%char :: pad 3 ms) with ([] ++ "."%char :: pad 3 ms). apply not_in_mid; [discriminate|intros []|nodigit]. }
      rewrite split_cons. 2:{ apply not_in_mid; [discriminate|apply ND; [left; reflexivity|congruence|congruence]|exact NB]. }
      rewrite (split_none tab) by exact NS. rewrite P. cbn [bind]. rewrite (int_whole _ _ W). cbn [bind is_beacon]. rewrite Z.eqb_refl.
      rewrite <- app_assoc. cbn [app]. rewrite (split_cons " "%char) by (apply ND; [left; reflexivity|congruence|congruence]). cbn [nth].
      unfold sentence at 1. rewrite (split_cons ","%char) by exact NH. rewrite (split_cons ","%char).
      2:{ rewrite !in_app_iff. intros [I|[I|[I|I]]]; revert I; try nodigit.
          change ("."%char :: pad 3 ms) with ([] ++ "."%char :: pad 3 ms). apply not_in_mid; [discriminate|intros []|nodigit]. }
      cbn [nth_error bind]. set (clock := pad 2 (c_h c) ++ _).
      assert (slice 6 10 date = pad 4 (c_y c)) as -> by (eapply (slice_at 6 4 (pad 2 (c_d c) ++ s1 :: pad 2 (c_mo c) ++ [s2]) _ []); [unfold date; repeat (rewrite <- app_assoc; cbn [app]); now rewrite app_nil_r|repeat (rewrite app_length; cbn [length]); rewrite !pad_length; reflexivity|apply pad_length]).
      assert (slice 3 5 date = pad 2 (c_mo c)) as -> by (eapply (slice_at 3 2 (pad 2 (c_d c) ++ [s1])); [unfold date; repeat (rewrite <- app_assoc; cbn [app]); reflexivity|repeat (rewrite app_length; cbn [length]); rewrite !pad_length; reflexivity|apply pad_length]).
      assert (slice 0 2 date = pad 2 (c_d c)) as -> by apply SeaxProps.slice_pad.
      assert (slice 0 2 clock = pad 2 (c_h c)) as -> by apply SeaxProps.slice_pad.
      assert (slice 2 4 clock = pad 2 (c_mi c)) as -> by (apply (SeaxProps.slice_app 2 2), pad_length).
      assert (slice 4 6 clock = pad 2 (c_s c)) as -> by (eapply (slice_at 4 2 (pad 2 (c_h c) ++ pad 2 (c_mi c))); [unfold clock; repeat (rewrite <- app_assoc; cbn [app]); reflexivity|rewrite app_length, !pad_length; reflexivity|apply pad_length]).
      assert (slice 7 10 clock = pad 3 ms) as -> by (eapply (slice_at 7 3 (pad 2 (c_h c) ++ pad 2 (c_mi c) ++ pad 2 (c_s c) ++ ["."%char]) _ []); [unfold clock; repeat (rewrite <- app_assoc; cbn [app]); now rewrite app_nil_r|repeat (rewrite app_length; cbn [length]); rewrite !pad_length; reflexivity|apply pad_length]).
      rewrite !int_pad by (split; [lia|cbn; lia]). cbn [bind]. destruct (epoch_zone n c tz T Y B) as (t & -> & Et). cbn [bind].
      eexists. split; [reflexivity|]. apply from_nmea_fixed. rewrite Et. ring.
  Qed.
  (** Every sentence of the mission's beacon gives a fix, in order; everything else is left out. *)
  Theorem C217_nmea : forall tz o b files rows, Forall2 (nmea_row tz b) (concat files) rows ->
    exists out, parse_nmea pynmea latlon_to_metres lat_ref lon_ref factor offset tz o (LNumber b) files = Some out /\ Forall2 (fixed_at o) (present rows) out.
  Proof.
    intros tz o b files rows F. unfold parse_nmea. induction F as [|line e lines rows H F (out & E & O)]; [exists []; split; [reflexivity|constructor]|].
    cbn [nmea_lines]. pose proof (nmea_row_read tz o b line e H) as L. destruct e as [e|].
    - destruct L as (x & -> & X). cbn [bind]. rewrite E. cbn [bind]. eexists. split; [reflexivity|]. cbn. now constructor.
    - rewrite L. cbn [bind]. rewrite E. cbn [bind]. exists out. split; [reflexivity|exact O].
  Qed.
End Fixes.
Print Assumptions C217_nmea.

(** ** What does not hold *)
Definition txt := list_ascii_of_string.
(** The header of a CTI file, as shown in the parser, has five lines; the first record is skipped with it. *)
Theorem C218_header_refuted : exists header line out e, length header = 5%nat /\ cti_row 0 line e /\
  parse_cti 0 0 1 [header ++ [line]] = Some out /\ out = [].
Proof.
  exists [txt """Computation Type"",""Time Series"""; txt """Model"",""GLBF_5HC"""; txt """Datum"",""Mean Sea Level"""; txt """"""; txt """Date/Time (UTC)"",""Height (m)"",""Current Speed (m/s)"",""Direction (Deg)"""].
  exists (txt "1970-01-01T00:00:00Z,1.25,0.17887,74"), [], ((inject_Z 0 - 3600 * 0)%Q, (negated false (inject_Z 1 + inject_Z 25 / inject_Z (10 ^ Z.of_nat 2)))%Q).
  split; [reflexivity|]. split; [|split; reflexivity].
  change (txt "1970-01-01T00:00:00Z,1.25,0.17887,74") with
    (pad 4 1970 ++ "-"%char :: pad 2 1 ++ "-"%char :: pad 2 1 ++ "T"%char :: pad 2 0 ++ ":"%char :: pad 2 0 ++ ":"%char :: pad 2 0 ++ ["Z"%char] ++ ","%char ::
      ([] ++ sign false ++ pad 1 1 ++ "."%char :: pad 2 25 ++ []) ++ ","%char :: txt "0.17887,74").
  apply (cti_record 0 (mkCivil 1970 1 1 0 0 0) 0); cbn [c_y]; [constructor|lia|split; [discriminate|reflexivity]|intros [E|[]]; discriminate| |].
  - constructor; [intros c []|intros c []|split; [lia|cbn; lia]|split; [lia|cbn; lia]].
  - cbn. intros [E|[E|[E|[E|[]]]]]; discriminate.
Qed.
Print Assumptions C218_header_refuted.
(** The deviation is not even positive at low tide, whatever the factor in the mission file: it is the height times the offset. *)
Theorem C218_std_refuted : exists line r, polpred_line 0 0 (1 # 10) line = Some r /\ (td_std r < 0)%Q.
Proof. exists (txt " 6/ 9/2019  00:00      -0.74      0.14       51"). eexists. split; [reflexivity|reflexivity]. Qed.
Print Assumptions C218_std_refuted.
(** A last line with two columns and no line end loses the last digit of the height. *)
Theorem C218_last_digit_refuted : exists line r, cti_line 0 0 0 (line ++ [ascii_of_nat 10]) = Some r /\
  (td_height r == 113467 # 100000)%Q /\ exists r', cti_line 0 0 0 line = Some r' /\ (td_height r' == 11346 # 10000)%Q.
Proof. exists (txt "2022-07-09T00:15:00Z,1.13467"). eexists. split; [reflexivity|]. split; [reflexivity|]. eexists. split; [reflexivity|reflexivity]. Qed.
Print Assumptions C218_last_digit_refuted.
Definition sentence_a : gga := mkgga (txt "0012") 50 4 (-100).
Definition nmea_of := nmea_line (fun _ => Some sentence_a) (fun _ _ _ _ => (0%R, 0%R)) 0%R 0%R 0%R 0%R 0 0.
Definition log_line (clock : string) : text := txt "06/09/2019 12:35:20" ++ tab :: txt ("$GPGGA," ++ clock ++ ",4807.038,N,01131.000,E,1,08,0.9,-100.0,M,46.9,M,,0012*42").
(** Half a second written with one or two digits is read as five or fifty milliseconds; a time without a fraction raises. *)
Theorem C218_fraction_refuted : exists x y z, nmea_of (LNumber 12) (log_line "123519.500") = Some (Some x) /\
  nmea_of (LNumber 12) (log_line "123519.5") = Some (Some y) /\ nmea_of (LNumber 12) (log_line "123519.50") = Some (Some z) /\
  (f_t x - f_t y == 495 # 1000)%Q /\ (f_t x - f_t z == 450 # 1000)%Q /\ nmea_of (LNumber 12) (log_line "123519") = None.
Proof. eexists _, _, _. repeat split. Qed.
Print Assumptions C218_fraction_refuted.
(** A label given as text selects no sentence, even of the same number. *)
Theorem C218_label_refuted : exists l line, whole l 12 /\ (exists x, nmea_of (LNumber 12) line = Some (Some x)) /\ nmea_of (LText l) line = Some None.
Proof.
  exists (txt "12"), (log_line "123519.500"). split; [change (txt "12") with ([] ++ pad 2 12 ++ []); constructor; [intros c []|intros c []|split; [lia|cbn; lia]]|].
  split; [eexists; reflexivity|reflexivity].
Qed.
Print Assumptions C218_label_refuted.
Open Scope R_scope.
(** A degree of longitude being 111111 m times the cosine of the latitude (the comment in the code), the deviations in
    latitude and in longitude are not the same length, nor are they the deviation of the northings. *)
Theorem C218_degrees_refuted : exists m, 0 < cos (g_lat m * PI / 180) /\
  let x := from_nmea (fun _ _ _ _ => (0, 0)) 0 0 (1 / 100) 0 0%Q m in
  f_lat_std x * 111111 <> f_north_std x /\ f_lon_std x * (111111 * cos (g_lat m * PI / 180)) <> f_lat_std x * 111111.
Proof.
  exists (mkgga [] 60 0 (- 100)). cbn [g_lat]. replace (60 * PI / 180) with (PI / 3) by field. rewrite cos_PI3. split; [Lra.lra|].
  unfold from_nmea. cbn. replace (60 * PI / 180) with (PI / 3) by field. rewrite cos_PI3. split; Lra.lra.
Qed.
Print Assumptions C218_degrees_refuted.
Open Scope Z_scope.

Example C217_example_tide : parse_polpred 1 5 (1 # 10) [repeat (txt "header") 6 ++ [txt " 6/ 9/2019  00:00       0.74      0.14       51"; txt "16/12/2019  13:45      -1.20      0.14       51"]] =
  Some [mktide (1567728000 + 0 / 1000000 - 3600 * 1 + 5)%Q (74 / 100)%Q (74 / 100 * (1 # 10))%Q;
        mktide (1576503900 + 0 / 1000000 - 3600 * 1 + 5)%Q (- (120 / 100))%Q (- (120 / 100) * (1 # 10))%Q].
Proof. reflexivity. Qed.
Example C217_example_nmea : option_map (option_map f_t) (nmea_of (LNumber 12) (log_line "123519.500")) = Some (Some (1567773319 + 0 / 1000000 - 3600 * 0 + 500 / 1000 + 0)%Q) /\
  nmea_of (LNumber 13) (log_line "123519.500") = Some None.
Proof. split; reflexivity. Qed.
Example C217_example_cti : option_map (map td_height) (parse_cti 0 0 0 [repeat (txt "header") 6 ++ [txt "2022-07-09T00:15:00Z,-1.13467,0.16603,78"]]) = Some [(- (113467 / 100000))%Q].
Proof. reflexivity. Qed.
