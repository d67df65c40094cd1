(** C261/C262: the image files of BioCam. *)
From Coq Require Import Ascii String.
From Verif Require Import PyBase NmeaModel NmeaProofs CsvModel CsvProps LatlonModel LatlonProps FilesModel FilesProps TimeModel TimeSpec TimeProofs UsblSpec UsblProofs StereoModel StereoProofs StereoProps SssProps BioListModel.
From Coq Require Import NArith Nnat.
Open Scope list_scope.
Open Scope Q_scope.

(** ** Which files *)
Definition ends (s : string) (n : text) : Prop := exists u, n = u ++ txt s.
Definition visible (n : text) : Prop := forall v, n <> txt "." ++ v.
(** A file of name [n] in a folder [dir], or in a folder below it *)
Definition strobe (label : text) (f : file) : Prop := exists n, f = [label ++ txt "_strobe"; n] /\ visible n /\ ends ".tif" n.
Definition laser_tif (label : text) (f : file) : Prop := exists n, f = [label ++ txt "_laser"; n] /\ visible n /\ ends ".tif" n.
Definition laser_jpg (label : text) (f : file) : Prop :=
  exists dirs n, f = (label ++ txt "_laser") :: dirs ++ [n] /\ Forall visible dirs /\ visible n /\ ends ".jpg" n.
(** No path has ".txt" or "._" in it, and ".jpg" is only in those of files whose name ends with it. *)
Definition tidy (base : text) (fs : list file) : Prop := forall f, In f fs ->
  ~ occurs (txt ".txt") (line base f) /\ ~ occurs (txt "._") (line base f) /\
  (occurs (txt ".jpg") (line base f) -> ends ".jpg" (last f [])).

Lemma suffixed_iff : forall s n, suffixed s n = true <-> exists u, n = u ++ s.
Proof.
  intros s n. unfold suffixed. rewrite text_eqb_iff. split.
  - intros H. exists (firstn (length n - length s) n). rewrite <- H at 2. symmetry. apply firstn_skipn.
  - intros (u & ->). rewrite app_length. replace (length u + length s - length s)%nat with (length u) by lia. rewrite skipn_app, skipn_all, Nat.sub_diag. reflexivity.
Qed.
Lemma hidden_iff : forall n, hidden n = false <-> visible n.
Proof.
  intros n. unfold hidden, visible. destruct (prefix (txt ".") n) eqn:E.
  - split; [discriminate|]. intros H. apply prefix_iff in E as (v & E). now elim (H v).
  - split; [|reflexivity]. intros _ v H. assert (prefix (txt ".") n = true) by (apply prefix_iff; now exists v). congruence.
Qed.
Lemma matches_iff : forall s n, matches (txt s) n = true <-> visible n /\ ends s n.
Proof.
  intros s n. unfold matches. rewrite andb_true_iff, negb_true_iff, hidden_iff, suffixed_iff. reflexivity.
Qed.
Lemma directly_iff : forall dir s f, directly dir (txt s) f = true <-> exists n, f = [dir; n] /\ visible n /\ ends s n.
Proof.
  intros dir s f. split.
  - destruct f as [|d [|n [|]]]; try discriminate. cbn [directly]. rewrite andb_true_iff, text_eqb_iff, matches_iff. intros [-> H]. now exists n.
  - intros (n & -> & H). cbn [directly]. rewrite andb_true_iff, text_eqb_iff, matches_iff. auto.
Qed.
Lemma below_iff : forall s f, below (txt s) f = true <-> exists dirs n, f = dirs ++ [n] /\ Forall visible dirs /\ visible n /\ ends s n.
Proof.
  intros s. induction f as [|d f IH].
  - split; [discriminate|]. intros ([|] & n & E & _); discriminate.
  - destruct f as [|e f].
    + cbn [below]. rewrite matches_iff. split.
      * intros [V E]. exists [], d. repeat split; auto.
      * intros (dirs & n & E & _ & V & S). destruct dirs as [|x dirs]; [injection E as ->; auto|]. destruct dirs; discriminate.
    + change (below (txt s) (d :: e :: f)) with (negb (hidden d) && below (txt s) (e :: f))%bool. rewrite andb_true_iff, negb_true_iff, hidden_iff, IH. split.
      * intros (V & dirs & n & E & F & R). exists (d :: dirs), n. rewrite E. split; [reflexivity|]. split; [now constructor|exact R].
      * intros (dirs & n & E & F & R). destruct dirs as [|x dirs]; [discriminate|]. injection E as -> E. inversion F; subst. split; [assumption|]. now exists dirs, n.
Qed.
Lemma found_iff : forall label fs f, In f (found label fs) <-> In f fs /\ (strobe label f \/ laser_jpg label f \/ laser_tif label f).
Proof.
  intros label fs f. unfold found. rewrite !in_app_iff, !filter_In, !directly_iff. unfold strobe, laser_tif.
  assert (anywhere (label ++ txt "_laser") (txt ".jpg") f = true <-> laser_jpg label f) as ->; [|tauto].
  destruct f as [|d f]; [split; [discriminate|intros (dirs & n & E & _); discriminate]|]. cbn [anywhere]. rewrite andb_true_iff, text_eqb_iff, below_iff. split.
  - intros (-> & dirs & n & -> & R). now exists dirs, n.
  - intros (dirs & n & E & R). injection E as -> ->. split; [reflexivity|]. now exists dirs, n.
Qed.
Lemma txt_app : forall n s s', ends s n -> ends s' n -> (String.length s = String.length s') -> txt s = txt s'.
Proof.
  intros n s s' (u & ->) (u' & E) L. assert (length (txt s) = length (txt s')) as K.
  { unfold txt. rewrite !map_length. clear E. revert s' L. induction s; intros [|]; cbn; intros L; try lia; auto. }
  apply (f_equal (skipn (length u))) in E as E2. rewrite skipn_app, skipn_all, Nat.sub_diag in E2. cbn [app skipn] in E2.
  assert (length u = length u') as U by (apply (f_equal (@length N)) in E; rewrite !app_length in E; lia).
  rewrite U, skipn_app, skipn_all, Nat.sub_diag in E2. exact E2.
Qed.
Lemma tif_not_jpg : forall n, ends ".tif" n -> ~ ends ".jpg" n.
Proof. intros n A B. pose proof (txt_app n _ _ A B eq_refl) as E. discriminate. Qed.
Lemma jpg_last : forall label f, laser_jpg label f -> ends ".jpg" (last f []).
Proof.
  intros label f (dirs & n & -> & _ & _ & E). rewrite app_comm_cons, last_last. exact E.
Qed.
Lemma occurs_last : forall s base f, f <> [] -> ends s (last f []) -> occurs (txt s) (line base f).
Proof.
  intros s base f NE (u & E). unfold line. destruct (exists_last NE) as (g & n & ->). rewrite last_last in E. subst n.
  assert (exists w, join slash (g ++ [u ++ txt s]) = w ++ txt s) as (w & ->).
  { clear NE. induction g as [|d g (w & IH)]; [exists u; reflexivity|]. exists (d ++ slash :: w). cbn [app]. 
    destruct (g ++ [u ++ txt s]) as [|e l] eqn:G; [destruct g; discriminate|]. change (join slash (d :: e :: l)) with (d ++ slash :: join slash (e :: l)). rewrite IH, <- app_assoc. reflexivity. }
  exists (base ++ slash :: w), []. rewrite app_nil_r, <- app_assoc. reflexivity.
Qed.
Lemma no_occurs : forall s base f, ~ occurs (txt s) (line base f) <-> has base s f = false.
Proof. intros s base f. unfold has. rewrite <- contains_iff. destruct (contains _ _); split; congruence. Qed.
Lemma camera1_iff : forall base label fs f, tidy base fs -> In f (camera1 base label fs) <-> In f fs /\ (strobe label f \/ laser_jpg label f \/ laser_tif label f).
Proof.
  intros base label fs f T. unfold camera1. rewrite filter_In, found_iff, andb_true_iff, !negb_true_iff, <- !no_occurs. split; [tauto|]. intros H. split; [exact H|]. destruct (T f (proj1 H)) as (A & B & _). auto.
Qed.
Lemma camera2_iff : forall base label fs f, tidy base fs -> In f (camera2 base label fs) <-> In f fs /\ (strobe label f \/ laser_tif label f).
Proof.
  intros base label fs f T. unfold camera2. rewrite filter_In, found_iff, andb_true_iff, !negb_true_iff, <- !no_occurs. split.
  - intros ((I & [S|[J|L]]) & _ & N); [tauto| |tauto]. elim N. apply occurs_last; [|eapply jpg_last; exact J]. destruct J as (dirs & n & -> & _). discriminate.
  - intros (I & H). destruct (T f I) as (A & B & C). split; [tauto|]. split; [exact A|]. intros O. apply C in O.
    destruct H as [(n & -> & _ & E)|(n & -> & _ & E)]; exact (tif_not_jpg _ E O).
Qed.
Lemma camera3_iff : forall base label fs f, tidy base fs -> In f (camera3 base label fs) <-> In f fs /\ laser_jpg label f.
Proof.
  intros base label fs f T. unfold camera3. rewrite filter_In, found_iff. split.
  - intros ((I & H) & C). unfold has in C. apply contains_iff in C. destruct (T f I) as (_ & _ & J). apply J in C. split; [exact I|].
    destruct H as [(n & -> & _ & E)|[H|(n & -> & _ & E)]]; [elim (tif_not_jpg _ E C)|exact H|elim (tif_not_jpg _ E C)].
  - intros (I & J). split; [tauto|]. unfold has. apply contains_iff. apply occurs_last; [|eapply jpg_last; exact J]. destruct J as (dirs & n & -> & _). discriminate.
Qed.

(** ** Their times *)
(** Date, time and fraction of a second as they are written: yyyymmdd_hhmmss_ followed by three or by six digits; [us]: microseconds *)
Definition stamp_text (c : civil) (us : Z) (t : text) : Prop := exists y mo d h mi s u,
  t = (y ++ mo ++ d) ++ txt "_" ++ (h ++ mi ++ s) ++ txt "_" ++ u /\
  numeral y 4 (c_y c) /\ numeral mo 2 (c_mo c) /\ numeral d 2 (c_d c) /\ numeral h 2 (c_h c) /\ numeral mi 2 (c_mi c) /\ numeral s 2 (c_s c) /\
  (numeral u 6 us \/ exists ms, numeral u 3 ms /\ us = (ms * 1000)%Z).
(** Stamp of the computer, stamp of the camera, anything *)
Definition named (c : civil) (us : Z) (c' : civil) (us' : Z) (n : text) : Prop :=
  exists t t' rest, n = t ++ txt "_" ++ t' ++ txt "_" ++ rest /\ stamp_text c us t /\ stamp_text c' us' t'.
(** The time of a date on a clock [tz] hours ahead, moved by [off] seconds *)
Definition taken (tz off : Q) (c : civil) (us : Z) (t : Q) : Prop :=
  exists n, seconds_after_1970 n c /\ t == inject_Z n + inject_Z us / 1000000 - 3600 * tz + off.
Definition dated (c : civil) : Prop := valid_civil c /\ (2000 <= c_y c <= 9998)%Z.

Lemma numeral_digits : forall t n z, numeral t n z -> length t = n /\ digits 0 t = Some z.
Proof.
  intros t n z (ds & -> & D & L & V). split; [unfold spelled; now rewrite map_length|]. rewrite (digits_value ds 0 D). f_equal. lia.
Qed.
Lemma numeral_int : forall t n z, (0 < n)%nat -> numeral t n z -> int_of t = Some z.
Proof. intros t n z P H. apply numeral_digits in H as [L D]. unfold int_of. destruct t; [cbn in L; lia|exact D]. Qed.
Lemma numeral_chars : forall t n z c, numeral t n z -> In c t -> (48 <= c <= 57)%N.
Proof. intros t n z c (ds & -> & D & _) I. unfold spelled in I. apply in_map_iff in I as (d & <- & I). specialize (D d I). lia. Qed.
Lemma counted : forall c, valid_civil c -> (1970 <= c_y c)%Z -> seconds_after_1970 (csec c) c.
Proof.
  intros c V Y. assert (0 <= csec c)%Z as P.
  { pose proof V as V'. apply valid_civil_fields in V' as (Hm & Hd & Hh & Hmi & Hs). pose proof (ymd2ord_range _ _ _ Hm Hd) as R.
    pose proof (dby_monotone 1970 (c_y c - 1970) ltac:(lia)) as L. replace (1970 + (c_y c - 1970))%Z with (c_y c) in L by lia.
    change (days_before_year 1970) with 719162%Z in L. unfold csec, utc_seconds. lia. }
  destruct (seconds_after_1970_exists _ P) as (c' & S). destruct (seconds_after_1970_csec _ _ S) as (E & V' & _). now rewrite (csec_inj c c' V V' (eq_sym E)) at 2.
Qed.
Lemma epoch_zone : forall c tz, dated c -> -24 <= tz <= 24 ->
  exists t, date_time_to_epoch (c_y c) (c_mo c) (c_d c) (c_h c) (c_mi c) (c_s c) tz 0 = Some t /\ t == inject_Z (csec c) - 3600 * tz.
Proof.
  intros c tz [V Y] Z. unfold date_time_to_epoch. rewrite (valid_fields_spec c 0 ltac:(lia) ltac:(lia) V). cbv zeta. change (utc_seconds _ _ _ _ _ _) with (csec c).
  set (t := inject_Z (csec c) + inject_Z 0 / 1000000 - 3600 * tz). assert (t == inject_Z (csec c) - 3600 * tz) as E by (unfold t; change (inject_Z 0) with 0; field).
  assert (0 <= csec c <= 253402300800 - 365 * 86400)%Z as B.
  { pose proof V as V'. apply valid_civil_fields in V' as (Hm & Hd & Hh & Hmi & Hs). pose proof (ymd2ord_range _ _ _ Hm Hd) as R.
    pose proof (dby_monotone 1970 (c_y c - 1970) ltac:(lia)) as L. replace (1970 + (c_y c - 1970))%Z with (c_y c) in L by lia.
    pose proof (dby_monotone (c_y c + 1) (9999 - (c_y c + 1)) ltac:(lia)) as U. replace (c_y c + 1 + (9999 - (c_y c + 1)))%Z with 9999%Z in U by lia.
    change (days_before_year 1970) with 719162%Z in L. change (days_before_year 9999) with 3651694%Z in U. unfold csec, utc_seconds. lia. }
  assert (inject_Z 0 <= inject_Z (csec c) /\ inject_Z (csec c) <= inject_Z (253402300800 - 365 * 86400)) as [B1 B2] by (rewrite <- !Zle_Qle; lia).
  exists t. split; [|exact E]. rewrite (proj2 (Qle_bool_iff _ _)), (proj2 (Qltb_lt _ _)); [reflexivity| |].
  - rewrite E. apply Qle_lt_trans with (inject_Z (253402300800 - 365 * 86400) + 3600 * 24); [lra|reflexivity].
  - rewrite E. apply Qle_trans with (0 - 3600 * 24); [discriminate|]. change (inject_Z 0) with 0 in B1. lra.
Qed.
Lemma slice_at : forall (a b c : text) i j, length a = i -> (length a + length b = j)%nat -> slice i j (a ++ b ++ c) = b.
Proof.
  intros a b c i j <- <-. unfold slice. rewrite skipn_app, skipn_all, Nat.sub_diag. cbn [app skipn].
  replace (length a + length b - length a)%nat with (length b) by lia. rewrite firstn_app, firstn_all, Nat.sub_diag. cbn. apply app_nil_r.
Qed.
(** The three parts of a stamp are read as its time. *)
Lemma time_read : forall y mo d h mi s u c us tz off,
  numeral y 4 (c_y c) -> numeral mo 2 (c_mo c) -> numeral d 2 (c_d c) -> numeral h 2 (c_h c) -> numeral mi 2 (c_mi c) -> numeral s 2 (c_s c) ->
  (numeral u 6 us \/ exists ms, numeral u 3 ms /\ us = (ms * 1000)%Z) -> dated c -> -24 <= tz <= 24 ->
  exists t, time_from_string (y ++ mo ++ d) (h ++ mi ++ s) u tz off = Some t /\ taken tz off c us t.
Proof.
  intros y mo d h mi s u c us tz off Y MO D H MI S U DC Z. pose proof (numeral_digits _ _ _ Y) as [LY _]. pose proof (numeral_digits _ _ _ MO) as [LMO _].
  pose proof (numeral_digits _ _ _ D) as [LD _]. pose proof (numeral_digits _ _ _ H) as [LH _]. pose proof (numeral_digits _ _ _ MI) as [LMI _]. pose proof (numeral_digits _ _ _ S) as [LS _].
  unfold time_from_string.
  replace (slice 0 4 (y ++ mo ++ d)) with y by (symmetry; apply (slice_at [] y (mo ++ d)); cbn; lia).
  replace (slice 4 6 (y ++ mo ++ d)) with mo by (symmetry; apply slice_at; lia).
  replace (slice 6 8 (y ++ mo ++ d)) with d by (rewrite <- (app_nil_r d) at 2; rewrite app_assoc; symmetry; apply slice_at; rewrite app_length; lia).
  replace (slice 0 2 (h ++ mi ++ s)) with h by (symmetry; apply (slice_at [] h (mi ++ s)); cbn; lia).
  replace (slice 2 4 (h ++ mi ++ s)) with mi by (symmetry; apply slice_at; lia).
  replace (slice 4 6 (h ++ mi ++ s)) with s by (rewrite <- (app_nil_r s) at 2; rewrite app_assoc; symmetry; apply slice_at; rewrite app_length; lia).
  rewrite (numeral_int y 4 _ ltac:(lia) Y), (numeral_int mo 2 _ ltac:(lia) MO), (numeral_int d 2 _ ltac:(lia) D), (numeral_int h 2 _ ltac:(lia) H), (numeral_int mi 2 _ ltac:(lia) MI), (numeral_int s 2 _ ltac:(lia) S).
  cbn [bind].
  assert ((if (length u =? 6)%nat then bind (int_of (slice 0 6 u)) (fun u => Some (Some u))
        else if (length u =? 3)%nat then bind (int_of (slice 0 3 u)) (fun m => Some (Some (m * 1000)%Z))
        else Some None) = Some (Some us)) as ->.
  { destruct U as [U|(ms & U & ->)]; pose proof (numeral_digits _ _ _ U) as [L _]; rewrite L; cbn [Nat.eqb];
      [replace (slice 0 6 u) with u by (rewrite <- (app_nil_r u) at 2; symmetry; apply (slice_at [] u []); cbn; lia)
      |replace (slice 0 3 u) with u by (rewrite <- (app_nil_r u) at 2; symmetry; apply (slice_at [] u []); cbn; lia)];
      [rewrite (numeral_int u 6 _ ltac:(lia) U)|rewrite (numeral_int u 3 _ ltac:(lia) U)]; reflexivity. }
  cbn [bind]. destruct (Z.ltb_spec (c_y c) 2000) as [B|_]; [destruct DC as [_ ?]; lia|].
  destruct (epoch_zone c tz DC Z) as (t & -> & E). cbn [bind]. eexists. split; [reflexivity|]. exists (csec c). destruct DC as [V R]. split; [apply counted; [exact V|lia]|]. rewrite E. ring.
Qed.
Lemma numeral_free : forall t n z, numeral t n z -> ~ In underscore t.
Proof. intros t n z H I. apply (numeral_chars _ _ _ _ H) in I. unfold underscore in I. lia. Qed.
Lemma digit_plain : forall t n z, numeral t n z -> forall c, In c t -> is_space c = false.
Proof. intros t n z H c I. apply (numeral_chars _ _ _ _ H) in I. unfold is_space. repeat (rewrite ?orb_false_iff, ?andb_false_iff, ?N.leb_gt, ?N.eqb_neq; try split); lia. Qed.
(** A stamped name gives the two times written in it. *)
Theorem C261_times : forall tz off c us c' us' n, named c us c' us' n -> dated c -> dated c' -> -24 <= tz <= 24 ->
  exists t t', stamps tz off n = Some (t, t') /\ taken tz off c us t /\ taken tz off c' us' t'.
Proof.
  intros tz off c us c' us' n (t & t' & rest & -> & (y & mo & d & h & mi & s & u & -> & Y & MO & D & H & MI & S & U) & (y' & mo' & d' & h' & mi' & s' & u' & -> & Y' & MO' & D' & H' & MI' & S' & U')) DC DC' Z.
  assert (forall u us, (numeral u 6 us \/ exists ms, numeral u 3 ms /\ us = (ms * 1000)%Z) -> exists k z, numeral u k z) as W
    by (intros ? ? [?|(? & ? & _)]; eauto).
  destruct (W _ _ U) as (k & z & NU), (W _ _ U') as (k' & z' & NU'). clear W.
  assert (strip (((y ++ mo ++ d) ++ txt "_" ++ (h ++ mi ++ s) ++ txt "_" ++ u) ++ txt "_" ++ ((y' ++ mo' ++ d') ++ txt "_" ++ (h' ++ mi' ++ s') ++ txt "_" ++ u') ++ txt "_" ++ rest)
    = (y ++ mo ++ d) ++ underscore :: (h ++ mi ++ s) ++ underscore :: u ++ underscore :: (y' ++ mo' ++ d') ++ underscore :: (h' ++ mi' ++ s') ++ underscore :: u' ++ underscore :: rstrip rest) as P.
  { change (txt "_") with [underscore].
    replace (((y ++ mo ++ d) ++ [underscore] ++ (h ++ mi ++ s) ++ [underscore] ++ u) ++ [underscore] ++ ((y' ++ mo' ++ d') ++ [underscore] ++ (h' ++ mi' ++ s') ++ [underscore] ++ u') ++ [underscore] ++ rest)
      with (((y ++ mo ++ d) ++ underscore :: (h ++ mi ++ s) ++ underscore :: u ++ underscore :: (y' ++ mo' ++ d') ++ underscore :: (h' ++ mi' ++ s') ++ underscore :: u') ++ underscore :: rest)
      by (repeat (cbn [app]; rewrite <- ?app_assoc); cbn [app]; repeat f_equal).
    rewrite strip_mid by reflexivity. rewrite lstrip_id.
    - repeat (cbn [app]; rewrite <- ?app_assoc); cbn [app]; repeat f_equal.
    - intros x I. repeat (rewrite ?in_app_iff in I; cbn [In] in I).
      repeat match type of I with _ \/ _ => destruct I as [I|I] end; try (subst x; reflexivity);
      match type of I with In _ ?l => match goal with G : numeral l _ _ |- _ => exact (digit_plain _ _ _ G x I) end end. }
  unfold stamps. rewrite P. clear P.
  assert (forall a b e i j k x y' z', numeral a i x -> numeral b j y' -> numeral e k z' -> ~ In underscore (a ++ b ++ e)) as F3.
  { intros a b e i j l x v w A B E I. rewrite !in_app_iff in I. destruct I as [I|[I|I]]; [apply (numeral_free _ _ _ A I)|apply (numeral_free _ _ _ B I)|apply (numeral_free _ _ _ E I)]. }
  rewrite (split_app _ (y ++ mo ++ d)) by (eapply F3; eassumption). rewrite (split_app _ (h ++ mi ++ s)) by (eapply F3; eassumption). rewrite (split_app _ u) by (eapply numeral_free; eassumption).
  rewrite (split_app _ (y' ++ mo' ++ d')) by (eapply F3; eassumption). rewrite (split_app _ (h' ++ mi' ++ s')) by (eapply F3; eassumption). rewrite (split_app _ u') by (eapply numeral_free; eassumption).
  destruct (split_nonempty underscore (rstrip rest)) as (w & ws & ->). cbn [length Nat.ltb Nat.leb nth_error bind].
  destruct (time_read y mo d h mi s u c us tz off Y MO D H MI S U DC Z) as (v & -> & T). cbn [bind].
  destruct (time_read y' mo' d' h' mi' s' u' c' us' tz off Y' MO' D' H' MI' S' U' DC' Z) as (v' & -> & T'). cbn [bind]. exists v, v'. auto.
Qed.
Print Assumptions C261_times.

(** ** The records *)
Definition readable (f : file) : Prop := exists c us c' us', named c us c' us' (last f []) /\ dated c /\ dated c'.
(** The two times of an image are those in its file's name. *)
Definition timed (tz off : Q) (s : shot) : Prop :=
  exists c us c' us', named c us c' us' (last (s_file s) []) /\ taken tz off c us (s_cpu s) /\ taken tz off c' us' (s_cam s).
Lemma shots_read : forall tz off fs, -24 <= tz <= 24 -> (forall f, In f fs -> readable f) ->
  exists l, shots tz off fs = Some l /\ map s_file l = fs /\ (forall s, In s l -> timed tz off s).
Proof.
  intros tz off fs Z. induction fs as [|f fs IH]; intros H; [exists []; split; [reflexivity|split; [reflexivity|intros s []]]|].
  destruct IH as (l & E & M & T); [intros g I; apply H; now right|].
  destruct (H f (or_introl eq_refl)) as (c & us & c' & us' & N & D & D'). destruct (C261_times tz off c us c' us' _ N D D' Z) as (t & t' & ES & A & B).
  cbn [shots]. unfold name_of. rewrite ES. cbn [bind fst snd]. rewrite E. cbn [bind]. exists (mkshot f t t' :: l). split; [reflexivity|]. split; [cbn; now rewrite M|].
  intros s [<-|I]; [|auto]. exists c, us, c', us'. cbn. auto.
Qed.
Lemma shot_image : forall s, shot_of (image_of s) = s.
Proof. now intros [f a b]. Qed.
Lemma nodup_app : forall A (a b : list A), NoDup a -> NoDup b -> (forall x, In x a -> ~ In x b) -> NoDup (a ++ b).
Proof.
  induction a as [|x a IH]; intros b NA NB D; [exact NB|]. inversion NA as [|? ? NI NA']; subst. cbn. constructor.
  - rewrite in_app_iff. intros [I|I]; [auto|]. apply (D x); [now left|exact I].
  - apply IH; auto. intros y I. apply D. now right.
Qed.
Lemma folders : forall label n n' f, f = [label ++ txt "_strobe"; n] -> f <> [label ++ txt "_laser"; n'].
Proof. intros label n n' f -> E. injection E as E _. apply app_inv_head in E. discriminate. Qed.
Lemma found_once : forall label fs, NoDup fs -> NoDup (found label fs).
Proof.
  intros label fs D. unfold found. apply nodup_app; [now apply NoDup_filter| |].
  - apply nodup_app; try now apply NoDup_filter. intros f. rewrite !filter_In, directly_iff. intros [_ A] [_ (n & -> & _ & T)]. cbn [anywhere] in A.
    apply andb_true_iff in A as [_ A]. cbn [below] in A. apply matches_iff in A as [_ A]. exact (tif_not_jpg _ T A).
  - intros f. rewrite in_app_iff, !filter_In, !directly_iff. intros [_ (n & E & _ & T)] [[_ A]|[_ (n' & E' & _)]].
    + subst f. cbn [anywhere] in A. apply andb_true_iff in A as [A _]. apply text_eqb_iff in A. apply app_inv_head in A. discriminate.
    + exact (folders label n n' f E E').
Qed.

Section Records.
  Variables (tz off : Q) (base label1 label2 : text) (fs : list file).
  Hypothesis zone : -24 <= tz <= 24.
  Hypothesis disk : tidy base fs.
  (** The names of all images of the two cameras are stamped. *)
  Hypothesis names : forall f label, In f fs -> (label = label1 \/ label = label2) -> strobe label f \/ laser_jpg label f \/ laser_tif label f -> readable f.

  Definition of_camera1 (f : file) : Prop := In f fs /\ (strobe label1 f \/ laser_jpg label1 f \/ laser_tif label1 f).
  Definition of_camera2 (f : file) : Prop := In f fs /\ (strobe label2 f \/ laser_tif label2 f).

  Lemma parts : exists l1 l2 l3, shots tz off (camera1 base label1 fs) = Some l1 /\ shots tz off (camera2 base label2 fs) = Some l2 /\ shots tz off (camera3 base label2 fs) = Some l3 /\
    map s_file l1 = camera1 base label1 fs /\ map s_file l2 = camera2 base label2 fs /\ map s_file l3 = camera3 base label2 fs /\
    (forall s, In s l1 -> timed tz off s) /\ (forall s, In s l2 -> timed tz off s) /\ (forall s, In s l3 -> timed tz off s).
  Proof.
    destruct (shots_read tz off (camera1 base label1 fs) zone) as (l1 & E1 & M1 & T1).
    { intros f I. apply camera1_iff in I as [I K]; [|exact disk]. exact (names f label1 I (or_introl eq_refl) K). }
    destruct (shots_read tz off (camera2 base label2 fs) zone) as (l2 & E2 & M2 & T2).
    { intros f I. apply camera2_iff in I as [I K]; [|exact disk]. apply (names f label2 I (or_intror eq_refl)). tauto. }
    destruct (shots_read tz off (camera3 base label2 fs) zone) as (l3 & E3 & M3 & T3).
    { intros f I. apply camera3_iff in I as [I K]; [|exact disk]. apply (names f label2 I (or_intror eq_refl)). tauto. }
    exists l1, l2, l3. auto 12.
  Qed.
  Lemma in_files : forall l (fl : list file) f, map s_file l = fl -> In f fl -> exists s, In s l /\ s_file s = f.
  Proof. intros l fl f <- I. apply in_map_iff in I as (s & E & I). eauto. Qed.

  (** Records come out, unless there are images of the first camera and none of the second. *)
  Theorem C261_parsed : (exists f, of_camera2 f) \/ (forall f, ~ of_camera1 f) -> exists es, parse_images tz off base label1 label2 fs = Some es.
  Proof.
    intros H. destruct parts as (l1 & l2 & l3 & E1 & E2 & E3 & M1 & M2 & M3 & _). unfold parse_images. rewrite E1, E2, E3. cbn [bind].
    destruct (C29_pairs (file * Q) BiocamImages tolerance (mkCams (map image_of l1) (map image_of l2))) as (ps & -> & _); [|cbn [bind]; eauto].
    destruct H as [(f & H)|H]; [left|right]; cbn [right_list right_images left_images].
    - apply (camera2_iff base) in H; [|exact disk]. rewrite <- M2 in H. destruct l2; [destruct H|discriminate].
    - destruct l1 as [|s l1]; [reflexivity|]. elim (H (s_file s)). apply (camera1_iff base); [exact disk|]. rewrite <- M1. now left.
  Qed.

  Variable es : list entry.
  Hypothesis result : parse_images tz off base label1 label2 fs = Some es.

  Lemma entries : exists l1 l2 l3 ps, es = map (fun p => Stereo (shot_of (fst p)) (shot_of (snd p))) ps ++ map Laser l3 /\
    parse_alone BiocamImages tolerance (mkCams (map image_of l1) (map image_of l2)) = Some ps /\ (l2 <> [] \/ l1 = []) /\
    map s_file l1 = camera1 base label1 fs /\ map s_file l2 = camera2 base label2 fs /\ map s_file l3 = camera3 base label2 fs /\
    (forall s, In s l1 -> timed tz off s) /\ (forall s, In s l2 -> timed tz off s) /\ (forall s, In s l3 -> timed tz off s).
  Proof.
    destruct parts as (l1 & l2 & l3 & E1 & E2 & E3 & M). unfold parse_images in result. rewrite E1, E2, E3 in result. cbn [bind] in result.
    destruct (parse_alone BiocamImages tolerance (mkCams (map image_of l1) (map image_of l2))) as [ps|] eqn:EP; [|discriminate]. injection result as <-.
    exists l1, l2, l3, ps. split; [reflexivity|]. split; [exact EP|]. split; [|exact M].
    destruct l2 as [|s l2]; [right|left; discriminate]. destruct l1 as [|s l1]; [reflexivity|]. exfalso.
    destruct (C129_no_right_image (file * Q) tolerance (mkCams (map image_of (s :: l1)) (map image_of []))) as [X _]; [reflexivity|discriminate|]. congruence.
  Qed.

  (** Every laser image of the second camera, in its folder or in one below it, has a record, once, and only those do; the times are those in its name. *)
  Theorem C261_lasers : (forall f, In f fs -> laser_jpg label2 f -> exists s, In (Laser s) es /\ s_file s = f) /\
    (forall s, In (Laser s) es -> In (s_file s) fs /\ laser_jpg label2 (s_file s) /\ timed tz off s) /\
    (NoDup fs -> forall i j s s', nth_error es i = Some (Laser s) -> nth_error es j = Some (Laser s') -> s_file s = s_file s' -> i = j).
  Proof.
    destruct entries as (l1 & l2 & l3 & ps & -> & _ & _ & _ & _ & M3 & _ & _ & T3).
    assert (forall s, In (Laser s) (map (fun p => Stereo (shot_of (fst p)) (shot_of (snd p))) ps ++ map Laser l3) <-> In s l3) as L.
    { intros s. rewrite in_app_iff, !in_map_iff. split; [intros [(p & E & _)|(x & E & I)]; [discriminate|now injection E as ->]|]. intros I. right. now exists s. }
    split; [|split].
    - intros f I J. destruct (in_files l3 _ f M3) as (s & IS & E); [apply camera3_iff; auto|]. exists s. rewrite L. auto.
    - intros s I. apply L in I. split; [|split]; [| |auto]; (assert (In (s_file s) (camera3 base label2 fs)) as C by (rewrite <- M3; now apply in_map)); apply camera3_iff in C; tauto.
    - intros D i j s s' HI HJ E. assert (NoDup (map s_file l3)) as N3 by (rewrite M3; apply NoDup_filter, found_once, D).
      set (front := map (fun p => Stereo (shot_of (fst p)) (shot_of (snd p))) ps) in *.
      assert (forall i s, nth_error (front ++ map Laser l3) i = Some (Laser s) -> (length front <= i)%nat /\ nth_error (map s_file l3) (i - length front) = Some (s_file s)) as K.
      { clear - front. intros i s H. destruct (Nat.lt_ge_cases i (length front)) as [Q|Q].
        - rewrite nth_error_app1 in H by exact Q. apply nth_error_In in H. apply in_map_iff in H as (p & X & _). discriminate.
        - rewrite nth_error_app2 in H by exact Q. split; [exact Q|]. rewrite nth_error_map in *. destruct (nth_error l3 (i - length front)); [|discriminate]. cbn in *. now injection H as ->. }
      apply K in HI as [LI HI]. apply K in HJ as [LJ HJ]. rewrite E in HI. rewrite <- HJ in HI.
      assert (i - length front = j - length front)%nat; [|lia]. eapply (proj1 (NoDup_nth_error _) N3); [|exact HI]. apply nth_error_Some. rewrite HI, HJ. discriminate.
  Qed.

  (** A pair is an image of the first camera and an image of the second, less than 50 ms apart, of the second camera's one of those nearest in time; and every image of the first
      camera that has one of the second within 50 ms is in a pair.  Laser images of the first camera count, whatever their format; of the second only TIFF files. *)
  Theorem C261_pairs : (forall a b, In (Stereo a b) es ->
      of_camera1 (s_file a) /\ of_camera2 (s_file b) /\ timed tz off a /\ timed tz off b /\ Qabs (s_cpu a - s_cpu b) < 5 # 100) /\
    (forall f g, of_camera1 f -> of_camera2 g -> exists a b, s_file a = f /\ s_file b = g /\ timed tz off a /\ timed tz off b /\
      (Qabs (s_cpu a - s_cpu b) < 5 # 100 -> exists b', In (Stereo a b') es) /\
      (forall b', In (Stereo a b') es -> Qabs (s_cpu a - s_cpu b') <= Qabs (s_cpu a - s_cpu b))).
  Proof.
    destruct entries as (l1 & l2 & l3 & ps & -> & EP & NE & M1 & M2 & _ & T1 & T2 & _).
    destruct (C29_pairs (file * Q) BiocamImages tolerance (mkCams (map image_of l1) (map image_of l2))) as (ps' & EP' & ORD & EACH & ALL).
    { destruct NE as [N|N]; [left|right]; cbn; [destruct l2; [congruence|discriminate]|now rewrite N]. }
    rewrite EP in EP'. injection EP' as <-. cbn [left_images right_list right_images] in *.
    assert (forall a b, In (Stereo a b) (map (fun p => Stereo (shot_of (fst p)) (shot_of (snd p))) ps ++ map Laser l3) <-> exists i j, In (i, j) ps /\ a = shot_of i /\ b = shot_of j) as L.
    { intros a b. rewrite in_app_iff, !in_map_iff. split.
      - intros [([i j] & E & I)|(x & E & _)]; [|discriminate]. injection E as <- <-. now exists i, j.
      - intros (i & j & I & -> & ->). left. now exists (i, j). }
    assert (forall i j, In (i, j) ps -> exists a, In a l1 /\ i = image_of a) as LEFT.
    { intros i j I. apply (in_map fst) in I. cbn in I. apply (subseq_In _ _ _ ORD) in I. apply in_map_iff in I as (a & <- & I). now exists a. }
    split.
    - intros a b I. apply L in I as (i & j & I & -> & ->). destruct (LEFT i j I) as (a & IA & ->). destruct (EACH _ _ I) as [[IR _] CL]. apply in_map_iff in IR as (b & <- & IB). rewrite !shot_image.
      split; [|split; [|split; [auto|split; [auto|exact CL]]]].
      + apply (camera1_iff base); [exact disk|]. rewrite <- M1. now apply in_map.
      + apply (camera2_iff base); [exact disk|]. rewrite <- M2. now apply in_map.
    - intros f g F G. apply (camera1_iff base) in F; [|exact disk]. apply (camera2_iff base) in G; [|exact disk].
      destruct (in_files l1 _ f M1 F) as (a & IA & EA), (in_files l2 _ g M2 G) as (b & IB & EB). exists a, b. split; [exact EA|]. split; [exact EB|]. split; [auto|]. split; [auto|]. split.
      + intros CL. destruct (ALL (image_of a) (image_of b)) as (j & I); [now apply in_map|now apply in_map|exact CL|]. exists (shot_of j). apply L. exists (image_of a), j. rewrite shot_image. auto.
      + intros b' I. apply L in I as (i & j & I & -> & ->). destruct (LEFT i j I) as (a' & _ & ->). destruct (EACH _ _ I) as [[IR NR] _]. specialize (NR (image_of b) (in_map image_of _ _ IB)).
        apply in_map_iff in IR as (b' & <- & IB'). rewrite !shot_image. exact NR.
  Qed.
End Records.
Print Assumptions C261_parsed.
Print Assumptions C261_lasers.
Print Assumptions C261_pairs.

(** ** Where the laser images are put *)
(** With the format "biocam", two cameras of which the second and only the second records the laser: they are at the second camera's position and under its name.  With another format and three
    cameras they are at the third camera's, under its name. *)
Theorem C261_poses : forall A (o1 o2 o3 : A) a b c, 
  (records_laser a = false -> records_laser b = true -> laser_poses "biocam" [a; b] o1 o2 o3 = Some (o2, c_name b ++ txt "_laser")) /\
  (forall format, format <> "biocam"%string -> laser_poses format [a; b; c] o1 o2 o3 = Some (o3, c_name c ++ txt "_laser")).
Proof.
  intros A o1 o2 o3 a b c. split.
  - intros HA HB. unfold laser_poses, laser_offsets. cbn. now rewrite HA, HB.
  - intros format H. unfold laser_poses, laser_offsets. apply String.eqb_neq in H. rewrite H. reflexivity.
Qed.
Print Assumptions C261_poses.

Definition gray := txt "cam61008031".
Definition rgb := txt "cam61004444".
Definition at_base := txt "/dive/image".
Definition shot_name (ext : string) := txt ("20181222_094012_250000_20181222_094011_000_pcoc" ++ ext).
Definition ex_disk : list file :=
  [[gray ++ txt "_strobe"; shot_name ".tif"]; [rgb ++ txt "_strobe"; txt "20181222_094012_260_20181222_094011_010000_pcom.tif"];
   [rgb ++ txt "_laser"; txt "001"; txt "20181222_094013_000500_20181222_094011_900_pcom.jpg"]; [txt "notes.txt"]].
Example C261_example : exists t t' u u' v v', parse_images 0 0 at_base gray rgb ex_disk =
  Some [Stereo (mkshot [gray ++ txt "_strobe"; shot_name ".tif"] t t') (mkshot [rgb ++ txt "_strobe"; txt "20181222_094012_260_20181222_094011_010000_pcom.tif"] u u');
        Laser (mkshot [rgb ++ txt "_laser"; txt "001"; txt "20181222_094013_000500_20181222_094011_900_pcom.jpg"] v v')] /\
  t == 1545471612 + (25 # 100) /\ t' == 1545471611 /\ u == 1545471612 + (26 # 100) /\ v == 1545471613 + (5 # 10000) /\ v' == 1545471611 + (9 # 10).
Proof. do 6 eexists. split; [vm_compute; reflexivity|]. repeat split; reflexivity. Qed.
(** The parts of the theorems' conditions are met by the files of the example. *)
Example C261_readable : readable [gray ++ txt "_strobe"; shot_name ".tif"].
Proof.
  exists (mkCivil 2018 12 22 9 40 12), 250000%Z, (mkCivil 2018 12 22 9 40 11), 0%Z. split; [|split; (split; [apply valid_civil_fields; cbn; lia|cbn; lia])].
  assert (forall s ds n z, txt s = spelled ds -> (forall d, In d ds -> 0 <= d <= 9)%Z -> length ds = n -> place_value ds = z -> numeral (txt s) n z) as W by (intros s ds n z E D L V; exists ds; auto).
  exists (txt "20181222_094012_250000"), (txt "20181222_094011_000"), (txt "pcoc.tif"). split; [reflexivity|]. split.
  - exists (txt "2018"), (txt "12"), (txt "22"), (txt "09"), (txt "40"), (txt "12"), (txt "250000"). split; [reflexivity|].
    repeat split; [apply (W _ [2; 0; 1; 8]%Z)|apply (W _ [1; 2]%Z)|apply (W _ [2; 2]%Z)|apply (W _ [0; 9]%Z)|apply (W _ [4; 0]%Z)|apply (W _ [1; 2]%Z)|left; apply (W _ [2; 5; 0; 0; 0; 0]%Z)];
      try reflexivity; cbn; intros d H; lia.
  - exists (txt "2018"), (txt "12"), (txt "22"), (txt "09"), (txt "40"), (txt "11"), (txt "000"). split; [reflexivity|].
    repeat split; [apply (W _ [2; 0; 1; 8]%Z)|apply (W _ [1; 2]%Z)|apply (W _ [2; 2]%Z)|apply (W _ [0; 9]%Z)|apply (W _ [4; 0]%Z)|apply (W _ [1; 1]%Z)|right; exists 0%Z; split; [apply (W _ [0; 0; 0]%Z)|]];
      try reflexivity; cbn; intros d H; lia.
Qed.

(** ** C262 *)
Definition files_of (es : option (list entry)) : option (list (list file)) :=
  match es with Some es => Some (map (fun e => match e with Stereo a b => [s_file a; s_file b] | Laser c => [s_file c] end) es) | None => None end.
(** If it is the first camera that records the laser, its laser images are no laser records: they are taken for the first images of pairs. *)
Theorem C262_first_refuted : exists fs a b f g, records_laser a = true /\ laser_jpg (c_name a) f /\ strobe (c_name b) g /\ fs = [f; g] /\
  files_of (parse_images 0 0 at_base (c_name a) (c_name b) fs) = Some [[f; g]].
Proof.
  exists [[gray ++ txt "_laser"; shot_name ".jpg"]; [rgb ++ txt "_strobe"; shot_name ".tif"]], (mkcamera gray true), (mkcamera rgb false).
  exists [gray ++ txt "_laser"; shot_name ".jpg"], [rgb ++ txt "_strobe"; shot_name ".tif"]. split; [reflexivity|].
  assert (forall ext, visible (shot_name ext)) as V by (intros ext v E; discriminate).
  split; [|split; [|split; [reflexivity|vm_compute; reflexivity]]].
  - exists [], (shot_name ".jpg"). split; [reflexivity|]. split; [constructor|]. split; [apply V|]. now exists (shot_name "").
  - exists (shot_name ".tif"). split; [reflexivity|]. split; [apply V|]. now exists (shot_name "").
Qed.
Print Assumptions C262_first_refuted.
(** And then the laser images there are, the second camera's, are put at the first camera's position, under the second camera's name. *)
Theorem C262_position_refuted : exists A (o1 o2 o3 : A) a b p n, o1 <> o2 /\ records_laser a = true /\ c_name a <> c_name b /\
  laser_poses "biocam" [a; b] o1 o2 o3 = Some (p, n) /\ p = o1 /\ n = c_name b ++ txt "_laser".
Proof. exists nat, 1%nat, 2%nat, 3%nat, (mkcamera gray true), (mkcamera rgb false), 1%nat. eexists. repeat split; discriminate. Qed.
Print Assumptions C262_position_refuted.
(** With the format "biocam4000_15c", whose images are listed in the same way, the position is that of a third camera, which the mission does not have. *)
Theorem C262_format_refuted : exists A (o1 o2 o3 : A) a b p n, o3 <> o2 /\ records_laser b = true /\ records_laser a = false /\
  laser_poses "biocam4000_15c" [a; b] o1 o2 o3 = Some (p, n) /\ p = o3 /\ n = c_name b ++ txt "_laser".
Proof. exists nat, 1%nat, 2%nat, 0%nat, (mkcamera gray false), (mkcamera rgb true), 0%nat. eexists. repeat split; discriminate. Qed.
Print Assumptions C262_format_refuted.
(** The conditions are looked for in the whole path: in a folder with ".jpg" in its name the TIFF images of the second camera are taken for laser images, ... *)
Theorem C262_folder_refuted : exists base label f, strobe label f /\ camera2 base label [f] = [] /\ camera3 base label [f] = [f].
Proof.
  exists (txt "/from.jpgs/image"), rgb, [rgb ++ txt "_strobe"; shot_name ".tif"]. split; [|split; vm_compute; reflexivity].
  exists (shot_name ".tif"). split; [reflexivity|]. split; [intros v E; discriminate|]. now exists (shot_name "").
Qed.
Print Assumptions C262_folder_refuted.
(** ... and with ".txt" in it no image is found. *)
Theorem C262_text_refuted : exists base label f, strobe label f /\ camera1 base label [f] = [] /\ camera2 base label [f] = [].
Proof.
  exists (txt "/dive.txt.d/image"), rgb, [rgb ++ txt "_strobe"; shot_name ".tif"]. split; [|split; vm_compute; reflexivity].
  exists (shot_name ".tif"). split; [reflexivity|]. split; [intros v E; discriminate|]. now exists (shot_name "").
Qed.
Print Assumptions C262_text_refuted.
(** The two cameras are not treated alike: a name with "._" in it counts for the second only. *)
Theorem C262_dots_refuted : exists base label f, strobe label f /\ camera1 base label [f] = [] /\ camera2 base label [f] = [f].
Proof.
  exists at_base, rgb, [rgb ++ txt "_strobe"; shot_name "._1.tif"]. split; [|split; vm_compute; reflexivity].
  exists (shot_name "._1.tif"). split; [reflexivity|]. split; [intros v E; discriminate|]. now exists (shot_name "._1").
Qed.
Print Assumptions C262_dots_refuted.
(** A laser calibration image of one camera is paired with an image of the other taken in the light of the strobes. *)
Theorem C262_light_refuted : exists fs f g, laser_tif gray f /\ strobe rgb g /\ fs = [f; g] /\ files_of (parse_images 0 0 at_base gray rgb fs) = Some [[f; g]].
Proof.
  exists [[gray ++ txt "_laser"; shot_name ".tif"]; [rgb ++ txt "_strobe"; shot_name ".tif"]], [gray ++ txt "_laser"; shot_name ".tif"], [rgb ++ txt "_strobe"; shot_name ".tif"].
  split; [|split; [|split; [reflexivity|vm_compute; reflexivity]]]; exists (shot_name ".tif"); (split; [reflexivity|]); (split; [intros v E; discriminate|]); now exists (shot_name "").
Qed.
Print Assumptions C262_light_refuted.
(** Before the year 2000 (a clock that was not set) the time is 0 whatever the zone. *)
Theorem C262_clock_refuted : exists n, (forall tz off, stamps tz off n = Some (0, 0)) /\
  named (mkCivil 1980 1 6 0 0 1) 500000 (mkCivil 1980 1 6 0 0 1) 500000 n /\ taken 0 0 (mkCivil 1980 1 6 0 0 1) 500000 (315964801 + (1 # 2)).
Proof.
  exists (txt "19800106_000001_500_19800106_000001_500_pcoc.tif"). split; [reflexivity|]. split.
  - assert (stamp_text (mkCivil 1980 1 6 0 0 1) 500000 (txt "19800106_000001_500")) as S.
    { assert (forall s ds n z, txt s = spelled ds -> (forall d, In d ds -> 0 <= d <= 9)%Z -> length ds = n -> place_value ds = z -> numeral (txt s) n z) as W by (intros s ds n z E D L V; exists ds; auto).
      exists (txt "1980"), (txt "01"), (txt "06"), (txt "00"), (txt "00"), (txt "01"), (txt "500"). split; [reflexivity|].
      repeat split; [apply (W _ [1; 9; 8; 0]%Z)|apply (W _ [0; 1]%Z)|apply (W _ [0; 6]%Z)|apply (W _ [0; 0]%Z)|apply (W _ [0; 0]%Z)|apply (W _ [0; 1]%Z)|right; exists 500%Z; split; [apply (W _ [5; 0; 0]%Z)|]];
        try reflexivity; cbn; intros d H; lia. }
    exists (txt "19800106_000001_500"), (txt "19800106_000001_500"), (txt "pcoc.tif"). auto.
  - exists 315964801%Z. split; [|reflexivity]. change 315964801%Z with (csec (mkCivil 1980 1 6 0 0 1)). apply counted; [apply valid_civil_fields; cbn; lia|cbn; lia].
Qed.
Print Assumptions C262_clock_refuted.
(** The other branch for names, of at most four parts, is of no use: whatever the name is, as the names of images have an extension there is an error (or the time 0). *)
Lemma split_ends : forall sep u s, ~ In sep s -> exists ws w, split sep (u ++ s) = ws ++ [w ++ s].
Proof.
  intros sep u s NI. induction u as [|c u (ws & w & IH)]; [exists [], []; cbn; now rewrite split_none|]. cbn [app split]. rewrite IH. destruct (N.eqb c sep).
  - exists ([] :: ws), w. reflexivity.
  - destruct ws as [|x ws]; [exists [], (c :: w); reflexivity|exists ((c :: x) :: ws), w; reflexivity].
Qed.
Lemma digits_dot : forall s acc, In 46%N s -> digits acc s = None.
Proof.
  induction s as [|c s IH]; intros acc I; [destruct I|]. cbn [digits]. destruct I as [->|I]; [reflexivity|]. destruct (digit c); [now apply IH|reflexivity].
Qed.
Theorem C262_short : forall tz off n, (length (split underscore n) <= 4)%nat -> ends ".tif" n \/ ends ".jpg" n -> (forall c, In c n -> is_space c = false) ->
  stamps tz off n = None \/ stamps tz off n = Some (0, 0).
Proof.
  intros tz off n L E SP. assert (exists ws w e, split underscore n = ws ++ [w ++ e] /\ length e = 4%nat /\ In 46%N e) as (ws & w & e & ES & LE & IE).
  { destruct E as [(u & ->)|(u & ->)]; [destruct (split_ends underscore u (txt ".tif")) as (ws & w & ->)|destruct (split_ends underscore u (txt ".jpg")) as (ws & w & ->)];
      try (cbn; intros H; repeat (destruct H as [H|H]; [discriminate|]); exact H); exists ws, w; eexists; (split; [reflexivity|]); (split; [reflexivity|now left]). }
  unfold stamps. assert (strip n = n) as -> by (unfold strip; rewrite (lstrip_id n SP); apply (rstrip_id n SP)).
  rewrite (proj2 (Nat.ltb_ge _ _) L). rewrite ES in *. rewrite app_length in L. cbn [length] in L.
  destruct ws as [|w0 [|w1 [|w2 [|w3 ws]]]]; cbn [app nth_error bind length] in *; try (now left); [|lia].
  assert (forall a b c d f i, bind (int_of a) (fun yyyy => bind (int_of b) (fun mm => bind (int_of c) (fun dd => bind (int_of d) (fun hour => bind (int_of f) (fun mins => bind (int_of i) (fun secs =>
    bind (Some None) (fun usec : option BinNums.Z => if (yyyy <? 2000)%Z then Some 0 else bind (date_time_to_epoch yyyy mm dd hour mins secs tz 0) (fun t => bind usec (fun u => Some (t + inject_Z u / 1000000 + off)))))))))) = None \/
    bind (int_of a) (fun yyyy => bind (int_of b) (fun mm => bind (int_of c) (fun dd => bind (int_of d) (fun hour => bind (int_of f) (fun mins => bind (int_of i) (fun secs =>
    bind (Some None) (fun usec : option BinNums.Z => if (yyyy <? 2000)%Z then Some 0 else bind (date_time_to_epoch yyyy mm dd hour mins secs tz 0) (fun t => bind usec (fun u => Some (t + inject_Z u / 1000000 + off)))))))))) = Some 0) as NONE.
  { intros a b c d f i. destruct (int_of a) as [yy|]; [|now left]. destruct (int_of b); [|now left]. destruct (int_of c); [|now left]. destruct (int_of d); [|now left]. destruct (int_of f); [|now left].
    destruct (int_of i); [|now left]. cbn [bind]. destruct (yy <? 2000)%Z; [now right|]. left. destruct (date_time_to_epoch _ _ _ _ _ _ _ _); reflexivity. }
  assert (time_from_string w1 w2 (w ++ e) tz off = None \/ time_from_string w1 w2 (w ++ e) tz off = Some 0) as [ -> | -> ]; [|now left|now right].
  unfold time_from_string. destruct (Nat.eqb_spec (length (w ++ e)) 6) as [L6|_].
  - left. assert (int_of (slice 0 6 (w ++ e)) = None) as ->.
    { unfold slice. rewrite skipn_O. replace (6 - 0)%nat with (length (w ++ e)) by lia. rewrite firstn_all. unfold int_of. destruct (w ++ e) eqn:X; [reflexivity|]. apply digits_dot. rewrite <- X, in_app_iff. now right. }
    destruct (int_of _); [|reflexivity]. destruct (int_of _); [|reflexivity]. destruct (int_of _); [|reflexivity]. destruct (int_of _); [|reflexivity]. destruct (int_of _); [|reflexivity]. destruct (int_of _); reflexivity.
  - destruct (Nat.eqb_spec (length (w ++ e)) 3) as [L3|_]; [rewrite app_length in L3; lia|]. apply NONE.
Qed.
Print Assumptions C262_short.
(** One such file, or one with six parts and nothing after them, and the images of the dive are not parsed. *)
Theorem C262_name_refuted : exists fs f, In f fs /\ strobe gray f /\ length fs = 3%nat /\ parse_images 0 0 at_base gray rgb fs = None /\
  (exists es, parse_images 0 0 at_base gray rgb (tl fs) = Some es) /\ last f [] = txt "image_20181222_094012_250.tif".
Proof.
  exists ([gray ++ txt "_strobe"; txt "image_20181222_094012_250.tif"] :: firstn 2 ex_disk). eexists. split; [left; reflexivity|].
  split; [exists (txt "image_20181222_094012_250.tif"); split; [reflexivity|]; split; [intros v E; discriminate|now exists (txt "image_20181222_094012_250")]|].
  split; [reflexivity|]. split; [vm_compute; reflexivity|]. split; [eexists; vm_compute; reflexivity|reflexivity].
Qed.
Print Assumptions C262_name_refuted.
Theorem C262_parts_refuted : exists n, n = txt "20181222_094012_250000_20181222_094012_250000.tif" /\ stamps 0 0 n = None.
Proof. eexists. split; reflexivity. Qed.
Print Assumptions C262_parts_refuted.
