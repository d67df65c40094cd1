(** C86, C87: the EIVA NaviPac parser. *)
From Coq Require Import Ascii String.
From Verif Require Import PyBase NmeaModel NmeaProofs CsvModel FilesModel FilesProps NtnuProps EivaModel.
Open Scope Q_scope.
Open Scope list_scope.

(** [written s ws]: [s] is the words [ws] with white space between, before and after them. *)
Definition blank (s : text) : Prop := Forall (fun c => is_space c = true) s.
Definition word (s : text) : Prop := s <> [] /\ Forall (fun c => is_space c = false) s.
Inductive written : text -> list text -> Prop :=
| wr_end b : blank b -> written b []
| wr_last b w : blank b -> word w -> written (b ++ w) [w]
| wr_word b w c rest ws : blank b -> word w -> is_space c = true -> written rest ws -> written (b ++ w ++ c :: rest) (w :: ws).

Lemma words_blank : forall b s, blank b -> words (b ++ s) = words s.
Proof. intros b s H. induction H as [|c b C _ IH]; [reflexivity|]. unfold words in *. cbn [app words_from]. now rewrite C. Qed.
Lemma words_from_word : forall w acc s, Forall (fun c => is_space c = false) w -> words_from acc (w ++ s) = words_from (rev w ++ acc) s.
Proof.
  induction w as [|c w IH]; intros acc s H; [reflexivity|]. inversion H as [|? ? C W]; subst. cbn [app words_from]. rewrite C, IH by exact W.
  cbn [rev]. now rewrite <- app_assoc.
Qed.
Lemma rev_not_nil : forall (w : text), w <> [] -> rev w <> [].
Proof. intros w H E. apply H. rewrite <- (rev_involutive w), E. reflexivity. Qed.
Lemma words_written : forall s ws, written s ws -> words s = ws.
Proof.
  intros s ws H. induction H as [b B|b w B [N W]|b w c rest ws B [N W] C H IH].
  - rewrite <- (app_nil_r b), words_blank by exact B. reflexivity.
  - rewrite words_blank by exact B. unfold words. rewrite <- (app_nil_r w) at 1. rewrite words_from_word by exact W. rewrite app_nil_r. cbn [words_from].
    rewrite rev_involutive. destruct (rev w) eqn:E; [now apply rev_not_nil in E|reflexivity].
  - rewrite words_blank by exact B. unfold words. rewrite words_from_word by exact W. rewrite app_nil_r. cbn [words_from]. rewrite C, rev_involutive.
    destruct (rev w) eqn:E; [now apply rev_not_nil in E|]. unfold words in IH. now rewrite IH.
Qed.

Lemma starts_iff : forall p s, starts p s = true <-> exists rest, s = p ++ rest.
Proof.
  intros p s. unfold starts. rewrite text_eqb_iff. split.
  - intros H. exists (skipn (length p) s). rewrite <- H at 1. now rewrite firstn_skipn.
  - intros [rest ->]. now rewrite firstn_app, Nat.sub_diag, firstn_all, app_nil_r.
Qed.

Section Spec.
  Variables (date : text -> option Q) (float : text -> option Q) (int : text -> option Z) (prdid : text -> nmea) (turn : Q -> Q -> Q * Q).

  (** A depth line of beacon [c]: its fifth word is the time, its sixth the depth. *)
  Definition depth_line_of (c : N) (line : text) : Prop := exists rest, line = txt "D     " ++ [c] ++ txt "  19  1" ++ rest.
  Definition says_depth (line : text) (m : Q * Q) : Prop :=
    exists a b c d when depth others, written line (a :: b :: c :: d :: when :: depth :: others) /\ date when = Some (fst m) /\ float depth = Some (snd m).
  (** A position line of beacon [n]: time in the fourth word, then height, latitude and longitude in the
      seventh, eighth and ninth. *)
  Definition position_line_of (n : Z) (line : text) : Prop :=
    exists gap number rest, line = txt "P  D" ++ gap ++ number ++ rest /\ length gap = 2%nat /\ length number = 4%nat /\ int number = Some n.
  Definition says_position (line : text) (m : Q * Q * Q * Q) : Prop :=
    let '(t, lat, lon, depth) := m in
    exists a b c when d e height la lo others h, written line (a :: b :: c :: when :: d :: e :: height :: la :: lo :: others) /\
      date when = Some t /\ float la = Some lat /\ float lo = Some lon /\ float height = Some h /\ depth = - h.
  (** An attitude line: time in the third word, the sentence in the fourth. *)
  Definition attitude_line_of (line : text) : Prop := (exists rest, line = txt "R132  4" ++ rest) /\ occurs (txt "$PRDID") line.
  Definition says_time (line : text) (t : Q) (sentence : text) : Prop :=
    exists a b when others, written line (a :: b :: when :: sentence :: others) /\ date when = Some t.
  Definition says_attitude (line : text) (m : Q * Q * Q * Q) : Prop :=
    let '(t, r, p, y) := m in
    exists sentence roll pitch heading, says_time line t sentence /\ prdid sentence = Angles roll pitch heading /\ (r, p) = turn roll pitch /\
      ((0 <= heading <= 360 /\ y = heading) \/ (360 < heading <= 720 /\ y = heading - 360) \/ (-360 <= heading < 0 /\ y = heading + 360)).

  (** Nothing is reported for a time of zero. *)
  Definition has_time (t : Q) : Prop := ~ t == 0.
  Lemma has_time_true : forall t, Qeq_bool t 0 = true -> ~ has_time t.
  Proof. intros t H N. apply N. now apply Qeq_bool_iff. Qed.
  Lemma has_time_false : forall t, Qeq_bool t 0 = false -> has_time t.
  Proof. intros t H N. apply Qeq_bool_iff in N. congruence. Qed.

  Theorem C86_depth : forall c n lines,
    (forall line, In line lines -> depth_line_of c line -> exists m, says_depth line m) ->
    exists out, parse_depth date float (mklabel [c] n) lines = Some out /\
      reported (fun line => depth_line_of c line /\ exists m, says_depth line m /\ has_time (fst m)) says_depth lines out.
  Proof.
    intros c n. induction lines as [|line lines IH]; intros H; [exists []; split; [reflexivity|constructor]|].
    destruct IH as (out & E & R); [intros l L; apply H; now right|]. unfold parse_depth in *. cbn [each]. rewrite E. unfold depth_line.
    assert (text_eqb (cut 0 14 line) (txt "D     " ++ l_text (mklabel [c] n) ++ txt "  19  1") = true <-> depth_line_of c line) as K.
    { apply (starts_iff (txt "D     " ++ [c] ++ txt "  19  1")). }
    destruct (text_eqb _ _).
    - destruct (proj1 K eq_refl) as [rest J]. destruct (H line (or_introl eq_refl) (ex_intro _ rest J)) as ([t d] & M).
      pose proof M as (w0 & w1 & w2 & w3 & w & dd & others & W & D & F). cbn [fst snd] in D, F.
      pose proof (words_written _ _ W) as X. rewrite X. cbn [nth_error]. rewrite D. destruct (Qeq_bool t 0) eqn:T.
      + exists out. split; [reflexivity|]. apply rep_skip; [|exact R]. intros (_ & (t' & d') & (v0 & v1 & v2 & v3 & v & dd' & others' & W' & D' & F') & N).
        apply words_written in W'. rewrite X in W'. injection W' as -> -> -> -> -> -> ->. cbn [fst snd] in *. rewrite D in D'. injection D' as <-.
        now apply has_time_true in T.
      + rewrite F. exists ((t, d) :: out). split; [reflexivity|]. apply rep_use; [|exact M|exact R]. split; [now exists rest|]. exists (t, d). split; [exact M|].
        now apply has_time_false.
    - exists out. split; [reflexivity|]. apply rep_skip; [|exact R]. intros [D _]. now apply K in D.
  Qed.

  Theorem C86_position : forall s n lines,
    (forall line, In line lines -> (exists rest, line = txt "P  D" ++ rest) -> exists k, position_line_of k line) ->
    (forall line, In line lines -> position_line_of n line -> exists m, says_position line m) ->
    exists out, parse_usbl date float int (mklabel s (Some n)) lines = Some out /\
      reported (fun line => position_line_of n line /\ exists m, says_position line m /\ has_time (fst (fst (fst m)))) says_position lines out.
  Proof.
    intros s n. induction lines as [|line lines IH]; intros G H; [exists []; split; [reflexivity|constructor]|].
    destruct IH as (out & E & R); [intros l L; apply G; now right|intros l L; apply H; now right|]. unfold parse_usbl in *. cbn [each]. rewrite E. unfold usbl_line.
    destruct (starts (txt "P  D") line) eqn:S.
    - apply starts_iff in S. destruct (G line (or_introl eq_refl) S) as (k & P). pose proof P as (gap & number & rest & J & L1 & L2 & I).
      assert (forall k', position_line_of k' line -> k' = k) as U.
      { intros k' (gap' & number' & rest' & J' & L1' & L2' & I'). rewrite J in J'. apply app_inv_head in J'.
        destruct gap as [|g0 [|g1 [|? ?]]]; try discriminate. destruct gap' as [|h0 [|h1 [|? ?]]]; try discriminate. injection J' as -> -> J'.
        destruct number as [|a0 [|a1 [|a2 [|a3 [|? ?]]]]]; try discriminate. destruct number' as [|b0 [|b1 [|b2 [|b3 [|? ?]]]]]; try discriminate.
        injection J' as -> -> -> -> _. congruence. }
      assert (cut 6 10 line = number) as ->.
      { rewrite J. destruct gap as [|g0 [|g1 [|? ?]]]; try discriminate. destruct number as [|a0 [|a1 [|a2 [|a3 [|? ?]]]]]; try discriminate. reflexivity. }
      rewrite I. cbn [l_int]. destruct (Z.eqb_spec k n) as [->|N].
      + destruct (H line (or_introl eq_refl) P) as ([[[t la] lo] d] & M).
        pose proof M as (w0 & w1 & w2 & w & w4 & w5 & hh & lat & lon & others & h & W & D & FA & FO & FH & ->).
        pose proof (words_written _ _ W) as X. rewrite X. cbn [nth_error]. rewrite D. destruct (Qeq_bool t 0) eqn:T.
        * exists out. split; [reflexivity|]. apply rep_skip; [|exact R].
          intros (_ & [[[t' la'] lo'] d'] & (v0 & v1 & v2 & v & v4 & v5 & hh' & lat' & lon' & others' & h' & W' & D' & _) & N).
          apply words_written in W'. rewrite X in W'. injection W' as -> -> -> -> -> -> -> -> -> ->. cbn [fst] in N. rewrite D in D'. injection D' as <-.
          now apply has_time_true in T.
        * rewrite FA, FO, FH. exists ((t, la, lo, - h) :: out). split; [reflexivity|]. apply rep_use; [|exact M|exact R]. split; [exact P|].
          eexists. split; [exact M|]. now apply has_time_false.
      + exists out. split; [reflexivity|]. apply rep_skip; [|exact R]. intros [Q _]. apply N. symmetry. now apply U.
    - exists out. split; [reflexivity|]. apply rep_skip; [|exact R]. intros [(gap & number & rest & J & _) _].
      assert (starts (txt "P  D") line = true) by (apply starts_iff; rewrite J; eauto). congruence.
  Qed.

  (** Attitude lines whose sentence lacks a value or has one that is not a number are skipped.  The turn by
      the mounting angle is of the roll and pitch only. *)
  Theorem C86_attitude : forall lines,
    (forall line, In line lines -> attitude_line_of line -> exists t sentence, says_time line t sentence /\
       (prdid sentence = Missing \/ prdid sentence = NotNumber \/
        exists r p h, prdid sentence = Angles r p h /\ -360 <= h <= 720)) ->
    exists out, parse_attitude date prdid turn None lines = Some out /\
      reported (fun line => attitude_line_of line /\ exists m, says_attitude line m /\ has_time (fst (fst (fst m)))) says_attitude lines out.
  Proof.
    induction lines as [|line lines IH]; intros H; [exists []; split; [reflexivity|constructor]|].
    destruct IH as (out & E & R); [intros l L; apply H; now right|]. cbn [parse_attitude]. unfold attitude_line.
    assert ((starts (txt "R132  4") line && contains (txt "$PRDID") line)%bool = true <-> attitude_line_of line) as K.
    { rewrite andb_true_iff, starts_iff, contains_iff. reflexivity. }
    destruct (starts (txt "R132  4") line && contains (txt "$PRDID") line)%bool.
    - pose proof (proj1 K eq_refl) as A. destruct (H line (or_introl eq_refl) A) as (t & sen & M & V). pose proof M as (w0 & w1 & w & others & W & D).
      pose proof (words_written _ _ W) as X. rewrite X. cbn [nth_error]. rewrite D.
      assert (forall t' sen', says_time line t' sen' -> t' = t /\ sen' = sen) as U.
      { intros t' sen' (v0 & v1 & v & others' & W' & D'). apply words_written in W'. rewrite X in W'. injection W' as -> -> -> -> ->. split; congruence. }
      destruct (Qeq_bool t 0) eqn:T.
      + rewrite E. exists out. split; [reflexivity|]. apply rep_skip; [|exact R]. intros (_ & [[[t' r'] p'] y'] & (sen' & r & p & h & S & _) & N).
        apply U in S as [-> ->]. now apply has_time_true in T.
      + destruct V as [V|[V|(r & p & h & V & B)]].
        * rewrite V, E. exists out. split; [reflexivity|]. apply rep_skip; [|exact R]. intros (_ & [[[t' r'] p'] y'] & (sen' & r & p & h & S & V' & _) & N).
          apply U in S as [-> ->]. congruence.
        * rewrite V, E. exists out. split; [reflexivity|]. apply rep_skip; [|exact R]. intros (_ & [[[t' r'] p'] y'] & (sen' & r & p & h & S & V' & _) & N).
          apply U in S as [-> ->]. congruence.
        * rewrite V. destruct (turn r p) as [r' p'] eqn:TT. rewrite E. cbn [option_map app]. exists ((t, r', p', wrap h) :: out). split; [reflexivity|].
          assert (says_attitude line (t, r', p', wrap h)) as J.
          { exists sen, r, p, h. repeat split; [exact M|exact V|now rewrite TT|]. unfold wrap. destruct (Qltb 360 h) eqn:L.
            - apply Qltb_lt in L. destruct (Qltb (h - 360) 0) eqn:L2; [apply Qltb_lt in L2; lra|]. right. left. split; [lra|reflexivity].
            - apply Qltb_ge in L. destruct (Qltb h 0) eqn:L2; [apply Qltb_lt in L2; right; right; split; [lra|reflexivity]|]. apply Qltb_ge in L2. left. split; [lra|reflexivity]. }
          apply rep_use; [|exact J|exact R]. split; [exact A|]. eexists. split; [exact J|]. now apply has_time_false.
    - rewrite E. exists out. split; [reflexivity|]. apply rep_skip; [|exact R]. intros [D _]. now apply K in D.
  Qed.

  (** Only a label of one character can be matched by a depth line. *)
  Theorem C87_long_label : forall id lines, (2 <= length (l_text id))%nat -> parse_depth date float id lines = Some [].
  Proof.
    intros id lines H. unfold parse_depth. induction lines as [|line lines IH]; [reflexivity|]. cbn [each]. rewrite IH.
    unfold depth_line. destruct (text_eqb _ _) eqn:T; [|reflexivity]. exfalso. apply text_eqb_iff, (f_equal (@length N)) in T.
    unfold cut in T. rewrite firstn_length, !app_length in T.
    change (length (txt "D     ")) with 6%nat in T. change (length (txt "  19  1")) with 7%nat in T. lia.
  Qed.
  (** A label that is not a number matches no position line. *)
  Theorem C87_text_label : forall s lines,
    (forall line, In line lines -> (exists rest, line = txt "P  D" ++ rest) -> exists k, position_line_of k line) ->
    parse_usbl date float int (mklabel s None) lines = Some [].
  Proof.
    intros s lines G. unfold parse_usbl. induction lines as [|line lines IH]; [reflexivity|]. cbn [each].
    rewrite IH by (intros l L; apply G; now right). unfold usbl_line. destruct (starts (txt "P  D") line) eqn:S; [|reflexivity].
    apply starts_iff in S. destruct (G line (or_introl eq_refl) S) as (k & gap & number & rest & J & L1 & L2 & I).
    assert (cut 6 10 line = number) as ->.
    { rewrite J. destruct gap as [|g0 [|g1 [|? ?]]]; try discriminate. destruct number as [|a0 [|a1 [|a2 [|a3 [|? ?]]]]]; try discriminate. reflexivity. }
    rewrite I. reflexivity.
  Qed.
End Spec.
Print Assumptions C86_depth. Print Assumptions C86_position. Print Assumptions C86_attitude.
Print Assumptions C87_long_label. Print Assumptions C87_text_label.

(** A small log.  The readers of dates, numbers and sentences know what occurs in it. *)
Definition ex_date (s : text) : option Q :=
  if text_eqb s (txt "2019:07:01:10:20:30.5") then Some (15619764305 # 10) else if text_eqb s (txt "1970:01:01:00:00:00.0") then Some 0 else None.
Definition ex_float (s : text) : option Q :=
  if text_eqb s (txt "871.3") then Some (8713 # 10) else if text_eqb s (txt "-870") then Some (-870) else
  if text_eqb s (txt "44.5") then Some (445 # 10) else if text_eqb s (txt "-125.1") then Some (-1251 # 10) else None.
Definition ex_int (s : text) : option Z :=
  if text_eqb s (txt "   7") then Some 7%Z else if text_eqb s (txt "  12") then Some 12%Z else None.
Definition ex_prdid (s : text) : nmea :=
  if text_eqb s (txt "$PRDID,1.5,-2,361") then Angles (-2) (3 # 2) 361 else if text_eqb s (txt "$PRDID,,,") then Missing else Bad.
Definition ex_turn (r p : Q) : Q * Q := (- p, r).
Definition ex_log : list text :=
  [ txt "D     7  19  1  2019:07:01:10:20:30.5 871.3 0"; txt "D     8  19  1  2019:07:01:10:20:30.5 44.5";
    txt "D     7  19  1  1970:01:01:00:00:00.0 871.3"; txt "D     12  19  1  2019:07:01:10:20:30.5 44.5";
    txt "P  D     7 2019:07:01:10:20:30.5 0 0 -870 44.5 -125.1"; txt "P  D    12 2019:07:01:10:20:30.5 0 0 -870 44.5 -125.1";
    txt "R132  4  2019:07:01:10:20:30.5 $PRDID,,,"; txt "R132  4  2019:07:01:10:20:30.5 $PRDID,1.5,-2,361" ].
Example C86_ex_depth : parse_depth ex_date ex_float (mklabel (txt "7") (Some 7%Z)) ex_log = Some [(15619764305 # 10, 8713 # 10)].
Proof. vm_compute. reflexivity. Qed.
Example C86_ex_position : parse_usbl ex_date ex_float ex_int (mklabel (txt "7") (Some 7%Z)) ex_log = Some [(15619764305 # 10, 445 # 10, -1251 # 10, 870)].
Proof. vm_compute. reflexivity. Qed.
Example C86_ex_attitude : parse_attitude ex_date ex_prdid ex_turn None ex_log = Some [(15619764305 # 10, - (3 # 2), -2, 1)].
Proof. vm_compute. reflexivity. Qed.

(** Beacon 12: its depth line is in the log and readable, but it is not reported; its position is. *)
Theorem C87_two_digits_refuted : exists date float int id lines line m,
  l_text id = txt "12" /\ l_int id = Some 12%Z /\ In line lines /\ (exists rest, line = txt "D     12  19  1" ++ rest) /\ says_depth date float line m /\ has_time (fst m) /\
  parse_depth date float id lines = Some [] /\ parse_usbl date float int id lines <> Some [].
Proof.
  exists ex_date, ex_float, ex_int, (mklabel (txt "12") (Some 12%Z)), ex_log, (txt "D     12  19  1  2019:07:01:10:20:30.5 44.5"), (15619764305 # 10, 445 # 10).
  split; [reflexivity|]. split; [reflexivity|]. split; [do 3 right; now left|]. split; [eexists; reflexivity|]. split.
  - exists (txt "D"), (txt "12"), (txt "19"), (txt "1"), (txt "2019:07:01:10:20:30.5"), (txt "44.5"), []. split; [|split; reflexivity].
    Ltac nextword s w := match goal with |- written ?x _ => 
      let b := eval vm_compute in (firstn s x) in let r := eval vm_compute in (skipn (s + w + 1) x) in
      let ww := eval vm_compute in (firstn w (skipn s x)) in let c := eval vm_compute in (nth (s + w) x 0%N) in
      change x with (b ++ ww ++ c :: r); apply wr_word; [repeat constructor|split; [discriminate|repeat constructor]|reflexivity|] end.
    nextword 0%nat 1%nat. nextword 4%nat 2%nat. nextword 1%nat 2%nat. nextword 1%nat 1%nat. nextword 1%nat 21%nat.
    match goal with |- written ?x [?w] => change (written ([] ++ w) [w]); apply wr_last; [constructor|split; [discriminate|repeat constructor]] end.
  - split; [discriminate|]. split; [reflexivity|]. vm_compute. discriminate.
Qed.
Print Assumptions C87_two_digits_refuted.
(** A label written as text in the mission file: depths are found, positions are not. *)
Theorem C87_text_label_refuted : exists date float int id lines,
  l_text id = txt "7" /\ parse_depth date float id lines <> Some [] /\ (exists line, In line lines /\ position_line_of int 7 line) /\ parse_usbl date float int id lines = Some [].
Proof.
  exists ex_date, ex_float, ex_int, (mklabel (txt "7") None), ex_log. split; [reflexivity|]. split; [vm_compute; discriminate|]. split; [|reflexivity].
  eexists. split; [do 4 right; now left|]. exists (txt "  "), (txt "   7"), (txt " 2019:07:01:10:20:30.5 0 0 -870 44.5 -125.1"). repeat split.
Qed.
Print Assumptions C87_text_label_refuted.
(** One position line without a beacon number, or one attitude line with a corrupt sentence, and nothing is
    read at all, whereas an attitude line with missing values is skipped. *)
Theorem C87_one_bad_line_refuted : exists date float int prdid turn id bad worse good,
  parse_usbl date float int id good <> Some [] /\ parse_usbl date float int id good <> None /\ parse_usbl date float int id (good ++ [bad]) = None /\
  parse_attitude date prdid turn None good <> Some [] /\ parse_attitude date prdid turn None good <> None /\ parse_attitude date prdid turn None (good ++ [worse]) = None.
Proof.
  exists ex_date, ex_float, ex_int, ex_prdid, ex_turn, (mklabel (txt "7") (Some 7%Z)), (txt "P  D"), (txt "R132  4 2019:07:01:10:20:30.5 $PRDID,1.5"), ex_log.
  vm_compute. repeat split; discriminate.
Qed.
Print Assumptions C87_one_bad_line_refuted.
