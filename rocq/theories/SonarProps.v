(** Property C223 and its refuted sibling C224: positions read from Sonardyne logs. *)
From Coq Require Import Ascii String Permutation.
From Verif Require Import PyBase InterpSpec TimeModel TimeSpec TimeProofs Ae2000Model Ae2000Props NocModel NocProps SortQ SonarModel.
From Coq Require Import Reals Lra.
Open Scope Z_scope.

(** * Values of a line *)
(** A value of a log: it does not begin with a space and each of its commas is followed by one. *)
Definition value (v : text) : Prop :=
  (forall r, v <> " "%char :: r) /\ forall a b, v = a ++ ","%char :: b -> exists r, b = " "%char :: r.
Fixpoint line_of (vs : list text) : text :=
  match vs with [] => [] | [v] => v | v :: vs => v ++ ","%char :: line_of vs end.

Lemma split_app : forall sep a b, split_at sep (a ++ sep :: b) = split_at sep a ++ split_at sep b.
Proof.
  intros sep a b. induction a as [|c a IH]; cbn [app split_at]; [now rewrite Ascii.eqb_refl|]. destruct (Ascii.eqb c sep); rewrite IH; [reflexivity|].
  destruct (split_at sep a) as [|w ws] eqn:E; [|reflexivity]. destruct a as [|x a]; cbn [split_at] in E; [discriminate|]. destruct (Ascii.eqb x sep); [discriminate|]. destruct (split_at sep a); discriminate.
Qed.
Lemma split_line : forall sep s, exists w ws, split_at sep s = w :: ws /\ s = w ++ flat_map (fun p => sep :: p) ws.
Proof.
  intros sep. induction s as [|c s (w & ws & E & D)]; [now exists [], []|]. cbn [split_at]. destruct (Ascii.eqb_spec c sep) as [->|_]; rewrite E.
  - exists [], (w :: ws). split; [reflexivity|]. cbn [app flat_map]. now rewrite D at 1.
  - exists (c :: w), ws. split; [reflexivity|]. cbn [app]. now rewrite D at 1.
Qed.
Definition spaced (p : text) : Prop := exists r, p = " "%char :: r.
Lemma spaced_join : forall ps vs v rest, Forall spaced ps -> join (vs ++ [v]) (ps ++ rest) = join (vs ++ [v ++ flat_map (fun p => ","%char :: p) ps]) rest.
Proof.
  induction ps as [|p ps IH]; intros vs v rest F; [cbn; now rewrite app_nil_r|]. inversion F as [|? ? (r & ->) F']; subst. cbn [app join].
  change (Ascii.eqb " "%char " "%char) with true. cbn iota. rewrite rev_unit, rev_involutive. rewrite IH by exact F'. cbn [flat_map]. now rewrite <- app_assoc.
Qed.
Lemma value_split : forall v, value v -> exists w ws, split_at ","%char v = w :: ws /\ ~ spaced w /\ Forall spaced ws /\ v = w ++ flat_map (fun p => ","%char :: p) ws.
Proof.
  intros v [V1 V2]. destruct (split_line ","%char v) as (w & ws & E & D). exists w, ws. split; [exact E|]. split; [intros (r & ->); cbn [app] in D; exact (V1 _ D)|]. split; [|exact D].
  clear V1 E. revert v w V2 D. induction ws as [|p ws IH]; intros v w V2 D; [constructor|]. constructor.
  - destruct (V2 w (p ++ flat_map (fun p => ","%char :: p) ws)) as (r & R); [exact D|]. destruct p as [|c p]; [|cbn [app] in R; injection R as -> _; now exists p].
    cbn [app] in R. destruct ws as [|p' ws]; cbn [flat_map app] in R; discriminate.
  - apply (IH v (w ++ ","%char :: p)); [exact V2|]. rewrite D. cbn [flat_map]. now rewrite <- app_assoc.
Qed.
Lemma join_value : forall v vs rest, value v -> join vs (split_at ","%char v ++ rest) = join (vs ++ [v]) rest.
Proof.
  intros v vs rest V. destruct (value_split v V) as (w & ws & -> & N & F & D). cbn [app join].
  assert (match w with [] => join (vs ++ [w]) (ws ++ rest) | c :: _ => if Ascii.eqb c " "%char then match rev vs with [] => None | v0 :: vs0 => join (rev vs0 ++ [v0 ++ ","%char :: w]) (ws ++ rest) end else join (vs ++ [w]) (ws ++ rest) end = join (vs ++ [w]) (ws ++ rest)) as ->.
  { destruct w as [|c w]; [reflexivity|]. destruct (Ascii.eqb_spec c " "%char) as [->|_]; [|reflexivity]. destruct N. now exists w. }
  rewrite spaced_join by exact F. now rewrite <- D.
Qed.
Lemma join_line : forall vs acc, vs <> [] -> Forall value vs -> join acc (split_at ","%char (line_of vs)) = Some (acc ++ vs).
Proof.
  induction vs as [|v vs IH]; intros acc N F; [contradiction|]. inversion F as [|? ? V F']; subst. destruct vs as [|v' vs].
  - cbn [line_of]. rewrite <- (app_nil_r (split_at _ v)), join_value by exact V. reflexivity.
  - change (line_of (v :: v' :: vs)) with (v ++ ","%char :: line_of (v' :: vs)). rewrite split_app, join_value by exact V. rewrite IH by (discriminate || exact F'). now rewrite <- app_assoc.
Qed.
(** A line of values is read as these values, with the line end cut off. *)
Theorem C223_values : forall vs v eol, Forall value (vs ++ [v ++ eol]) -> values_of (line_of (vs ++ [v ++ eol])) = Some (vs ++ [strip (v ++ eol)]).
Proof. intros vs v eol F. unfold values_of. rewrite join_line by (exact F || now destruct vs). cbn [bind app]. now rewrite rev_unit, rev_involutive. Qed.
Print Assumptions C223_values.
Lemma line_app : forall vs v w, line_of (vs ++ [v ++ w]) = line_of (vs ++ [v]) ++ w.
Proof.
  induction vs as [|x vs IH]; intros v w; [reflexivity|]. cbn [app line_of]. destruct (vs ++ [v ++ w]) as [|y l] eqn:E; [now destruct vs|].
  destruct (vs ++ [v]) as [|y' l'] eqn:E'; [now destruct vs|]. rewrite <- E, <- E', IH. now rewrite <- app_assoc.
Qed.
Lemma line_more : forall vs w, vs <> [] -> line_of (vs ++ [w]) = line_of vs ++ ","%char :: w.
Proof.
  induction vs as [|x vs IH]; intros w N; [contradiction|]. destruct vs as [|y vs]; [reflexivity|]. change (line_of ((x :: y :: vs) ++ [w])) with (x ++ ","%char :: line_of ((y :: vs) ++ [w])).
  rewrite IH by discriminate. change (line_of (x :: y :: vs)) with (x ++ ","%char :: line_of (y :: vs)). now rewrite <- app_assoc.
Qed.
(** Nothing of any line is lost or moved but blanks at its end and at the beginning of its last value. *)
Theorem C223_nothing_lost : forall line vs, values_of line = Some vs -> exists front v, vs = front ++ [strip v] /\ line = line_of (front ++ [v]).
Proof.
  intros line vs H. unfold values_of in H.
  assert (J : forall raw acc out, acc <> [] -> join acc raw = Some out -> out <> [] /\ line_of out = line_of acc ++ flat_map (fun p => ","%char :: p) raw).
  { induction raw as [|r raw IH]; intros acc out N E; cbn [join] in E; [injection E as <-; split; [exact N|cbn; now rewrite app_nil_r]|].
    assert (K : forall out, join (acc ++ [r]) raw = Some out -> out <> [] /\ line_of out = line_of acc ++ flat_map (fun p => ","%char :: p) (r :: raw)).
    { intros o O. destruct (IH (acc ++ [r]) o) as [I1 I2]; [now destruct acc|exact O|]. split; [exact I1|]. rewrite I2, line_more by exact N. cbn [flat_map]. now rewrite <- app_assoc. }
    destruct r as [|c r]; [now apply K|]. destruct (Ascii.eqb c " "%char); [|now apply K].
    destruct (rev acc) as [|v vs'] eqn:R; [discriminate|]. assert (acc = rev vs' ++ [v]) as A by (rewrite <- (rev_involutive acc), R; reflexivity).
    destruct (IH (rev vs' ++ [v ++ ","%char :: c :: r]) out) as [I1 I2]; [now destruct (rev vs')|exact E|]. split; [exact I1|]. rewrite I2, line_app, A. cbn [flat_map]. now rewrite <- app_assoc. }
  destruct (split_line ","%char line) as (w & ws & E & D). rewrite E in H. cbn [join] in H.
  assert (exists out, join [w] ws = Some out /\ match rev out with [] => None | v :: r => Some (rev r ++ [strip v]) end = Some vs) as (out & O & L).
  { destruct w as [|c w]; [|destruct (Ascii.eqb c " "%char); [discriminate|]]; cbn [app rev] in H; (destruct (join _ ws) as [out|] eqn:O; [|discriminate]); exists out; now split. }
  destruct (J ws [w] out ltac:(discriminate) O) as [N I]. destruct (rev out) as [|v r] eqn:R; [discriminate|]. injection L as <-. exists (rev r), v. split; [reflexivity|].
  change (rev r ++ [v]) with (rev (v :: r)). rewrite <- R, rev_involutive, I. exact D.
Qed.
Print Assumptions C223_nothing_lost.

(** * The lines of a log *)
Lemma same_eq : forall a b, same a b = true <-> a = b.
Proof.
  induction a as [|x a IH]; intros [|y b]; cbn [same]; split; try reflexivity; try discriminate; intros H.
  - apply Bool.andb_true_iff in H. destruct H as [H1 H2]. apply Ascii.eqb_eq in H1. apply IH in H2. congruence.
  - injection H as -> ->. rewrite Ascii.eqb_refl. now apply IH.
Qed.
Section Log.
  Variable stamp : text -> Q.
  Variable number : text -> R.
  (** What a line of the log says: a position of 15 values after the name, a heading of 15, something else. *)
  Inductive says : text -> list obs -> Prop :=
  | says_position line v : values_of line = Some v -> nth 0 v [] = txt "LatLongObs" -> length v = 16%nat ->
      says line [LatLong (nth 3 v []) (stamp (nth 7 v [])) (number (nth 10 v [])) (number (nth 11 v [])) (number (nth 12 v []))]
  | says_heading line v : values_of line = Some v -> nth 0 v [] = txt "PitchRollHeadingObs" -> length v = 16%nat ->
      says line [Attitude (nth 3 v []) (stamp (nth 7 v [])) (number (nth 12 v []))]
  | says_unknown line v : values_of line = Some v ->
      ~ In (nth 0 v []) (map txt ["AccelerationObs"; "PitchRollObs"; "PitchRollHeadingObs"; "DisplacementObs"; "DepthObs"; "HeadingObs"; "GPSLatLongObs"; "LatLongObs"; "GridPositionObs";
        "USBLVectorObs"; "USBLRangeObs"; "VelocityObs"; "Event"; "EstimateTrackerMetrics"; "Time"; "Alarm"; "AlarmStateChange"; "JobData"]%string) -> says line []
  | says_depth line v : values_of line = Some v -> nth 0 v [] = txt "DepthObs" -> length v = 12%nat -> says line [Other]
  | says_gps line v : values_of line = Some v -> nth 0 v [] = txt "GPSLatLongObs" -> length v = 21%nat -> says line [Other]
  | says_event line v : values_of line = Some v -> nth 0 v [] = txt "Event" -> length v = 12%nat -> says line [Other].

  Lemma same_not : forall a b, a <> b -> same a b = false.
  Proof. intros a b N. destruct (same a b) eqn:E; [|reflexivity]. apply same_eq in E. contradiction. Qed.
  Lemma says_read : forall line out, says line out -> exists v, values_of line = Some v /\ forall previous,
    read_line stamp number previous v = match out with o :: _ => Add o | [] => Skip end /\ (length out <= 1)%nat.
  Proof.
    intros line out [l v V K L|l v V K L|l v V K|l v V K L|l v V K L|l v V K L]; exists v; (split; [exact V|]); intros previous; unfold read_line, cell.
    - rewrite K, L. now split; [|cbn; lia].
    - rewrite K, L. now split; [|cbn; lia].
    - cbn [map] in K. assert (forall x, In x (map txt ["AccelerationObs"; "PitchRollObs"; "PitchRollHeadingObs"; "DisplacementObs"; "DepthObs"; "HeadingObs"; "GPSLatLongObs"; "LatLongObs"; "GridPositionObs";
        "USBLVectorObs"; "USBLRangeObs"; "VelocityObs"; "Event"; "EstimateTrackerMetrics"; "Time"; "Alarm"; "AlarmStateChange"; "JobData"]%string) -> same (nth 0 v []) x = false) as N by (intros x X; apply same_not; intros E; apply K; now rewrite E).
      unfold lookup, arities. split; [|cbn; lia]. rewrite !N by (cbn [map In]; tauto). reflexivity.
    - rewrite K, L. now split; [|cbn; lia].
    - rewrite K, L. now split; [|cbn; lia].
    - rewrite K, L. now split; [|cbn; lia].
  Qed.
  Lemma read_body : forall lines outs, Forall2 says lines outs -> forall i previous, i = 0%nat \/ (36 <= i)%nat -> (i = 0%nat -> (length lines <= 1)%nat) ->
    read_lines stamp number i previous lines = Some (concat outs).
  Proof.
    intros lines outs F. induction F as [|line out lines outs S0 F IH]; intros i previous I J; [reflexivity|]. destruct (says_read _ _ S0) as (v & V & R). cbn [read_lines concat].
    assert (((0 <? i) && (i <? 36))%nat%bool = false) as -> by (apply Bool.andb_false_iff; destruct I as [->|I]; [left; reflexivity|right; apply Nat.ltb_ge; exact I]).
    rewrite V. cbn [bind]. destruct (R previous) as [-> L].
    assert (forall p, read_lines stamp number (S i) p lines = Some (concat outs)) as K.
    { intros p. destruct lines as [|l ls]; [inversion F; reflexivity|]. apply IH; [right|]; destruct I as [->|I]; cbn [length] in J; try lia. }
    destruct out as [|o [|o' out]]; [apply K| |cbn in L; lia]. rewrite K. reflexivity.
  Qed.
  Lemma skip_header : forall header i previous body, (0 < i)%nat -> (i + length header <= 36)%nat ->
    read_lines stamp number i previous (header ++ body) = read_lines stamp number (i + length header) previous body.
  Proof.
    induction header as [|h header IH]; intros i previous body I L; [cbn; now rewrite Nat.add_0_r|]. cbn [app read_lines length] in *.
    assert (((0 <? i) && (i <? 36))%nat%bool = true) as -> by (apply Bool.andb_true_iff; split; apply Nat.ltb_lt; lia). rewrite IH by lia. f_equal. lia.
  Qed.
  (** The first line and those from the thirty-seventh on are read in order; nothing that the lines between say matters. *)
  Theorem C223_log : forall first header body out outs, says first out -> length header = 35%nat -> Forall2 says body outs ->
    parse_mrt_csv stamp number (first :: header ++ body) = Some (out ++ concat outs).
  Proof.
    intros first header body out outs F L B. unfold parse_mrt_csv. destruct (says_read _ _ F) as (v & V & R). cbn [read_lines Nat.ltb Nat.leb andb]. rewrite V. cbn [bind].
    destruct (R None) as [-> K]. assert (forall p, read_lines stamp number 1 p (header ++ body) = Some (concat outs)) as E.
    { intros p. rewrite skip_header by lia. apply read_body; [exact B|right; lia|lia]. }
    destruct out as [|o [|o' out]]; [apply E| |cbn in K; lia]. now rewrite E.
  Qed.
  Print Assumptions C223_log.
End Log.

(** * Association *)
(** The partner of a time among entries: the earliest of those not before it, or the latest of all if all are before. *)
Definition follows {A} (key : A -> Q) (t : Q) (l : list A) (x : A) : Prop :=
  In x l /\ ((t <= key x)%Q /\ (forall y, In y l -> (t <= key y)%Q -> (key x <= key y)%Q) \/ (forall y, In y l -> (key y < t)%Q /\ (key y <= key x)%Q)).
Lemma advance_suffix : forall {A} (key : A -> Q) t l, exists a, l = a ++ advance key t l /\ forall y, In y a -> (key y < t)%Q.
Proof.
  intros A key t. induction l as [|x l IH]; [now exists []|]. destruct l as [|y l]; [now exists []|]. change (advance key t (x :: y :: l)) with (if Qltb (key x) t then advance key t (y :: l) else x :: y :: l).
  destruct (Qltb (key x) t) eqn:E; [|now exists []]. destruct IH as (a & D & L). exists (x :: a). split; [cbn [app]; now rewrite <- D|]. intros z [<-|Z]; [now apply Qltb_lt|now apply L].
Qed.
Lemma advance_head : forall {A} (key : A -> Q) t l, l <> [] -> exists x r, advance key t l = x :: r /\ ((t <= key x)%Q \/ r = [] /\ (key x < t)%Q).
Proof.
  intros A key t. induction l as [|x l IH]; intros N; [contradiction|]. destruct l as [|y l].
  - exists x, []. split; [reflexivity|]. destruct (Qlt_le_dec (key x) t); [now right|now left].
  - change (advance key t (x :: y :: l)) with (if Qltb (key x) t then advance key t (y :: l) else x :: y :: l). destruct (Qltb (key x) t) eqn:E; [now apply IH|].
    exists x, (y :: l). split; [reflexivity|]. left. apply Qnot_lt_le. intros K. apply Qltb_lt in K. congruence.
Qed.
Lemma nd_app : forall {A} (key : A -> Q) a b, nondecreasing key (a ++ b) -> nondecreasing key b /\ forall x y, In x a -> In y b -> (key x <= key y)%Q.
Proof.
  induction a as [|x a IH]; intros b H; [split; [exact H|intros ? ? []]|]. apply nd_cons_iff in H. destruct H as [H1 H2]. destruct (IH b H2) as [I1 I2]. split; [exact I1|].
  intros z y [<-|Z] Y; [apply H1, in_or_app; now right|now apply I2].
Qed.
Lemma advance_follows : forall {A} (key : A -> Q) t all past l, all = past ++ l -> nondecreasing key all -> (forall y, In y past -> (key y < t)%Q) -> l <> [] ->
  exists x r past', advance key t l = x :: r /\ all = past' ++ x :: r /\ (forall y, In y past' -> (key y < t)%Q) /\ follows key t all x.
Proof.
  intros A key t all past l E N P L. destruct (advance_suffix key t l) as (a & D & Q1). destruct (advance_head key t l L) as (x & r & H & C). rewrite H in D. exists x, r, (past ++ a).
  split; [exact H|]. assert (all = (past ++ a) ++ x :: r) as E' by (rewrite E, D at 1; now rewrite app_assoc). split; [exact E'|].
  assert (P' : forall y, In y (past ++ a) -> (key y < t)%Q) by (intros y Y; apply in_app_or in Y; destruct Y; auto). split; [exact P'|].
  rewrite E' in N. destruct (nd_app key _ _ N) as [N1 N2]. apply nd_cons_iff in N1. destruct N1 as [N1 _]. split; [rewrite E'; apply in_or_app; right; now left|].
  destruct C as [C|[-> C]].
  - left. split; [exact C|]. intros y Y T. rewrite E' in Y. apply in_app_or in Y. destruct Y as [Y|[<-|Y]]; [apply P' in Y; exfalso; exact (Qlt_not_le _ _ Y T)|apply Qle_refl|now apply N1].
  - right. intros y Y. rewrite E' in Y. apply in_app_or in Y. destruct Y as [Y|[<-|[]]]; [split; [now apply P'|apply N2; [exact Y|now left]]|split; [exact C|apply Qle_refl]].
Qed.
Lemma associate_follows : forall auvs ships heads, forall pships pheads sall hall, sall = pships ++ ships -> hall = pheads ++ heads -> ships <> [] -> heads <> [] ->
  nondecreasing p_t sall -> nondecreasing fst hall -> nondecreasing p_t auvs ->
  (forall a y, In a auvs -> In y pships -> (p_t y < p_t a)%Q) -> (forall a y, In a auvs -> In y pheads -> (fst y < p_t a)%Q) ->
  Forall2 (fun a e => exists s h, e = (a, Some (s, h)) /\ follows p_t (p_t a) sall s /\ follows fst (p_t a) hall h) auvs (associate auvs ships heads).
Proof.
  induction auvs as [|a auvs IH]; intros ships heads ps ph sall hall S1 H1 NS NH OS OH OA PS PH; [constructor|]. cbn [associate].
  destruct (advance_follows p_t (p_t a) sall ps ships S1 OS (fun y => PS a y (or_introl eq_refl)) NS) as (s & sr & ps' & -> & S2 & S3 & S4).
  destruct (advance_follows fst (p_t a) hall ph heads H1 OH (fun y => PH a y (or_introl eq_refl)) NH) as (h & hr & ph' & -> & H2 & H3 & H4).
  apply nd_cons_iff in OA. destruct OA as [OA1 OA2]. constructor; [exists s, h; auto|].
  apply (IH _ _ ps' ph'); try assumption; try discriminate; intros b y B Y; eapply Qlt_le_trans; [now apply S3|now apply OA1|now apply H3|now apply OA1].
Qed.
Lemma position_In : forall w l p, In p (flat_map (position_of w) l) <-> In (LatLong w (p_t p) (p_lat p) (p_lon p) (p_alt p)) l.
Proof.
  intros w l p. rewrite in_flat_map. split.
  - intros (o & O & I). destruct o as [s t la lo al| |]; cbn in I; try contradiction. destruct (same s w) eqn:E; [|destruct I]. destruct I as [<-|[]]. apply same_eq in E. subst. exact O.
  - intros O. eexists. split; [exact O|]. cbn. assert (same w w = true) as -> by now apply same_eq. left. now destruct p.
Qed.
Lemma heading_In : forall l h, In h (flat_map heading_of l) <-> In (Attitude (txt "MRT-USBL") (fst h) (snd h)) l.
Proof.
  intros l h. rewrite in_flat_map. split.
  - intros (o & O & I). destruct o as [|s t v|]; cbn [heading_of] in I; try contradiction. destruct (same s (txt "MRT-USBL")) eqn:E; [|destruct I]. destruct I as [<-|[]]. apply same_eq in E. subst. exact O.
  - intros O. eexists. split; [exact O|]. cbn. left. now destruct h.
Qed.
(** Every position of the vehicle appears once, in order of time, with the ship's position and the heading that follow it. *)
Theorem C223_association : forall l ship head, In (LatLong (txt "GNSS 1") (p_t ship) (p_lat ship) (p_lon ship) (p_alt ship)) l -> In (Attitude (txt "MRT-USBL") (fst head) (snd head)) l ->
  exists ships heads, (forall p, In p ships <-> In (LatLong (txt "GNSS 1") (p_t p) (p_lat p) (p_lon p) (p_alt p)) l) /\ (forall h, In h heads <-> In (Attitude (txt "MRT-USBL") (fst h) (snd h)) l) /\
  Permutation (map fst (find_closest l)) (flat_map (position_of (txt "AUV 1")) l) /\ nondecreasing p_t (map fst (find_closest l)) /\
  (forall p, In p (map fst (find_closest l)) <-> In (LatLong (txt "AUV 1") (p_t p) (p_lat p) (p_lon p) (p_alt p)) l) /\
  Forall (fun e => exists s h, snd e = Some (s, h) /\ follows p_t (p_t (fst e)) ships s /\ follows fst (p_t (fst e)) heads h) (find_closest l).
Proof.
  intros l ship head IS IH. set (ships := qsort p_t (flat_map (position_of (txt "GNSS 1")) l)). set (heads := qsort fst (flat_map heading_of l)).
  exists ships, heads. assert (S1 : forall p, In p ships <-> In (LatLong (txt "GNSS 1") (p_t p) (p_lat p) (p_lon p) (p_alt p)) l) by (intros p; unfold ships; rewrite qsort_In; apply position_In).
  assert (H1 : forall h, In h heads <-> In (Attitude (txt "MRT-USBL") (fst h) (snd h)) l) by (intros h; unfold heads; rewrite qsort_In; apply heading_In).
  split; [exact S1|]. split; [exact H1|].
  assert (F := associate_follows (qsort p_t (flat_map (position_of (txt "AUV 1")) l)) ships heads [] [] ships heads eq_refl eq_refl).
  assert (E : Forall2 (fun a e => exists s h, e = (a, Some (s, h)) /\ follows p_t (p_t a) ships s /\ follows fst (p_t a) heads h) (qsort p_t (flat_map (position_of (txt "AUV 1")) l)) (find_closest l)).
  { apply F; [intros K; apply S1 in IS; rewrite K in IS; destruct IS|intros K; apply H1 in IH; rewrite K in IH; destruct IH|apply qsort_sorted|apply qsort_sorted|apply qsort_sorted|intros ? ? _ []|intros ? ? _ []]. }
  clear F. assert (M : map fst (find_closest l) = qsort p_t (flat_map (position_of (txt "AUV 1")) l)).
  { clear - E. induction E as [|a e al el (s & h & -> & _) E IH]; [reflexivity|]. cbn [map fst]. now rewrite IH. }
  rewrite M. split; [symmetry; apply qsort_perm|]. split; [apply qsort_sorted|]. split; [intros p; rewrite qsort_In; apply position_In|].
  clear M. induction E as [|a e al el (s & h & -> & F1 & F2) E IH']; constructor; [exists s, h; auto|exact IH'].
Qed.
Print Assumptions C223_association.

(** * Records *)
Section Record.
  Variable latlon_to_metres : R -> R -> R -> R -> R * R.
  Variable metres_to_latlon : R -> R -> R -> R -> R * R.
  Variables lat_ref lon_ref factor offset : R.
  Variables tz timeoffset : Q.
  Local Notation rec := (record latlon_to_metres metres_to_latlon lat_ref lon_ref factor offset tz timeoffset).
  Lemma place_hypot : forall la lo, (let p := placed latlon_to_metres lat_ref lon_ref la lo in fst p * fst p + snd p * snd p = fst (latlon_to_metres la lo lat_ref lon_ref) * fst (latlon_to_metres la lo lat_ref lon_ref))%R.
  Proof.
    intros la lo. unfold placed. destruct (latlon_to_metres la lo lat_ref lon_ref) as [d b]. cbn [fst snd]. set (a := (b * PI / 180)%R).
    pose proof (sin2_cos2 a) as S2. unfold Rsqr in S2. replace (cos a * d * (cos a * d) + sin a * d * (sin a * d))%R with (d * d * (sin a * sin a + cos a * cos a))%R by ring. rewrite S2. ring.
  Qed.
  (** Positions, depth and heading are those of the log; the distance is that of a right-angled triangle, one deviation is
      proportional to it with an offset, and the metres are at the distances from the origin; the time is in UTC. *)
  Theorem C223_record : forall a s h, let r := rec a s h in
    (u_t r == p_t a - 3600 * tz + timeoffset)%Q /\ u_lat r = p_lat a /\ u_lon r = p_lon a /\ u_depth r = (- p_alt a)%R /\
    u_ship_lat r = p_lat s /\ u_ship_lon r = p_lon s /\ u_ship_heading r = snd h /\
    (u_distance r * u_distance r = fst (latlon_to_metres (p_lat a) (p_lon a) (p_lat s) (p_lon s)) ^ 2 + u_depth r ^ 2)%R /\ (Rabs (u_depth r) <= u_distance r)%R /\
    u_north_std r = (offset + u_distance r * factor)%R /\ u_east_std r = u_north_std r /\ u_depth_std r = u_north_std r /\ (0 <= u_lat_std r)%R /\ (0 <= u_lon_std r)%R /\ 
    (forall dla dlo, metres_to_latlon (Rabs (p_lat a)) (Rabs (p_lon a)) (u_north_std r) (u_north_std r) = (Rabs (p_lat a) + dla, Rabs (p_lon a) + dlo)%R -> u_lat_std r = Rabs dla /\ u_lon_std r = Rabs dlo) /\
    (u_north r ^ 2 + u_east r ^ 2 = fst (latlon_to_metres (p_lat a) (p_lon a) lat_ref lon_ref) ^ 2)%R /\
    (u_ship_north r ^ 2 + u_ship_east r ^ 2 = fst (latlon_to_metres (p_lat s) (p_lon s) lat_ref lon_ref) ^ 2)%R /\
    (forall d b, latlon_to_metres (p_lat a) (p_lon a) lat_ref lon_ref = (d, b) -> u_north r = (d * cos (b * (PI / 180)))%R /\ u_east r = (d * sin (b * (PI / 180)))%R) /\
    (forall d b, latlon_to_metres (p_lat s) (p_lon s) lat_ref lon_ref = (d, b) -> u_ship_north r = (d * cos (b * (PI / 180)))%R /\ u_ship_east r = (d * sin (b * (PI / 180)))%R).
  Proof.
    intros a s h r. subst r. unfold record. set (m := metres_to_latlon _ _ _ _). destruct m as [la lo] eqn:EM. unfold m in EM. clear m. revert EM. cbn [u_t u_lat u_lon u_depth u_ship_lat u_ship_lon u_ship_heading u_distance u_north_std u_east_std u_depth_std u_lat_std u_lon_std u_north u_east u_ship_north u_ship_east].
    set (l := fst (latlon_to_metres (p_lat a) (p_lon a) (p_lat s) (p_lon s))). set (d := (- p_alt a)%R). intros EM.
    assert (P : (0 <= l * l + d * d)%R) by (pose proof (Rle_0_sqr l); pose proof (Rle_0_sqr d); unfold Rsqr in *; Lra.lra).
    assert (PA := place_hypot (p_lat a) (p_lon a)). assert (PS := place_hypot (p_lat s) (p_lon s)). cbn [fst snd] in PA, PS.
    split; [ring|]. repeat (split; [reflexivity|]). split; [rewrite sqrt_sqrt by exact P; ring|].
    split; [rewrite <- sqrt_Rsqr_abs; apply sqrt_le_1_alt; unfold Rsqr; pose proof (Rle_0_sqr l); unfold Rsqr in *; Lra.lra|].
    split; [ring|]. repeat (split; [reflexivity|]). split; [apply Rabs_pos|]. split; [apply Rabs_pos|].
    split; [intros dla dlo E; rewrite EM in E; injection E as -> ->; split; rewrite <- Rabs_Ropp; f_equal; ring|]. split; [Lra.lra|]. split; [Lra.lra|].
    split; intros e b E; unfold placed; rewrite E; cbn [fst snd]; replace (b * PI / 180)%R with (b * (PI / 180))%R by (unfold Rdiv; ring); split; ring.
  Qed.
  Print Assumptions C223_record.
  (** All positions get a record, in their order. *)
  Theorem C223_records : forall l, Forall (fun e => snd e <> None) l -> exists out, records latlon_to_metres metres_to_latlon lat_ref lon_ref factor offset tz timeoffset l = Some out /\
    Forall2 (fun e r => exists s h, snd e = Some (s, h) /\ r = rec (fst e) s h) l out.
  Proof.
    induction l as [|(a & [(s & h)|]) l IH]; intros F; [now exists []| |inversion F as [|? ? K]; destruct K; reflexivity]. inversion F as [|? ? _ F']; subst. destruct (IH F') as (out & E & O).
    exists (rec a s h :: out). cbn [records]. rewrite E. split; [reflexivity|]. constructor; [exists s, h; split; reflexivity|exact O].
  Qed.
  Print Assumptions C223_records.
  (** Logs that are read, with at least one position of the ship and one heading, give one record for each position of the vehicle, in
      order of time, each at its own position. *)
  Theorem C223_mrt : forall stamp number stem files l ship head, read_files stamp number stem files = Some l ->
    In (LatLong (txt "GNSS 1") (p_t ship) (p_lat ship) (p_lon ship) (p_alt ship)) l -> In (Attitude (txt "MRT-USBL") (fst head) (snd head)) l ->
    exists out auvs, parse_mrt stamp number latlon_to_metres metres_to_latlon lat_ref lon_ref factor offset tz timeoffset stem files = Some out /\
    nondecreasing p_t auvs /\ Permutation auvs (flat_map (position_of (txt "AUV 1")) l) /\
    Forall2 (fun a r => (u_t r == p_t a - 3600 * tz + timeoffset)%Q /\ u_lat r = p_lat a /\ u_lon r = p_lon a /\ u_depth r = (- p_alt a)%R /\
      exists t al, In (LatLong (txt "GNSS 1") t (u_ship_lat r) (u_ship_lon r) al) l) auvs out.
  Proof.
    intros stamp number stem files l ship head E IS IH. destruct (C223_association l ship head IS IH) as (ships & heads & S1 & H1 & P & O & A & F).
    destruct (C223_records (find_closest l)) as (out & R & G); [eapply Forall_impl; [|exact F]; intros e (s & h & -> & _); discriminate|].
    exists out, (map fst (find_closest l)). unfold parse_mrt. rewrite E. cbn [bind]. split; [exact R|]. split; [exact O|]. split; [exact P|].
    clear - F G S1. induction G as [|e r es rs (s & h & K & ->) G IHG]; [constructor|]. inversion F as [|? ? (s' & h' & K' & F1 & _) F']; subst. constructor; [|now apply IHG].
    rewrite K in K'. injection K' as <- <-. destruct (C223_record (fst e) s h) as (T & L1 & L2 & L3 & L4 & L5 & _). split; [exact T|]. split; [exact L1|]. split; [exact L2|]. split; [exact L3|].
    rewrite L4, L5. exists (p_t s), (p_alt s). apply S1. now destruct F1.
  Qed.
  Print Assumptions C223_mrt.
End Record.

(** * GGA variants *)
(** Cells separated by commas, spaces and asterisks. *)
Inductive separated : list text -> text -> Prop :=
| sep_last c : ~ In ","%char c -> ~ In " "%char c -> ~ In "*"%char c -> separated [c] c
| sep_more c s cells line : ~ In ","%char c -> ~ In " "%char c -> ~ In "*"%char c -> In s [","%char; " "%char; "*"%char] -> separated cells line -> separated (c :: cells) (c ++ s :: line).
Lemma separator_not : forall c x, ~ In ","%char (x :: c) -> ~ In " "%char (x :: c) -> ~ In "*"%char (x :: c) -> separator x = false /\ ~ In ","%char c /\ ~ In " "%char c /\ ~ In "*"%char c.
Proof.
  intros c x A B C. split; [|cbn in A, B, C; tauto]. unfold separator. rewrite !Bool.orb_false_iff. repeat split; apply Ascii.eqb_neq; intros ->; [apply A|apply B|apply C]; now left.
Qed.
Lemma split_cells : forall cells line, separated cells line -> split_any line = cells.
Proof.
  intros cells line H. induction H as [c A B C|c s cells line A B C S0 H IH].
  - induction c as [|x c IH]; [reflexivity|]. destruct (separator_not c x A B C) as (E & A' & B' & C'). cbn [split_any]. rewrite E, IH by assumption. reflexivity.
  - assert (separator s = true) as E by (destruct S0 as [<-|[<-|[<-|[]]]]; reflexivity).
    clear H. induction c as [|x c IHc]; cbn [app split_any]; [now rewrite E, IH|]. destruct (separator_not c x A B C) as (Ex & A' & B' & C'). rewrite Ex, IHc by assumption. reflexivity.
Qed.
(** Columns of the id and of the latitude in the four variants; the second and the third have the date in the row. *)
Inductive format : variant -> nat -> nat -> bool -> Prop :=
| form1 : format gga1 9 5 false | form2 : format gga2 19 8 true | form3 : format gga3 20 8 true | form4 : format gga4 17 5 false.
(** Degrees of so many digits and minutes after them *)
Inductive angle (w : nat) : text -> Q -> Prop := angle_of d m q : numeral w d -> written m q -> angle w (pad w d ++ m) (inject_Z d + q / 60)%Q.
Definition hemisphere (minus : string) (s : text) (q : Q) : Q := if same s (txt minus) then (- q)%Q else q.
(** The text that is read as the time *)
Inductive time_text : bool -> text -> text -> text -> text -> Prop :=
| tt_row stem y mo d h mi s f c1 c2 c3 c4 c5 : length y = 4%nat -> length mo = 2%nat -> length d = 2%nat -> length h = 2%nat -> length mi = 2%nat -> length s = 2%nat ->
    time_text true stem (y ++ c1 :: mo ++ c2 :: d) (h ++ c3 :: mi ++ c4 :: s ++ c5 :: f)
      (y ++ "-"%char :: mo ++ "-"%char :: d ++ " "%char :: h ++ ":"%char :: mi ++ ":"%char :: s ++ "."%char :: f)
| tt_stem y mo d rest c0 clock : length y = 4%nat -> length mo = 2%nat -> length d = 2%nat ->
    time_text false (y ++ mo ++ d ++ rest) c0 clock (y ++ "-"%char :: mo ++ "-"%char :: d ++ " "%char :: clock).
Inductive row (v : variant) (stem : text) (id : Z) : text -> option (Q * Q * text) -> Prop :=
| row_fix line cells i c date idt lat ns lon ew d0 d1 qlat qlon t : format v i c date -> separated cells line -> nth_error cells i = Some idt -> whole idt id ->
    nth_error cells c = Some lat -> nth_error cells (c + 1) = Some ns -> nth_error cells (c + 2) = Some lon -> nth_error cells (c + 3) = Some ew ->
    nth_error cells 0 = Some d0 -> nth_error cells 1 = Some d1 -> angle 2 lat qlat -> angle 3 lon qlon -> time_text date stem d0 d1 t ->
    row v stem id line (Some (hemisphere "W" ew qlon, hemisphere "S" ns qlat, t))
| row_other line cells i c date idt n : format v i c date -> separated cells line -> nth_error cells i = Some idt -> whole idt n -> n <> id -> row v stem id line None
| row_short line cells i c date : format v i c date -> separated cells line -> (length cells <= i)%nat -> row v stem id line None.
Definition alike (a b : Q * Q * text) : Prop := (fst (fst a) == fst (fst b))%Q /\ (snd (fst a) == snd (fst b))%Q /\ snd a = snd b.

Lemma pad_first : forall w d m, firstn w (pad w d ++ m) = pad w d.
Proof. intros w d m. rewrite firstn_app, pad_length, Nat.sub_diag, firstn_O, app_nil_r. apply firstn_all2. now rewrite pad_length. Qed.
Lemma pad_rest : forall w d m, skipn w (pad w d ++ m) = m.
Proof. intros w d m. rewrite skipn_app, pad_length, Nat.sub_diag, skipn_all2 by now rewrite pad_length. reflexivity. Qed.
Lemma angle_read : forall w s q, angle w s q -> exists v, degrees w s = Some v /\ (v == q)%Q.
Proof.
  intros w s q [d m x N W]. unfold degrees. rewrite (pad_first w), (pad_rest w).
  assert (written (pad w d) (inject_Z d)) as D.
  { replace (pad w d) with ([] ++ sign false ++ pad w d ++ []) by (cbn; apply app_nil_r). change (inject_Z d) with (negated false (inject_Z d)). constructor; [intros c []|intros c []|exact N]. }
  destruct (float_written _ _ D) as (dv & -> & DE). destruct (float_written _ _ W) as (mv & ME & MQ). cbn [bind]. rewrite ME. cbn [bind]. eexists. split; [reflexivity|]. rewrite DE, MQ. reflexivity.
Qed.
Ltac five := repeat match goal with H : length ?l = S _ |- _ => let x := fresh "x" in destruct l as [|x l]; cbn [length] in H; [discriminate|apply eq_add_S in H] | H : length ?l = 0%nat |- _ => apply length_zero_iff_nil in H; subst l end.
Theorem C223_row : forall v stem id line out, row v stem id line out ->
  match out with Some e => exists r, gga_row v stem id line = Some r /\ alike e r | None => gga_row v stem id line = None end.
Proof.
  intros v stem id line out [ln cells i c date idt lat ns lon ew d0 d1 qlat qlon t F S0 I W L1 L2 L3 L4 D0 D1 A1 A2 T|ln cells i c date idt n F S0 I W N|ln cells i c date F S0 L];
    unfold gga_row; rewrite (split_cells _ _ S0).
  - destruct (angle_read _ _ _ A1) as (la & Ela & Qla). destruct (angle_read _ _ _ A2) as (lo & Elo & Qlo). pose proof (int_whole _ _ W) as EI.
    assert (exists r, bind (bind (nth_error cells i) int_text) (fun n => if negb (n =? id) then None else bind (nth_error cells (c + 1)) (fun ns => bind (nth_error cells (c + 3)) (fun ew =>
      bind (bind (nth_error cells c) (degrees 2)) (fun lat => bind (bind (nth_error cells (c + 2)) (degrees 3)) (fun lon => bind (nth_error cells 1) (fun d1 =>
      Some (if same ew (txt "W") then (- lon)%Q else lon, if same ns (txt "S") then (- lat)%Q else lat,
        if date then let d0 := nth 0 cells [] in slice 0 4 d0 ++ "-"%char :: slice 5 7 d0 ++ "-"%char :: slice 8 10 d0 ++ " "%char :: slice 0 2 d1 ++ ":"%char :: slice 3 5 d1 ++ ":"%char :: slice 6 8 d1 ++ "."%char :: skipn 9 d1
        else slice 0 4 stem ++ "-"%char :: slice 4 6 stem ++ "-"%char :: slice 6 8 stem ++ " "%char :: d1))))))) = Some r /\ alike (hemisphere "W" ew qlon, hemisphere "S" ns qlat, t) r) as G.
    { rewrite I. cbn [bind]. rewrite EI. cbn [bind]. rewrite Z.eqb_refl, L1, L2, L3, L4, D1. cbn [negb bind]. rewrite Ela, Elo. cbn [bind]. eexists. split; [reflexivity|]. unfold alike, hemisphere. cbn [fst snd].
      split; [destruct (same ew (txt "W")); now rewrite Qlo|]. split; [destruct (same ns (txt "S")); now rewrite Qla|].
      assert (nth 0 cells [] = d0) as E0 by (destruct cells; [discriminate|now injection D0]).
      destruct T as [st y mo d h mi s f c1 c2 c3 c4 c5 Y M DD H MI SS|y mo d rest c0 clock Y M DD].
      - cbn zeta. rewrite E0. five. reflexivity.
      - five. reflexivity. }
    destruct F; exact G.
  - pose proof (int_whole _ _ W) as EI. destruct F; cbn [v_id gga1 gga2 gga3 gga4]; rewrite I; cbn [bind]; rewrite EI; cbn [bind]; destruct (Z.eqb_spec n id); try contradiction; reflexivity.
  - apply nth_error_None in L. destruct F; cbn [v_id gga1 gga2 gga3 gga4]; rewrite L; reflexivity.
Qed.
Print Assumptions C223_row.
Definition kept {A} (l : list (option A)) : list A := flat_map (fun o => match o with Some a => [a] | None => [] end) l.
(** The fixes of a set of files are those of the rows of the configured beacon, in the order of the files and of the rows; their
    times are moved to UTC when the clock needs no other correction. *)
Theorem C223_gga : forall stamp v tz id files outs, Forall2 (fun f out => Forall2 (row v (fst f) id) (snd f) out) files outs ->
  (forall s, stamp s <> None) -> exists out, parse_gga stamp v tz 0 id files = Some out /\
  Forall2 (fun e r => exists t, stamp (snd e) = Some t /\ (fst (fst r) == t - 3600 * tz)%Q /\ (snd (fst r) == snd (fst e))%Q /\ (snd r == fst (fst e))%Q) (kept (concat outs)) out.
Proof.
  intros stamp v tz id files outs F ST. unfold parse_gga.
  assert (A : Forall2 alike (kept (concat outs)) (flat_map (fun f => gga_file v id (fst f) (snd f)) files)).
  { induction F as [|f out files outs H F IH]; [constructor|]. cbn [concat flat_map]. unfold kept. rewrite flat_map_app. apply Forall2_app; [|exact IH]. clear - H. unfold gga_file.
    induction H as [|l o ls os R H IH]; [constructor|]. cbn [flat_map]. pose proof (C223_row _ _ _ _ _ R) as K. destruct o as [e|]; [destruct K as (r & -> & A); constructor; [exact A|exact IH]|now rewrite K]. }
  induction A as [|e r es rs (A1 & A2 & A3) A IH]; [exists []; split; [reflexivity|constructor]|]. destruct IH as (out & E & O). destruct r as ((lo & la) & s). cbn [fst snd] in *. cbn [gga_records].
  destruct (stamp s) as [t|] eqn:T; [|now destruct (ST s)]. cbn [bind]. rewrite E. cbn [bind]. eexists. split; [reflexivity|]. constructor; [|exact O].
  exists t. cbn [fst snd]. rewrite A3. split; [exact T|]. split; [ring|]. split; now symmetry.
Qed.
Print Assumptions C223_gga.

(** * Examples *)
Definition log_cells : list text := map txt ["LatLongObs"; "12"; "4"; "AUV 1"; "1"; "Ship, aft"; ""; "2023-05-01 12:00:00.500000"; "7"; "0"; "50.5"; "-4.25"; "-30.5"; "0"; "0"; "1"]%string.
Example values_example : values_of (line_of log_cells ++ [ascii_of_nat 10]) = Some log_cells /\ length log_cells = 16%nat.
Proof. split; reflexivity. Qed.
Example gga_example : exists r, gga_row gga2 [] 17 (txt "2023/05/01 12:30:15.250 $GPGGA 1 2 3 4 5,4830.6,S,00415.3,W,1,08,0.9,0.0,M,46.9,M,17*42") = Some r /\ alike (- (4 + (153 # 10) / 60), - (48 + (306 # 10) / 60), txt "2023-05-01 12:30:15.250")%Q r.
Proof. eexists. split; [reflexivity|]. repeat split. Qed.
Definition at_ (t : Q) : position := mkposition t 0 0 0.
Example association_example : find_closest [LatLong (txt "AUV 1") 5 0 0 0; LatLong (txt "GNSS 1") 7 0 0 0; LatLong (txt "GNSS 1") 4 0 0 0; Attitude (txt "MRT-USBL") 1 9; LatLong (txt "AUV 1") 2 0 0 0] =
  [(at_ 2, Some (at_ 4, (1%Q, 9%R))); (at_ 5, Some (at_ 7, (1%Q, 9%R)))].
Proof. reflexivity. Qed.

(** * Refutations *)
Definition zero (_ : text) : Q := 0.
Definition none (_ : text) : R := 0%R.
Definition comma_line (w : string) (n : nat) : text := txt w ++ flat_map (fun _ => txt ",1") (seq 0 n).
(** A JobData line, meant to be ignored, repeats the observation before it; as the first line it ends the parse. *)
Theorem C224_job_refuted : exists line job out, read_lines zero none 36 None [line] = Some [out] /\ read_lines zero none 36 None [line; job] = Some [out; out] /\
  out <> Other /\ read_lines zero none 36 None [job; line] = None.
Proof. exists (line_of log_cells), (comma_line "JobData" 3). eexists. split; [reflexivity|]. split; [reflexivity|]. split; [discriminate|reflexivity]. Qed.
Print Assumptions C224_job_refuted.
(** A range observation with all its values, which end with pitch and roll, ends the parse; with one value fewer it is read. *)
Theorem C224_range_refuted : exists full short, values_of full <> None /\ short ++ txt ",1" = full /\ read_lines zero none 36 None [short] = Some [Other] /\ read_lines zero none 36 None [full] = None.
Proof. exists (comma_line "USBLRangeObs" 90), (comma_line "USBLRangeObs" 89). split; [discriminate|]. split; [reflexivity|]. split; reflexivity. Qed.
Print Assumptions C224_range_refuted.
(** The ship's position of find_closest_observations need not be the closest. *)
Theorem C224_closest_refuted : exists l a s h near, find_closest l = [(a, Some (s, h))] /\ In (LatLong (txt "GNSS 1") near 0 0 0) l /\ (Qabs (near - p_t a) < Qabs (p_t s - p_t a) / 100)%Q.
Proof. exists [LatLong (txt "AUV 1") 5 0 0 0; LatLong (txt "GNSS 1") (499 # 100) 0 0 0; LatLong (txt "GNSS 1") 10 0 0 0; Attitude (txt "MRT-USBL") 1 9], (at_ 5), (at_ 10), (1%Q, 9%R), (499 # 100). split; [reflexivity|]. split; [cbn; auto|reflexivity]. Qed.
Print Assumptions C224_closest_refuted.
(** The configured file is not read itself: only those whose names continue its stem with an underscore. *)
Theorem C224_file_refuted : exists stem lines l, parse_mrt_csv zero none lines = Some l /\ l <> [] /\ read_files zero none stem [(stem ++ txt ".csv", lines)] = Some [].
Proof. exists (txt "log"), [line_of log_cells]. eexists. split; [reflexivity|]. split; [discriminate|reflexivity]. Qed.
Print Assumptions C224_file_refuted.
(** Without any position of the ship no position of the vehicle is kept: the parse ends. *)
Theorem C224_alone_refuted : exists l, l <> [] /\ find_closest l <> [] /\ records (fun _ _ _ _ => (0%R, 0%R)) (fun _ _ _ _ => (0%R, 0%R)) 0 0 0 0 0 0 (find_closest l) = None.
Proof. exists [LatLong (txt "AUV 1") 5 0 0 0; Attitude (txt "MRT-USBL") 1 9]. split; [discriminate|]. split; [discriminate|reflexivity]. Qed.
Print Assumptions C224_alone_refuted.
(** A file named after a day that goes on after midnight: its rows go back by a day. *)
Definition gga_line (clock : string) : text := txt ("$ " ++ clock ++ " 1 2 3,4830.6,S,00415.3,W,17,1")%string.
Theorem C224_midnight_refuted : exists a b, gga_file gga1 17 (txt "20230501_GGAlsq") [gga_line "23:59:59.900"; gga_line "00:00:00.900"] = [a; b] /\
  snd a = txt "2023-05-01 23:59:59.900" /\ snd b = txt "2023-05-01 00:00:00.900".
Proof. eexists _, _. split; [reflexivity|]. split; reflexivity. Qed.
Print Assumptions C224_midnight_refuted.
(** strptime of "%Y-%m-%d %H:%M:%S.%f" needs at least one digit at the end: one row whose clock has no fraction ends the parse of all files. *)
Definition fraction_stamp (s : text) : option Q := match rev s with c :: _ => if Ascii.eqb c "."%char then None else Some 0%Q | [] => None end.
Definition gga2_line (clock : string) : text := txt ("2023/05/01 " ++ clock ++ " $GPGGA 1 2 3 4 5,4830.6,S,00415.3,W,1,08,0.9,0.0,M,46.9,M,17*42")%string.
Theorem C224_fraction_refuted : exists good bad r, parse_gga fraction_stamp gga2 0 0 17 [([], [good])] = Some [r] /\ gga_row gga2 [] 17 bad <> None /\
  parse_gga fraction_stamp gga2 0 0 17 [([], [good; bad])] = None.
Proof. exists (gga2_line "12:30:15.250"), (gga2_line "12:30:15"). eexists. split; [reflexivity|]. split; [discriminate|reflexivity]. Qed.
Print Assumptions C224_fraction_refuted.
(** The same correction of the clock moves the fixes of the MRT logs and of the GGA files in opposite directions. *)
Theorem C224_clock_refuted : exists a s h r f g, r = record (fun _ _ _ _ => (0%R, 0%R)) (fun _ _ _ _ => (0%R, 0%R)) 0 0 0 0 0 10 a s h /\ (u_t r == p_t a + 10)%Q /\
  parse_gga (fun _ => Some (p_t a)) gga2 0 10 17 f = Some [g] /\ (fst (fst g) == p_t a - 10)%Q.
Proof. exists (at_ 100), (at_ 100), (100%Q, 0%R). eexists. exists [([], [gga2_line "12:30:15.250"])]. eexists. split; [reflexivity|]. split; [reflexivity|]. split; reflexivity. Qed.
Print Assumptions C224_clock_refuted.
