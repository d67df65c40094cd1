(** C253, C254: the USBL logs of JAMSTEC. *)
From Coq Require Import Ascii String.
From Verif Require Import PyBase NmeaModel NmeaSpec NmeaProofs LatlonModel LatlonProps DumpModel.
Open Scope Q_scope.

(** A line as the instrument writes it. *)
Record entry := mkentry {
  e_y : text; e_mo : text; e_d : text; e_h : text; e_mi : text; e_s : text; e_name : text; e_x : text * text * text;
  e_place : text; e_place' : text;
  e_k8 : text; e_depth : text; e_k9 : text; e_lateral : text; e_k10 : text; e_bearing : text; e_k11 : text; e_distance : text }.
Definition coordinate (degrees minutes : text) (hemisphere : N) : text := (degrees ++ 45%N :: minutes) ++ 32%N :: [hemisphere].
Definition fields_of (e : entry) : list text :=
  (e_y e ++ 45%N :: e_mo e ++ 45%N :: e_d e) ::
  [e_h e ++ 58%N :: e_mi e ++ 58%N :: e_s e; e_name e; fst (fst (e_x e)); snd (fst (e_x e)); snd (e_x e); e_place e; e_place' e;
   e_k8 e ++ 61%N :: e_depth e; e_k9 e ++ 61%N :: e_lateral e; e_k10 e ++ 61%N :: e_bearing e] ++ [e_k11 e ++ 61%N :: e_distance e].
Fixpoint commas (l : list text) : text := match l with [] => [] | [t] => t | t :: m => t ++ 44%N :: commas m end.
Definition line_of (e : entry) : text := commas (fields_of e).

(** no comma, blank, minus, colon or equals sign *)
Definition clean (t : text) : Prop := forall c, In c t -> c <> 44%N /\ c <> 45%N /\ c <> 58%N /\ c <> 61%N /\ is_space c = false.
Definition clean_entry (e : entry) : Prop :=
  (clean (e_y e) /\ clean (e_mo e) /\ clean (e_d e) /\ clean (e_h e) /\ clean (e_mi e) /\ clean (e_s e)) /\
  (clean (e_k8 e) /\ clean (e_depth e) /\ clean (e_k9 e) /\ clean (e_lateral e) /\ clean (e_k10 e) /\ clean (e_bearing e) /\ clean (e_k11 e) /\ clean (e_distance e)) /\
  (~ In 44%N (e_name e) /\ ~ In 44%N (fst (fst (e_x e))) /\ ~ In 44%N (snd (fst (e_x e))) /\ ~ In 44%N (snd (e_x e)) /\ ~ In 44%N (e_place e) /\ ~ In 44%N (e_place' e)).

Lemma clean_no t c : clean t -> (c = 44 \/ c = 45 \/ c = 58 \/ c = 61 \/ c = 32)%N -> ~ In c t.
Proof. intros C H I. destruct (C c I) as (A & B & D & E & F). intuition subst; try congruence. discriminate. Qed.
Lemma clean_space t : clean t -> forall c, In c t -> is_space c = false.
Proof. intros C c I. apply (C c I). Qed.
Lemma not_in_app (A : Type) (x : A) a b : ~ In x a -> ~ In x b -> ~ In x (a ++ b).
Proof. intros H1 H2 I. apply in_app_or in I. tauto. Qed.
Lemma not_in_cons (A : Type) (x : A) a b : a <> x -> ~ In x b -> ~ In x (a :: b).
Proof. intros H1 H2 [I|I]; tauto. Qed.

Lemma rstrip_white t w : (forall c, In c t -> is_space c = false) -> white w -> rstrip (t ++ w) = t.
Proof.
  intros T W. unfold rstrip. rewrite rev_app_distr, (lstrip_white (rev w) _ (white_rev w W)), lstrip_id, rev_involutive; [reflexivity|].
  intros c I. apply T. now apply in_rev.
Qed.

Lemma split_commas l : l <> [] -> (forall t, In t l -> ~ In 44%N t) -> split 44%N (commas l) = l.
Proof.
  induction l as [|t [|t' m] IH]; intros N H; [congruence | apply split_none, H; now left |].
  change (commas (t :: t' :: m)) with (t ++ 44%N :: commas (t' :: m)). rewrite split_app by (apply H; now left). f_equal. apply IH; [discriminate|]. intros u I. apply H. now right.
Qed.
Lemma commas_snoc l t : l <> [] -> commas (l ++ [t]) = commas l ++ 44%N :: t.
Proof.
  induction l as [|a [|b m] IH]; intros N; [congruence | reflexivity|].
  change (commas ((a :: b :: m) ++ [t])) with (a ++ 44%N :: commas ((b :: m) ++ [t])). rewrite IH by discriminate.
  change (commas (a :: b :: m)) with (a ++ 44%N :: commas (b :: m)). rewrite <- app_assoc. reflexivity.
Qed.

Lemma strip_line e w : clean (e_y e) -> clean (e_distance e) -> white w -> strip (line_of e ++ w) = line_of e.
Proof.
  intros C1 C2 W. unfold line_of, fields_of.
  match goal with |- context [commas (?a :: ?l ++ [?z])] => set (rest := l); change (commas (a :: rest ++ [z])) with (a ++ 44%N :: commas (rest ++ [z])) end.
  rewrite commas_snoc by discriminate. generalize (commas rest). clear rest. intros r.
  rewrite <- !app_assoc. cbn [app]. rewrite strip_mid by reflexivity. rewrite lstrip_id by (apply clean_space; exact C1). f_equal. f_equal.
  set (A := (e_mo e ++ 45%N :: e_d e) ++ 44%N :: r ++ 44%N :: e_k11 e).
  assert (X : forall q, (e_mo e ++ 45%N :: e_d e) ++ 44%N :: (r ++ 44%N :: e_k11 e ++ 61%N :: e_distance e) ++ q = A ++ 61%N :: e_distance e ++ q).
  { intros q. unfold A. repeat (rewrite <- !app_assoc; cbn [app]). reflexivity. }
  specialize (X w) as X1. specialize (X []) as X2. rewrite !app_nil_r in X2.
  etransitivity; [|symmetry; exact X2]. etransitivity; [apply f_equal; etransitivity; [|exact X1]; repeat (rewrite <- !app_assoc; cbn [app]); reflexivity|].
  rewrite rstrip_app by reflexivity. now rewrite (rstrip_white _ w (clean_space _ C2) W).
Qed.

Section Reader.
  Variable int_of : text -> option Z.
  Variable float_of : text -> option Q.
  Variable to_epoch : Z -> Z -> Z -> Z -> Z -> Z -> Q -> option Q.
  Variable move to_metres : Q -> Q -> Q -> Q -> Q * Q.
  Variables factor offset zone delay lat0 lon0 : Q.
  Variable label : text.

  Let read := read_line int_of float_of to_epoch move to_metres factor offset zone delay lat0 lon0 label.
  Let file := read_file int_of float_of to_epoch move to_metres factor offset zone delay lat0 lon0 label.

  Lemma fields_read e w : clean_entry e -> white w -> split comma (strip (line_of e ++ w)) = fields_of e.
  Proof.
    intros ((Y & Mo & D & H & Mi & S) & (K8 & V8 & K9 & V9 & K10 & V10 & K11 & V11) & (N1 & N2 & N3 & N4 & N5 & N6)) W.
    rewrite strip_line by assumption. unfold line_of. apply split_commas; [discriminate|].
    assert (no : forall t, clean t -> ~ In 44%N t) by (intros t C; apply (clean_no t 44%N C); tauto).
    intros t I. cbn [fields_of app In] in I.
    repeat destruct I as [<-|I]; try assumption; try contradiction;
      repeat first [apply not_in_app | apply not_in_cons; [discriminate|] | apply no; assumption].
  Qed.

  (** The values a line stands for. *)
  Definition stands_for (e : entry) (ymd hms : Z * Z * Z) (dep lat bea dis : Q) : Prop :=
    let '(yy, mm, dd) := ymd in let '(hh, mn, ss) := hms in
    int_of (e_y e) = Some yy /\ int_of (e_mo e) = Some mm /\ int_of (e_d e) = Some dd /\
    int_of (e_h e) = Some hh /\ int_of (e_mi e) = Some mn /\ int_of (e_s e) = Some ss /\
    float_of (e_depth e) = Some dep /\ float_of (e_lateral e) = Some lat /\ float_of (e_bearing e) = Some bea /\ float_of (e_distance e) = Some dis.

  Lemma three_read sep a b c x y z : (sep = 45 \/ sep = 58)%N -> clean a -> clean b -> clean c ->
    int_of a = Some x -> int_of b = Some y -> int_of c = Some z -> three int_of sep (a ++ sep :: b ++ sep :: c) = Some (x, y, z).
  Proof.
    intros S A B C X Y Z. unfold three. rewrite split_app by (apply clean_no; tauto). rewrite split_app by (apply clean_no; tauto).
    rewrite split_none by (apply clean_no; tauto). now rewrite X, Y, Z.
  Qed.
  Lemma named_read (fields : list text) i (k v : text) q : nth_error fields i = Some ((k ++ 61%N :: v) : text) -> clean k -> clean v -> float_of v = Some q -> named float_of fields i = Some q.
  Proof.
    intros H K V F. unfold named. rewrite H. change equals with 61%N. rewrite split_app by (apply (clean_no k 61%N K); tauto). now rewrite split_none by (apply (clean_no v 61%N V); tauto).
  Qed.

  (** A line of the target in the north-east gives exactly the record it says. *)
  Theorem C253_line e w ymd hms dep lateral bea dis d m d' m' dt mt dt' mt' t : clean_entry e -> white w -> e_name e = label ->
    stands_for e ymd hms dep lateral bea dis ->
    e_place e = coordinate dt mt 78%N -> e_place' e = coordinate dt' mt' 69%N ->
    clean dt -> clean mt -> clean dt' -> clean mt' ->
    int_of dt = Some d -> float_of mt = Some m -> int_of dt' = Some d' -> float_of mt' = Some m' ->
    (let '(yy, mm, dd) := ymd in let '(hh, mn, ss) := hms in to_epoch yy mm dd hh mn ss zone = Some t) ->
    exists f, read (line_of e ++ w) = Fix f /\
      f_t f == t + delay /\ f_lat f = inject_Z d + m / 60 /\ f_lon f = inject_Z d' + m' / 60 /\
      f_depth f = dep /\ f_distance f = dis /\ f_lateral f = lateral /\ f_bearing f = bea /\ f_std f = factor * dis + offset /\
      (f_north f, f_east f) = to_metres (f_lat f) (f_lon f) lat0 lon0.
  Proof.
    destruct ymd as [[yy mm] dd], hms as [[hh mn] ss].
    intros CE W NL (Iy & Im & Id & Ih & Imi & Is & Fd & Fl & Fb & Fs) P1 P2 C1 C2 C3 C4 D1 M1 D2 M2 T.
    pose proof (fields_read e w CE W) as FE. destruct CE as ((Y & Mo & D & H & Mi & S) & (K8 & V8 & K9 & V9 & K10 & V10 & K11 & V11) & _).
    assert (nd : forall t c, clean t -> (c = 44 \/ c = 45 \/ c = 58 \/ c = 61 \/ c = 32)%N -> ~ In c t) by (intros; now apply clean_no).
    assert (LA : dump_latitude (int_q int_of) float_of (e_place e) = Some (inject_Z d + m / 60)).
    { rewrite P1. unfold coordinate. apply (C30_dump (int_q int_of) float_of dt mt (inject_Z d) m); auto; try (unfold int_q; now rewrite D1); apply nd; auto; tauto. }
    assert (LO : dump_longitude (int_q int_of) float_of (e_place' e) = Some (inject_Z d' + m' / 60)).
    { rewrite P2. unfold coordinate. apply (C30_dump (int_q int_of) float_of dt' mt' (inject_Z d') m'); auto; try (unfold int_q; now rewrite D2); apply nd; auto; tauto. }
    assert (TI : time_of int_of to_epoch zone delay (fields_of e) = Some (t + inject_Z 0 / 1000 + delay)).
    { unfold time_of, fields_of. cbn [app]. change dash with 45%N. change colon with 58%N.
      rewrite (three_read 45 _ _ _ yy mm dd) by (tauto || assumption). rewrite (three_read 58 _ _ _ hh mn ss) by (tauto || assumption). cbv beta iota in T. now rewrite T. }
    assert (N8 : named float_of (fields_of e) 8 = Some dep) by (now apply (named_read _ 8 (e_k8 e) (e_depth e))).
    assert (N9 : named float_of (fields_of e) 9 = Some lateral) by (now apply (named_read _ 9 (e_k9 e) (e_lateral e))).
    assert (N10 : named float_of (fields_of e) 10 = Some bea) by (now apply (named_read _ 10 (e_k10 e) (e_bearing e))).
    assert (N11 : named float_of (fields_of e) 11 = Some dis) by (now apply (named_read _ 11 (e_k11 e) (e_distance e))).
    eexists. split.
    - unfold read, read_line. rewrite FE. change (nth_error (fields_of e) 2) with (Some (e_name e)). cbv zeta beta iota. rewrite NL, (proj2 (text_eqb_iff label label) eq_refl).
      rewrite TI. change (nth_error (fields_of e) 6) with (Some (e_place e)). change (nth_error (fields_of e) 7) with (Some (e_place' e)).
      destruct (e_place e) as [|c0 p0] eqn:EP; [destruct dt; discriminate P1|]. rewrite LA, LO, N8, N9, N10, N11. reflexivity.
    - cbn [f_t f_lat f_lon f_depth f_distance f_lateral f_bearing f_std f_north f_east]. split; [field|]. do 7 (split; [reflexivity|]). symmetry. apply surjective_pairing.
  Qed.

  (** ** Files *)
  Inductive reads : list text -> list fix_ -> Prop :=
  | reads_nil : reads [] []
  | reads_skip l ls fs : read l = Skip -> reads ls fs -> reads (l :: ls) fs
  | reads_fix l f ls fs : read l = Fix f -> reads ls fs -> reads (l :: ls) (f :: fs).

  (** The records are those of the lines, in order; one bad line loses all. *)
  Theorem C253_file ls fs : file ls = Some fs <-> reads ls fs.
  Proof.
    unfold file. split.
    - revert fs. induction ls as [|l ls IH]; cbn; intros fs H; [injection H as <-; constructor|]. fold read in H.
      destruct (read l) as [|f|] eqn:E; [now apply reads_skip, IH | | discriminate].
      destruct (read_file _ _ _ _ _ _ _ _ _ _ _ _ ls) as [r|] eqn:R; cbn in H; [|discriminate]. injection H as <-. apply reads_fix; [exact E | now apply IH].
    - induction 1 as [|l ls fs E R IH|l f ls fs E R IH]; cbn; [reflexivity | |]; fold read; rewrite E; [exact IH | now rewrite IH].
  Qed.

  Theorem C253_lost ls : file ls = None <-> exists l, In l ls /\ read l = Raise.
  Proof.
    unfold file. induction ls as [|l ls IH]; cbn; [split; [discriminate | intros (x & [] & _)]|]. fold read.
    destruct (read l) as [|f|] eqn:E.
    - rewrite IH. split; [intros (x & I & R); eauto | intros (x & [<-|I] & R); [congruence | eauto]].
    - destruct (read_file _ _ _ _ _ _ _ _ _ _ _ _ ls) as [r|]; cbn; split; try discriminate; try reflexivity.
      + intros (x & [<-|I] & R); [congruence|]. exfalso. assert (Some r = None) by (apply IH; eauto). discriminate.
      + intros _. destruct (proj1 IH eq_refl) as (x & I & R). eauto.
    - split; [eauto | reflexivity].
  Qed.

  (** Lines of other targets, and lines without a position, leave no trace. *)
  Theorem C253_others l ls ls' n : nth_error (split 44%N (strip l)) 2 = Some n -> n <> label -> file (ls ++ l :: ls') = file (ls ++ ls').
  Proof.
    intros H N. assert (E : read l = Skip).
    { unfold read, read_line. change comma with 44%N. rewrite H. destruct (text_eqb n label) eqn:T; [|reflexivity]. apply text_eqb_iff in T. contradiction. }
    unfold file. induction ls as [|a ls IH]; cbn; fold read; [now rewrite E|]. now rewrite IH.
  Qed.

  (** A line with fewer than three fields, an empty one say, ends it all. *)
  Theorem C253_short l ls ls' : (length (split 44%N (strip l)) < 3)%nat -> file (ls ++ l :: ls') = None.
  Proof.
    intros H. apply C253_lost. exists l. split; [apply in_or_app; right; now left|].
    unfold read, read_line. change comma with 44%N. pose proof (proj2 (nth_error_None (split 44%N (strip l)) 2) ltac:(lia)) as E. now rewrite E.
  Qed.

  (** No record without an earlier complete line: every record comes from its own line of the target. *)
  Theorem C253_only ls fs f : file ls = Some fs -> In f fs -> exists l, In l ls /\ read l = Fix f /\ nth_error (split 44%N (strip l)) 2 = Some label.
  Proof.
    intros H I. apply C253_file in H. induction H as [|l ls fs E R IH|l f0 ls fs E R IH]; [destruct I | |].
    - destruct (IH I) as (x & A & B). exists x. split; [now right | exact B].
    - destruct I as [<-|I]; [|destruct (IH I) as (x & A & B); exists x; split; [now right | exact B]].
      exists l. split; [now left|]. split; [exact E|]. revert E. unfold read, read_line. change comma with 44%N.
      destruct (nth_error (split 44%N (strip l)) 2) as [n|]; [|discriminate]. destruct (text_eqb n label) eqn:T; [|discriminate]. apply text_eqb_iff in T. now subst.
  Qed.

  (** Where the standard deviations come from. *)
  Theorem C253_std l f : read l = Fix f -> f_std f = factor * f_distance f + offset /\
    f_lat_std f = f_lat f - fst (move (f_lat f) (f_lon f) (f_std f) (f_std f)) /\
    f_lon_std f = f_lon f - snd (move (f_lat f) (f_lon f) (f_std f) (f_std f)).
  Proof.
    unfold read, read_line. intros H.
    repeat match type of H with context [match ?x with _ => _ end] => destruct x; try discriminate end; injection H as <-; cbn; auto.
  Qed.
End Reader.

Print Assumptions C253_line.
Print Assumptions C253_file.
Print Assumptions C253_lost.
Print Assumptions C253_others.
Print Assumptions C253_short.
Print Assumptions C253_only.
Print Assumptions C253_std.

(** The acfr text is one line per record. *)
Theorem C253_acfr int_of float_of to_epoch move to_metres factor offset zone delay lat0 lon0 label show ls fs :
  reads int_of float_of to_epoch move to_metres factor offset zone delay lat0 lon0 label ls fs ->
  read_acfr int_of float_of to_epoch move to_metres factor offset zone delay lat0 lon0 label show ls = Some (concat (map show fs)).
Proof. intros H. apply C253_file in H. unfold read_acfr. now rewrite H. Qed.
Print Assumptions C253_acfr.

(** A conversion that goes north and east for positive distances makes both standard deviations negative. *)
Theorem C253_negative int_of float_of to_epoch move to_metres factor offset zone delay lat0 lon0 label l f :
  (forall lat lon e n, 0 < e -> 0 < n -> lat < fst (move lat lon e n) /\ lon < snd (move lat lon e n)) ->
  read_line int_of float_of to_epoch move to_metres factor offset zone delay lat0 lon0 label l = Fix f -> 0 < f_std f -> f_lat_std f < 0 /\ f_lon_std f < 0.
Proof.
  intros M H P. destruct (C253_std _ _ _ _ _ _ _ _ _ _ _ _ _ _ H) as (_ & -> & ->). destruct (M (f_lat f) (f_lon f) _ _ P P). split; lra.
Qed.
Print Assumptions C253_negative.

(** ** Examples *)
Definition txt (s : string) : text := map N_of_ascii (list_ascii_of_string s).
Definition whole (s : text) : option Z := match s with [] => None | _ => digits 0 s end.
Definition clock (y mo d h mi s : Z) (zone : Q) : option Q := Some (inject_Z (3600 * h + 60 * mi + s) - 3600 * zone).
Definition drift (lat lon e n : Q) : Q * Q := (lat + n / 111000, lon + e / 90000).
Definition plane (lat lon lat0 lon0 : Q) : Q * Q := ((lat - lat0) * 111000, (lon - lon0) * 90000).
Definition reader := read_file whole decimal clock drift plane (1 # 100) 2 9 1 26 127 (txt "KOHO").
Definition mine : text := txt "2017-08-17,09:00:05,KOHO,a,b,c,26-30.000 N,127-15.000 E,D=1000.0,L=300.0,B=90.0,R=1050.0" ++ [10%N].
Definition ship : text := txt "2017-08-17,09:00:05,Ship,a,b,c,26-30.000 N,127-15.000 E,D=0,L=0,B=0,R=0" ++ [10%N].
Definition lost : text := txt "2017-08-17,09:00:06,KOHO,a,b,c,,,,,," ++ [10%N].
Definition south : text := txt "2017-08-17,09:00:05,KOHO,a,b,c,26-30.000 S,127-15.000 E,D=1000.0,L=300.0,B=90.0,R=1050.0" ++ [10%N].
Definition split_second : text := txt "2017-08-17,09:00:05.5,KOHO,a,b,c,26-30.000 N,127-15.000 E,D=1000.0,L=300.0,B=90.0,R=1050.0" ++ [10%N].

Definition sample : entry := mkentry (txt "2017") (txt "08") (txt "17") (txt "09") (txt "00") (txt "05") (txt "KOHO") (txt "a", txt "b", txt "c")
  (coordinate (txt "26") (txt "30.000") 78) (coordinate (txt "127") (txt "15.000") 69)
  (txt "D") (txt "1000.0") (txt "L") (txt "300.0") (txt "B") (txt "90.0") (txt "R") (txt "1050.0").
Example C253_line_sample : mine = line_of sample ++ [10%N].
Proof. reflexivity. Qed.
Example C253_line_clean : clean_entry sample /\ stands_for whole decimal sample (2017, 8, 17)%Z (9, 0, 5)%Z (10000 # 10) (3000 # 10) (900 # 10) (10500 # 10).
Proof.
  assert (B : forall t, forallb (fun c => negb ((c =? 44) || (c =? 45) || (c =? 58) || (c =? 61) || is_space c)%N)%bool t = true -> clean t).
  { intros t H c I. rewrite forallb_forall in H. specialize (H c I). apply Bool.negb_true_iff in H. rewrite !Bool.orb_false_iff, !N.eqb_neq in H. tauto. }
  split; [|vm_compute; repeat split; reflexivity]. unfold clean_entry.
  repeat match goal with |- _ /\ _ => split end; try (apply B; reflexivity); vm_compute; intros I; repeat destruct I as [I|I]; try discriminate; contradiction.
Qed.
Example C253_file_sample : exists f g, reader [ship; mine; lost; ship; mine] = Some [f; g] /\ f = g /\
  f_t f == 6 /\ f_lat f == 265 # 10 /\ f_lon f == 50900 # 400 /\ f_std f == 125 # 10 /\ f_north f == 55500 /\ f_east f == 22500 /\ f_depth f == 1000 /\ f_bearing f == 90.
Proof. do 2 eexists. split; [vm_compute; reflexivity|]. split; [reflexivity|]. vm_compute. repeat split; reflexivity. Qed.
Example C253_others_sample : reader [mine; ship] = reader [mine].
Proof. apply (C253_others whole decimal clock drift plane (1 # 100) 2 9 1 26 127 (txt "KOHO") ship [mine] [] (txt "Ship")); [reflexivity | discriminate]. Qed.
Example C253_acfr_sample : exists t, read_acfr whole decimal clock drift plane (1 # 100) 2 9 1 26 127 (txt "KOHO") (fun _ => txt "SSBL_FIX") [mine; ship; mine] = Some t /\ t = txt "SSBL_FIXSSBL_FIX".
Proof. eexists. split; [vm_compute; reflexivity | reflexivity]. Qed.

(** One blank line at the end and all records are lost. *)
Theorem C254_blank_refuted : exists ls, (exists f, reader ls = Some [f]) /\ reader (ls ++ [[10%N]]) = None.
Proof. exists [mine]. split; [eexists; vm_compute; reflexivity | reflexivity]. Qed.
Print Assumptions C254_blank_refuted.
(** A fraction of a second loses them too. *)
Theorem C254_second_refuted : exists ls l, (exists f, reader ls = Some [f]) /\ nth_error (split 44%N l) 1 = Some (txt "09:00:05.5") /\ reader (ls ++ [l]) = None.
Proof. exists [mine], split_second. split; [eexists; vm_compute; reflexivity|]. split; vm_compute; reflexivity. Qed.
Print Assumptions C254_second_refuted.
(** The standard deviations in degrees are negative. *)
Theorem C254_std_refuted : exists l f, reader [l] = Some [f] /\ 0 < f_std f /\ f_lat_std f < 0 /\ f_lon_std f < 0.
Proof. exists mine. eexists. split; [vm_compute; reflexivity|]. vm_compute. repeat split; reflexivity. Qed.
Print Assumptions C254_std_refuted.
(** 26 degrees 30 minutes south is read as 25.5 degrees south. *)
Theorem C254_south_refuted : exists l f, nth_error (split 44%N l) 6 = Some (txt "26-30.000 S") /\ reader [l] = Some [f] /\ f_lat f == - (255 # 10).
Proof. exists south. eexists. split; [reflexivity|]. split; [vm_compute; reflexivity|]. reflexivity. Qed.
Print Assumptions C254_south_refuted.
