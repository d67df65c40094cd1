(** C289, C290: the times of images whose names only have a number, from a timestamp file. *)
From Coq Require Import Ascii String.
From Verif Require Import PyBase TimeModel TimeSpec TimeProofs TimeProps StampFileModel.
Open Scope list_scope.
Open Scope Q_scope.

(** * Specification *)
(** the cell [c] of the row [r] is under the name [k] of the header *)
Definition under (header : list text) (k : text) (r : list text) (c : text) : Prop := exists i, nth_error header i = Some k /\ nth_error r i = Some c.
Definition infix (a b : text) : Prop := exists x y, b = x ++ a ++ y.
(** the columns that have a part of the date, and the one that has the number *)
Definition numbering (c : text * text) : Prop := infix (txt "iii") (snd c).
Definition dating (c : text * text) : Prop := ~ numbering c /\ snd c <> txt "filename".
Inductive selects {A} (P : A -> Prop) : list A -> list A -> Prop :=
| sel_nil : selects P [] []
| sel_take a l m : P a -> selects P l m -> selects P (a :: l) (a :: m)
| sel_skip a l m : ~ P a -> selects P l m -> selects P (a :: l) m.
(** The columns of camera.yaml: one has the number, under the name [ix], the others of [dates] the date. *)
Record columns_say (cols : list (text * text)) (ix : text) (dates : list (text * text)) : Prop := {
  cs_named : ix <> [];
  cs_index : exists content, selects numbering cols [(ix, content)];
  cs_dates : selects dating cols dates;
  cs_full : full_format (concat (map snd dates)) }.
(** The row says that the image [i] was taken at [x]: the cells of the date columns, one after the other, have the digits of [x] as the contents say. *)
Record row_says (header : list text) (dates : list (text * text)) (ix : text) (r : list text) (i : Z) (x : stamped) (n : Z) : Prop := {
  rs_length : length r = length header;
  rs_index : exists w, under header ix r (pad (S w) i) /\ (0 <= i < 10 ^ Z.of_nat (S w))%Z;
  rs_date : exists cs, Forall2 (fun d c => under header (fst d) r c) dates cs /\ (forall c, In c cs -> ~ In c (map txt [""; "#N/A"; "#N/A N/A"; "#NA"; "-1.#IND"; "-1.#QNAN"; "-NaN"; "-nan";
      "1.#IND"; "1.#QNAN"; "<NA>"; "N/A"; "NA"; "NULL"; "NaN"; "None"; "n/a"; "nan"; "null"]%string)) /\ spells x (concat (map snd dates)) (concat cs);
  rs_time : seconds_after_1970 n (st_civil x) /\ (c_y (st_civil x) <= 9999 /\ 0 <= st_ms x <= 999 /\ 0 <= st_us x <= 999)%Z;
  rs_fraction : (count_char "f" (concat (map snd dates)) = 0%nat -> st_ms x = 0%Z) /\ (count_char "u" (concat (map snd dates)) = 0%nat -> st_us x = 0%Z) }.

(** * Lemmas *)
Fixpoint index_columns (cols : list (text * text)) : list text := match cols with [] => [] | c :: cols => if is_index c then fst c :: index_columns cols else index_columns cols end.
Lemma text_eqb_iff : forall a b, text_eqb a b = true <-> a = b.
Proof. intros a b. unfold text_eqb. destruct (list_eq_dec ascii_dec a b); split; congruence. Qed.
Lemma text_eqb_refl : forall a, text_eqb a a = true. Proof. intros. now apply text_eqb_iff. Qed.
Lemma starts_iff : forall a b, starts a b = true <-> exists y, b = a ++ y.
Proof.
  induction a as [|x a IH]; intros b; cbn [starts]; [split; [intros _; now exists b|reflexivity]|]. destruct b as [|y b]; [split; [discriminate|intros [? ?]; discriminate]|].
  rewrite andb_true_iff, Ascii.eqb_eq, IH. split; [intros [-> [z ->]]; now exists z|intros [z E]; injection E as -> ->; split; [reflexivity|now exists z]].
Qed.
Lemma contains_iff : forall a b, contains a b = true <-> infix a b.
Proof.
  intros a. induction b as [|y b IH]; cbn [contains]; rewrite orb_true_iff, starts_iff.
  - split; [intros [[z E]|H]; [exists [], z; exact E|discriminate]|]. intros (u & v & E). left. destruct u; [now exists v|discriminate].
  - rewrite IH. split.
    + intros [[z E]|(u & v & E)]; [now exists [], z|]. exists (y :: u), v. now rewrite E.
    + intros (u & v & E). destruct u as [|u0 u]; [left; now exists v|]. right. injection E as _ E. now exists u, v.
Qed.
Lemma is_index_iff : forall c, is_index c = true <-> numbering c. Proof. intros c. apply contains_iff. Qed.
Lemma is_date_iff : forall c, is_date c = true <-> dating c.
Proof.
  intros c. unfold is_date, dating. rewrite andb_true_iff, !negb_true_iff. rewrite <- is_index_iff. split; intros [A B]; split.
  - now rewrite A.
  - intros E. rewrite E, text_eqb_refl in B. discriminate.
  - destruct (is_index c); [now elim A|reflexivity].
  - destruct (text_eqb _ _) eqn:E; [|reflexivity]. apply text_eqb_iff in E. now elim B.
Qed.
Lemma position_at : forall hs k i, NoDup hs -> nth_error hs i = Some k -> position k hs = Some i.
Proof.
  induction hs as [|h hs IH]; intros k i N E; [now destruct i|]. inversion N as [|? ? X N']; subst. destruct i as [|i]; cbn [nth_error] in E.
  - injection E as ->. cbn [position]. now rewrite text_eqb_refl.
  - cbn [position]. destruct (text_eqb k h) eqn:Q; [apply text_eqb_iff in Q; subst; elim X; now apply nth_error_In in E|]. now rewrite (IH k i N' E).
Qed.
Lemma position_in : forall hs k, In k hs -> exists i, position k hs = Some i.
Proof. induction hs as [|h hs IH]; intros k I; [destruct I|]. destruct I as [ -> |I]; cbn [position]; [rewrite text_eqb_refl; eauto|]. destruct (text_eqb k h); [eauto|]. destruct (IH k I) as [i ->]. cbn. eauto. Qed.
Lemma cell_under : forall hs k r c, NoDup hs -> under hs k r c -> cell hs k r = Ok c.
Proof. intros hs k r c N (i & H & R). unfold cell. rewrite (position_at hs k i N H), R. reflexivity. Qed.
Lemma each_ok : forall {A B} (f : A -> res B) l m, Forall2 (fun a b => f a = Ok b) l m -> each f l = Ok m.
Proof. intros A B f l m F. induction F as [|a b l m E F IH]; [reflexivity|]. cbn [each]. rewrite E. cbn [andthen]. rewrite IH. reflexivity. Qed.
Lemma sorted_out_ok : forall hs cols dates index, (forall c, In c cols -> dating c -> In (fst c) hs) ->
  match index, index_columns cols with None, ([] | [_]) | Some _, [] => True | _, _ => False end ->
  sorted_out hs cols dates index = Ok (dates ++ filter is_date cols, match index with Some k => Some k | None => hd_error (index_columns cols) end).
Proof.
  intros hs. induction cols as [|c cols IH]; intros dates index H I; cbn [sorted_out filter index_columns].
  - rewrite app_nil_r. now destruct index.
  - cbn [index_columns] in I. assert (D : is_date c = true -> is_index c = false) by (unfold is_date; destruct (is_index c); [discriminate|reflexivity]).
    assert (H' : forall c, In c cols -> dating c -> In (fst c) hs) by (intros; apply H; [now right|assumption]).
    destruct (is_date c) eqn:E.
    + rewrite (D eq_refl) in *. destruct (position_in hs (fst c)) as [i ->]; [apply H; [now left|now apply is_date_iff]|]. rewrite IH by assumption. now rewrite <- app_assoc.
    + destruct (is_index c).
      * destruct index as [k|]; [contradiction|]. rewrite IH; [|exact H'|]. { reflexivity. } destruct (index_columns cols); [exact Logic.I|contradiction].
      * now apply IH.
Qed.
Lemma shown_kept : forall c, ~ In c na_values -> shown c = c.
Proof. intros c N. unfold shown. destruct (existsb _ _) eqn:E; [|reflexivity]. apply existsb_exists in E. destruct E as (x & I & E). apply text_eqb_iff in E. subst x. contradiction. Qed.
Lemma number_not_na : forall w i, (0 <= i < 10 ^ Z.of_nat (S w))%Z -> existsb (text_eqb (pad (S w) i)) na_values = false.
Proof.
  intros w i B. destruct (existsb _ _) eqn:E; [|reflexivity]. exfalso. apply existsb_exists in E. destruct E as (x & I & E). apply text_eqb_iff in E. subst x.
  assert (F : Forall (fun x => py_int x = None) na_values) by (repeat constructor). rewrite Forall_forall in F. specialize (F _ I). rewrite py_int_pad in F by exact B. discriminate.
Qed.

Lemma selects_filter : forall {A} (P : A -> Prop) (f : A -> bool), (forall a, f a = true <-> P a) -> forall l m, selects P l m -> filter f l = m.
Proof.
  intros A P f H l m S. induction S as [|a l m X S IH|a l m X S IH]; cbn [filter]; [reflexivity| |].
  - rewrite (proj2 (H a) X). now rewrite IH.
  - destruct (f a) eqn:E; [apply H in E; contradiction|exact IH].
Qed.
Lemma index_columns_filter : forall cols, index_columns cols = map fst (filter is_index cols).
Proof. induction cols as [|c cols IH]; [reflexivity|]. cbn [index_columns filter]. destruct (is_index c); cbn [map]; now rewrite IH. Qed.
Lemma Forall2_of : forall {A B} (P : A -> B -> Prop) l, (forall a, In a l -> exists b, P a b) -> exists m, Forall2 P l m.
Proof.
  intros A B P. induction l as [|a l IH]; intros H; [now exists []|]. destruct (H a (or_introl eq_refl)) as [b Hb]. destruct IH as [m Hm]; [intros; apply H; now right|]. exists (b :: m). now constructor.
Qed.
Lemma filled_same : forall n r, length r = n -> filled n r = Ok r.
Proof. intros n r <-. unfold filled. rewrite Nat.ltb_irrefl, Nat.sub_diag, app_nil_r. reflexivity. Qed.

(** * C289 *)
Section Theorems.
  Variable to_float : text -> option Q.
  Notation read := (read_timestamp_file to_float).
  Definition time_of (header : list text) (dates : list (text * text)) (r : list text) : res Q :=
    andthen (combined header dates r) (fun c => stamp_of to_float c (concat (map snd dates))).
  Definition number_of (header : list text) (ix : text) (r : list text) : res Z :=
    andthen (cell header ix r) (fun c => if existsb (text_eqb c) na_values then Raises else lift (py_int c)).

  Lemma row_time : forall header dates ix r i x n, NoDup header -> full_format (concat (map snd dates)) -> row_says header dates ix r i x n ->
    exists t, time_of header dates r = Ok t /\ t == inject_Z n + inject_Z (st_ms x) * (1 # 1000) + inject_Z (st_us x) * (1 # 1000000).
  Proof.
    intros header dates ix r i x n N F [L _ (cs & U & NA & S) (T & Y & M & Us) (FF & FU)]. unfold time_of, combined.
    assert (E : each (fun c : text * text => cell header (@fst text text c) r) dates = Ok cs).
    { apply each_ok. clear - U N. induction U as [|d c ds cs X U IH]; constructor; [now apply cell_under|exact IH]. }
    rewrite E. cbn [andthen]. assert (K : map shown cs = cs).
    { clear - NA. induction cs as [|c cs IH]; [reflexivity|]. cbn [map]. rewrite IH by (intros; apply NA; now right). rewrite shown_kept; [reflexivity|]. apply NA. now left. }
    rewrite K. unfold stamp_of. destruct (C12_decodes_encoded_instant x _ _ n T Y M Us FF FU F S) as (t & -> & Q). now exists t.
  Qed.
  Lemma row_number : forall header dates ix r i x n, NoDup header -> row_says header dates ix r i x n -> number_of header ix r = Ok i.
  Proof.
    intros header dates ix r i x n N [_ (w & U & B) _ _ _]. unfold number_of. rewrite (cell_under _ _ _ _ N U). cbn [andthen]. rewrite number_not_na, py_int_pad by exact B. reflexivity.
  Qed.
  Lemma table_read : forall header rows cols ix dates, NoDup header -> rows <> [] -> columns_say cols ix dates -> (forall r, In r rows -> exists i x n, row_says header dates ix r i x n) ->
    exists df, read cols (header :: rows) = Ok (Some df) /\ Forall2 (fun r e => number_of header ix r = Ok (fst e) /\ time_of header dates r = Ok (snd e)) rows df.
  Proof.
    intros header rows cols ix dates N NE [NI [content SI] SD F] R.
    assert (D : filter is_date cols = dates) by (apply (selects_filter dating); [apply is_date_iff|exact SD]).
    assert (I : index_columns cols = [ix]) by (rewrite index_columns_filter, (selects_filter numbering is_index is_index_iff _ _ SI); reflexivity).
    destruct (Forall2_of (fun r t => time_of header dates r = Ok t) rows) as [ts TS].
    { intros r H. destruct (R r H) as (i & x & n & S). destruct (row_time _ _ _ _ _ _ _ N F S) as (t & E & _). now exists t. }
    destruct (Forall2_of (fun r i => number_of header ix r = Ok i) rows) as [is IS].
    { intros r H. destruct (R r H) as (i & x & n & S). exists i. exact (row_number _ _ _ _ _ _ _ N S). }
    exists (combine is ts). split.
    - destruct rows as [|first rows]; [congruence|]. unfold read_timestamp_file.
      assert (H1 : names header first = header).
      { destruct (R first (or_introl eq_refl)) as (i & x & n & S). destruct S as [L _ _ _ _]. unfold names. rewrite L, Nat.ltb_irrefl. reflexivity. }
      cbv zeta. rewrite H1. cbn [tl].
      assert (H2 : each (filled (length header)) (first :: rows) = Ok (first :: rows)).
      { apply each_ok. clear - R. induction (first :: rows) as [|r l IH]; constructor; [|apply IH; intros; apply R; now right].
        destruct (R r (or_introl eq_refl)) as (i & x & n & S). apply filled_same. destruct S as [L _ _ _ _]. exact L. }
      rewrite H2. cbn [andthen].
      assert (H3 : sorted_out header cols [] None = Ok (dates, Some ix)).
      { rewrite sorted_out_ok; [rewrite D, I; reflexivity| |now rewrite I].
        intros c H P. assert (In c dates) as ID by (rewrite <- D; apply filter_In; split; [exact H|now apply is_date_iff]).
        destruct (R first (or_introl eq_refl)) as (i & x & n & S). destruct S as [_ _ (cs & U & _) _ _]. clear - U ID.
        induction U as [|d c' ds cs (k & X & _) U IH]; [destruct ID|]. destruct ID as [ -> |ID]; [now apply nth_error_In in X|now apply IH]. }
      rewrite H3. cbn [andthen fst snd]. change (each (fun r => andthen (combined header dates r) (fun c => stamp_of to_float c (concat (map snd dates)))) (first :: rows)) with (each (time_of header dates) (first :: rows)). rewrite (each_ok _ _ _ TS). cbn [andthen].
      destruct ix as [|c0 ix]; [congruence|]. change (each _ (first :: rows)) with (each (number_of header (c0 :: ix)) (first :: rows)). rewrite (each_ok _ _ _ IS). reflexivity.
    - clear - TS IS. revert is IS. induction TS as [|r t rows ts E TS IH]; intros is IS; inversion IS as [|? i ? is' Ei IS']; subst; cbn [combine]; constructor; [now split|now apply IH].
  Qed.

  (** An image whose name has the number of just one row is given the time of that row. *)
  Theorem C289_times : forall header before r after cols ix dates, NoDup header -> columns_say cols ix dates ->
    (forall r', In r' (before ++ r :: after) -> exists i x n, row_says header dates ix r' i x n) ->
    exists df, read cols (header :: before ++ r :: after) = Ok (Some df) /\
    forall i x n, row_says header dates ix r i x n -> (forall r' i' x' n', In r' (before ++ after) -> row_says header dates ix r' i' x' n' -> i' <> i) ->
    forall stem fmt w, field "i" stem fmt = pad (S w) i -> (i < 10 ^ Z.of_nat (S w))%Z -> field "e" stem fmt = [] ->
    exists t, image_time to_float (Some df) stem fmt = Ok (At t) /\ t == inject_Z n + inject_Z (st_ms x) * (1 # 1000) + inject_Z (st_us x) * (1 # 1000000).
  Proof.
    intros header before r after cols ix dates N C R. destruct (table_read header (before ++ r :: after) cols ix dates N ltac:(now destruct before) C R) as (df & E & F).
    exists df. split; [exact E|]. intros i x n RS U stem fmt w Fi Bi Fe.
    apply Forall2_app_inv_l in F. destruct F as (d1 & d2 & F1 & F2 & ->). inversion F2 as [|? e ? d3 [Ni Ti] F3]; subst.
    assert (B0 : (0 <= i)%Z) by (destruct RS as [_ (w' & _ & B) _ _ _]; lia).
    assert (G : forall rs d, (forall r', In r' rs -> In r' (before ++ after)) -> Forall2 (fun r e => number_of header ix r = Ok (fst e) /\ time_of header dates r = Ok (snd e)) rs d ->
                filter (fun e => Z.eqb (fst e) i) d = []).
    { intros rs d H. intros F. induction F as [|r' e' rs d [X _] F IH]; [reflexivity|]. cbn [filter]. rewrite IH by (intros; apply H; now right).
      destruct (Z.eqb_spec (fst e') i) as [Q|_]; [|reflexivity]. exfalso. pose proof (H r' (or_introl eq_refl)) as I.
      destruct (R r') as (i' & x' & n' & S'); [apply in_app_iff in I; apply in_app_iff; cbn [In]; tauto|]. apply (U r' i' x' n' I S').
      pose proof (row_number _ _ _ _ _ _ _ N S') as Y. rewrite X in Y. injection Y as <-. exact Q. }
    destruct (row_time _ _ _ _ _ _ _ N (cs_full _ _ _ C) RS) as (t & T & V). rewrite T in Ti. injection Ti as Ti.
    pose proof (row_number _ _ _ _ _ _ _ N RS) as Y. rewrite Y in Ni. injection Ni as Ni.
    exists t. split; [|exact V]. unfold image_time, filename_stamp. cbv zeta. rewrite Fi, Fe.
    destruct (pad (S w) i) as [|c0 s0] eqn:P; [apply (f_equal py_int) in P; rewrite py_int_pad in P by lia; discriminate|]. rewrite <- P, py_int_pad by lia. cbn [lift andthen].
    rewrite filter_app. cbn [filter]. rewrite (G before d1), (G after d3), <- Ni, Z.eqb_refl; [cbn; now rewrite Ti|..]; try assumption; intros r' I; apply in_app_iff; tauto.
  Qed.
  (** An image whose number is in no row is an error. *)
  Theorem C289_unlisted : forall header rows cols ix dates, NoDup header -> rows <> [] -> columns_say cols ix dates -> (forall r, In r rows -> exists i x n, row_says header dates ix r i x n) ->
    exists df, read cols (header :: rows) = Ok (Some df) /\
    forall i, (forall r i' x n, In r rows -> row_says header dates ix r i' x n -> i' <> i) ->
    forall stem fmt w, field "i" stem fmt = pad (S w) i -> (0 <= i < 10 ^ Z.of_nat (S w))%Z -> field "e" stem fmt = [] -> image_time to_float (Some df) stem fmt = Raises.
  Proof.
    intros header rows cols ix dates N NE C R. destruct (table_read header rows cols ix dates N NE C R) as (df & E & F). exists df. split; [exact E|].
    intros i U stem fmt w Fi Bi Fe. unfold image_time, filename_stamp. cbv zeta. rewrite Fi, Fe.
    destruct (pad (S w) i) as [|c0 s0] eqn:P; [apply (f_equal py_int) in P; rewrite py_int_pad in P by lia; discriminate|]. rewrite <- P, py_int_pad by lia. cbn [lift andthen].
    assert (G : filter (fun e => Z.eqb (fst e) i) df = []).
    { clear E NE P Bi Fi. revert R U. induction F as [|r e rs d [X _] F IH]; intros R U; [reflexivity|]. cbn [filter].
      destruct (R r (or_introl eq_refl)) as (i' & x & n & S). pose proof (row_number _ _ _ _ _ _ _ N S) as Y. rewrite X in Y. injection Y as Y.
      destruct (Z.eqb_spec (fst e) i) as [Q|_]; [elim (U r i' x n (or_introl eq_refl) S); congruence|]. apply IH; intros; [apply R|eapply U; [|eassumption]]; now right. }
    now rewrite G.
  Qed.

  (** Without rows there is an error; an empty file, or columns without a number, leaves no table, and then every image whose name has a number ends the program. *)
  Theorem C289_no_table : (forall cols, read cols [] = Ok None) /\ (forall cols header, read cols [header] = Raises) /\
    (forall cols lines df, Forall (fun c => ~ numbering c) cols -> read cols lines = Ok df -> df = None) /\
    (forall stem fmt, field "i" stem fmt <> [] -> field "e" stem fmt = [] -> image_time to_float None stem fmt = Quits).
  Proof.
    split; [reflexivity|]. split; [reflexivity|]. split.
    - intros cols lines df F H. destruct lines as [|header [|first rows]]; cbn [read_timestamp_file] in H; [now injection H as <-|discriminate|].
      cbn [tl] in H. set (hs := names header first) in *. clearbody hs. destruct (each (filled (length hs)) (first :: rows)) as [l| |]; try discriminate. cbn [andthen] in H.
      destruct (sorted_out hs cols [] None) as [sr| |] eqn:E; try discriminate. cbn [andthen] in H.
      assert (K : snd sr = None).
      { revert E. generalize (@nil (text * text)). clear - F. induction F as [|c cols X F IH]; intros d E; cbn [sorted_out] in E; [injection E as <-; reflexivity|].
        destruct (is_index c) eqn:I; [apply is_index_iff in I; contradiction|]. destruct (is_date c); [destruct (position _ _); [|discriminate]|]; eapply IH; exact E. }
      rewrite K in H. destruct (each _ l); try discriminate. now injection H as <-.
    - intros stem fmt I E. unfold image_time, filename_stamp. cbv zeta. rewrite E. destruct (field "i" stem fmt); [congruence|reflexivity].
  Qed.
  (** Cells under names that camera.yaml does not mention do not matter. *)
  Theorem C289_other_cells : forall header first rows first' rows' cols, length first = length header -> length first' = length header ->
    Forall2 (fun r r' => length r = length r' /\ forall k c, In k (map fst cols) -> (under header k r c <-> under header k r' c)) (first :: rows) (first' :: rows') -> NoDup header ->
    (forall r, In r (first :: rows) -> length r = length header) ->
    read cols (header :: first :: rows) = read cols (header :: first' :: rows').
  Proof.
    intros header first rows first' rows' cols L L' F N LL. unfold read_timestamp_file. cbv zeta. cbn [tl].
    assert (forall f, length f = length header -> names header f = header) as NM by (intros f X; unfold names; rewrite X, Nat.ltb_irrefl; reflexivity). rewrite !NM by assumption.
    remember (first :: rows) as l eqn:El. remember (first' :: rows') as l' eqn:El'.
    assert (A : forall m, (forall r, In r m -> length r = length header) -> each (filled (length header)) m = Ok m).
    { intros m H. apply each_ok. induction m as [|r m IH]; constructor; [apply filled_same, H; now left|apply IH; intros; apply H; now right]. }
    assert (LL' : forall r, In r l' -> length r = length header).
    { clear - F LL. induction F as [|r r' l l' [X _] F IH]; intros z []; [subst; rewrite <- X; apply LL; now left|]. apply IH; [intros; apply LL; now right|assumption]. }
    rewrite (A l LL), (A l' LL'). cbn [andthen]. destruct (sorted_out header cols [] None) as [[ds ix]| |] eqn:SO; try reflexivity. cbn [andthen fst snd].
    assert (IN : (forall d, In d ds -> In (fst d) (map fst cols)) /\ forall k, ix = Some k -> In k (map fst cols)).
    { assert (G : forall d0 i0, sorted_out header cols d0 i0 = Ok (ds, ix) -> (forall d, In d ds -> In d d0 \/ In (fst d) (map fst cols)) /\ forall k, ix = Some k -> i0 = Some k \/ In k (map fst cols)).
      { clear. induction cols as [|c cols IH]; intros d0 i0 E; cbn [sorted_out] in E; [injection E as <- <-; split; intros; now left|].
        destruct (is_date c); [destruct (position _ _); [|discriminate]|destruct (is_index c); [destruct i0; [discriminate|]|]]; destruct (IH _ _ E) as [D K]; split; intros z Z; cbn [map In];
          try (destruct (D z Z) as [X|X]; [|tauto]); try (destruct (K z Z) as [X|X]; [|tauto]); try apply in_app_iff in X; cbn [In] in *; try tauto.
        - destruct X as [X|[X|[]]]; [tauto|]. right. left. now rewrite X.
        - injection X as ->. tauto. }
      destruct (G [] None SO) as [D K]. split; [intros d H; destruct (D d H) as [[]|X]; exact X|intros k H; destruct (K k H) as [X|X]; [discriminate|exact X]]. }
    assert (CE : forall r r' k, (length r = length r' /\ forall k c, In k (map fst cols) -> (under header k r c <-> under header k r' c)) -> length r = length header -> In k (map fst cols) -> cell header k r = cell header k r').
    { intros r r' k [X U] XL K. unfold cell. destruct (position k header) as [i|] eqn:P; [|reflexivity]. 
      assert (PH : nth_error header i = Some k).
      { clear - P. revert i P. induction header as [|h hs IH]; intros i P; [discriminate|]. cbn [position] in P. destruct (text_eqb k h) eqn:Q; [injection P as <-; apply text_eqb_iff in Q; now subst|].
        destruct (position k hs) as [j|]; [|discriminate]. injection P as <-. now apply IH. }
      assert (i < length header)%nat by (apply nth_error_Some; congruence). destruct (nth_error r i) as [c|] eqn:E; [|apply nth_error_None in E; lia].
      destruct (proj1 (U k c K) (ex_intro _ i (conj PH E))) as (j & J1 & J2). assert (j = i) as ->; [|now rewrite J2].
      apply (NoDup_nth_error header); [exact N|apply nth_error_Some; congruence|congruence]. }
    assert (EE : forall {B} (f : list text -> res B), (forall r r', In r l -> (length r = length r' /\ forall k c, In k (map fst cols) -> (under header k r c <-> under header k r' c)) -> f r = f r') -> each f l = each f l').
    { intros B f H. clear - F H. induction F as [|r r' l l' X F IH]; [reflexivity|]. cbn [each]. rewrite (H r r' (or_introl eq_refl) X), IH; [reflexivity|]. intros; apply H; [now right|assumption]. }
    rewrite (EE Q (fun r => andthen (combined header ds r) (fun c => stamp_of to_float c (concat (map snd ds))))).
    - destruct (each _ l'); try reflexivity. cbn [andthen]. destruct ix as [[|c0 k]|]; try reflexivity. rewrite (EE Z (fun r => andthen (cell header (c0 :: k) r) (fun c => if existsb (text_eqb c) na_values then Raises else lift (py_int c)))).
      + reflexivity.
      + intros r r' I X. rewrite (CE r r' (c0 :: k) X (LL r I)); [reflexivity|]. now apply IN.
    - intros r r' I X. assert (E : combined header ds r = combined header ds r'); [|now rewrite E]. unfold combined.
      assert (E : each (fun c : text * text => cell header (@fst text text c) r) ds = each (fun c : text * text => cell header (@fst text text c) r') ds); [|now rewrite E].
      destruct IN as [IN _]. clear - IN CE X LL I. induction ds as [|d ds IH]; [reflexivity|]. cbn [each]. rewrite IH by (intros; apply IN; now right). rewrite (CE r r' (fst d) X (LL r I)); [reflexivity|]. apply IN. now left.
  Qed.
End Theorems.
(** Rows that end with a comma: the columns have the header's names, the last with its newline, and one has a made-up name. *)
Theorem C289_trailing : forall to_float columns hs h first rows, length first = (length hs + 2)%nat ->
  read_timestamp_file to_float columns ((hs ++ [h]) :: first :: rows) =
  read_timestamp_file to_float columns ((hs ++ [h ++ [ascii_of_nat 10]; txt "unknown0"]) :: first :: rows).
Proof.
  intros to_float columns hs h first rows L. unfold read_timestamp_file. cbn [tl].
  assert (names (hs ++ [h]) first = names (hs ++ [h ++ [ascii_of_nat 10]; txt "unknown0"]) first) as ->; [|reflexivity].
  unfold names. rewrite !app_length, L. cbn [length].
  replace (length hs + 1 <? length hs + 2)%nat with true by (symmetry; apply Nat.ltb_lt; lia).
  replace (length hs + 2 <? length hs + 2)%nat with false by (symmetry; apply Nat.ltb_ge; lia).
  replace (length hs + 2 - (length hs + 1))%nat with 1%nat by lia. cbn [seq map].
  assert (forall l, ended (l ++ [h]) = l ++ [h ++ [newline]]) as ->.
  { induction l as [|a l IH]; [reflexivity|]. cbn [app ended]. destruct (l ++ [h]) eqn:E; [now destruct l|]. now rewrite IH. }
  now rewrite <- app_assoc.
Qed.
Print Assumptions C289_trailing.
Print Assumptions C289_times. Print Assumptions C289_unlisted. Print Assumptions C289_no_table. Print Assumptions C289_other_cells.

(** Not vacuous: the columns of AE2000's camera.yaml and a row of the file; the first row of the repository's test file. *)
Definition ae2000 : list (text * text) := map (fun c => (txt (fst c), txt (snd c))) [("index", "iiiiiii"); ("date", "YYYYMMDD"); ("time", "hhmmss"); ("ms", "fff")]%string.
Definition line (l : list string) : list text := map txt l.
Definition heads : list text := line ["index"; "date"; "time"; "ms"; "elapsetime"; "gpio (0xXX)"]%string.
Example C289_columns_example : columns_say ae2000 (txt "index") (tl ae2000).
Proof.
  assert (Y : numbering (txt "index", txt "iiiiiii")) by (exists [], (txt "iiii"); reflexivity).
  assert (X : forall a b, is_index (txt a, txt b) = false -> ~ numbering (txt a, txt b)) by (intros a b H K; apply is_index_iff in K; congruence).
  assert (W : forall a b, is_date (txt a, txt b) = true -> dating (txt a, txt b)) by (intros a b; apply is_date_iff).
  constructor; [discriminate| | |vm_compute; tauto].
  - exists (txt "iiiiiii"). apply sel_take; [exact Y|]. repeat (apply sel_skip; [apply X; reflexivity|]). constructor.
  - apply sel_skip; [intros [K _]; now apply K|]. repeat (apply sel_take; [apply W; reflexivity|]). constructor.
Qed.
Example C289_row_example : row_says heads (tl ae2000) (txt "index") (line ["0003421"; "19700101"; "000000"; "846"; "13723181"; "12"]%string) 3421 (mkStamped (mkCivil 1970 1 1 0 0 0) 846 0) 0.
Proof.
  constructor; [reflexivity| | |split; [constructor|cbn; lia]|split; [discriminate|reflexivity]].
  - exists 6%nat. split; [exists 0%nat; split; reflexivity|cbn; lia].
  - exists (line ["19700101"; "000000"; "846"]%string). split; [|split].
    + constructor; [exists 1%nat; split; reflexivity|]. constructor; [exists 2%nat; split; reflexivity|]. constructor; [exists 3%nat; split; reflexivity|]. constructor.
    + intros c I J. cbv [line map txt list_ascii_of_string] in I, J. cbn [In] in I, J. intuition congruence.
    + split; [vm_compute; lia|]. intros i f Hf w v Hv. assert (Hi : (i < 17)%nat) by (change 17%nat with (length (concat (map snd (tl ae2000)))); apply nth_error_Some; rewrite Hf; discriminate).
      do 17 (destruct i as [|i]; [injection Hf as <-; vm_compute in Hv; first [discriminate|injection Hv as <- <-; vm_compute; reflexivity]|]). lia.
Qed.
Example C289_file_example : exists df, read_timestamp_file (fun _ => None) ae2000 [heads; line ["0003421"; "20180805"; "181338"; "846"; "13723181"; "12"]%string;
    line ["0003422"; "20180805"; "181342"; "863"; "13727198"; "12"]%string] = Ok df /\
  image_time (fun _ => None) df (txt "0003422") (txt "iiiiiii.xxx") = Ok (At (1533492822863000 # 1000000)).
Proof. eexists. split; vm_compute; reflexivity. Qed.

(** * C290: the claims without the conditions *)
(** "Every image gets the time in its row": a time of day without its leading zero is taken for another (01:23:45.678 for 12:34:56.078). *)
Theorem C290_unpadded_refuted : exists df t t', read_timestamp_file (fun _ => None) ae2000 [heads; line ["0000001"; "20180805"; "012345"; "678"; "0"; "0"]%string; line ["0000002"; "20180805"; "12345"; "678"; "0"; "0"]%string] = Ok df /\
  image_time (fun _ => None) df (txt "0000001") (txt "iiiiiii") = Ok (At t) /\ image_time (fun _ => None) df (txt "0000002") (txt "iiiiiii") = Ok (At t') /\ t' - t == 40270 + (4 # 10).
Proof. do 3 eexists. split; [vm_compute; reflexivity|]. split; [vm_compute; reflexivity|]. split; [vm_compute; reflexivity|]. vm_compute. reflexivity. Qed.
(** "The names of the header are found": the last one is not when the rows end with a comma. *)
Theorem C290_last_name_refuted : exists header row, In (txt "ms") header /\ read_timestamp_file (fun _ => None) ae2000 [header; row] = Ok (Some [(1%Z, 1533492818846000 # 1000000)]) /\
  read_timestamp_file (fun _ => None) ae2000 [header; row ++ [[]]] = Raises.
Proof. exists (line ["index"; "date"; "time"; "ms"]%string), (line ["0000001"; "20180805"; "181338"; "846"]%string). split; [cbn; tauto|]. split; vm_compute; reflexivity. Qed.
(** "A number is looked up": a number that is in two rows gives no time. *)
Theorem C290_twice_refuted : exists df, read_timestamp_file (fun _ => None) ae2000 [heads; line ["0000001"; "20180805"; "181338"; "846"; "0"; "0"]%string; line ["1"; "20180805"; "181338"; "846"; "0"; "0"]%string] = Ok df /\
  image_time (fun _ => None) df (txt "0000001") (txt "iiiiiii") = Ok Several.
Proof. eexists. split; vm_compute; reflexivity. Qed.
(** "A column of the letter i has the number": one of two letters ends the program. *)
Theorem C290_short_index_refuted : exists cols, cols = (txt "index", txt "ii") :: tl ae2000 /\
  read_timestamp_file (fun _ => None) cols [heads; line ["01"; "20180805"; "181338"; "846"; "0"; "0"]%string] = Quits.
Proof. eexists. split; [reflexivity|]. vm_compute. reflexivity. Qed.
(** "A row without a date is left out": an empty cell is read as the word nan, and nothing of the file is read. *)
Theorem C290_missing_refuted : exists good bad, read_timestamp_file (fun _ => None) ae2000 [heads; good] <> Raises /\ read_timestamp_file (fun _ => None) ae2000 [heads; good; bad] = Raises /\
  under heads (txt "date") bad [].
Proof.
  exists (line ["0000001"; "20180805"; "181338"; "846"; "0"; "0"]%string), (line ["0000002"; ""; "181338"; "846"; "0"; "0"]%string). split; [vm_compute; discriminate|]. split; [vm_compute; reflexivity|].
  exists 1%nat. split; reflexivity.
Qed.
Print Assumptions C290_unpadded_refuted. Print Assumptions C290_last_name_refuted. Print Assumptions C290_twice_refuted. Print Assumptions C290_short_index_refuted. Print Assumptions C290_missing_refuted.
