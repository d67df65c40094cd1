(** C297, C298: the samples of a payload. *)
From Coq Require Import Ascii String.
From Verif Require Import PyBase PayCsvModel.
Open Scope Q_scope.

(** * Specification *)
(** The cell of a row under a name. *)
Definition under (names : list string) (k : string) (r : list string) (c : string) : Prop := exists j, nth_error names j = Some k /\ nth_error r j = Some c.
Section Spec.
  Variable parse : string -> option number.
  (** A column in which every cell is a number. *)
  Definition numeric (names : list string) (rows : list (list string)) (k : string) : Prop := forall r c, In r rows -> under names k r c -> parse c <> None.
  (** A column in which every cell is an integer. *)
  Definition integral (names : list string) (rows : list (list string)) (k : string) : Prop := forall r c, In r rows -> under names k r c -> exists z, parse c = Some (I z).
  (** What a value has to do with its cell. *)
  Definition stands_for (names : list string) (rows : list (list string)) (k c : string) (v : value) : Prop :=
    (numeric names rows k -> exists n n', v = Number n /\ parse c = Some n' /\ rational n = rational n') /\ (~ numeric names rows k -> v = Words c).
End Spec.
(** Names without one, in their order. *)
Inductive without (x : string) : list string -> list string -> Prop :=
| wo_nil : without x [] []
| wo_same : forall l l', without x l l' -> without x (x :: l) l'
| wo_other : forall a l l', a <> x -> without x l l' -> without x (a :: l) (a :: l').

(** * Lemmas *)
Lemma without_filter : forall {V} x (l : list (string * V)), without x (map fst l) (map fst (filter (fun kv => negb (String.eqb (fst kv) x)) l)).
Proof.
  intros V x l. induction l as [|[k v] l IH]; [constructor|]. cbn [map filter fst]. destruct (String.eqb k x) eqn:E; cbn [negb].
  - apply String.eqb_eq in E. subst. now constructor.
  - cbn [map fst]. constructor; [|exact IH]. now apply String.eqb_neq.
Qed.
Lemma lookup_in : forall k l v, NoDup (map fst l) -> In (k, v) l -> lookup k l = Some v.
Proof.
  intros k l v. induction l as [|[n w] l IH]; intros N I; [destruct I|]. cbn [map fst] in N. inversion N as [|? ? N1 N2]; subst. cbn [lookup]. destruct (String.eqb n k) eqn:E.
  - apply String.eqb_eq in E. subst n. destruct I as [I|I]; [now injection I as ->|]. exfalso. apply N1. change k with (fst (k, v)). now apply in_map.
  - destruct I as [I|I]; [injection I as -> _; rewrite String.eqb_refl in E; discriminate|now apply IH].
Qed.
Lemma each_all : forall {A B} (f : A -> option B) l (P : A -> B -> Prop), (forall a, In a l -> exists b, f a = Some b /\ P a b) -> exists bs, each f l = Some bs /\ Forall2 P l bs.
Proof.
  intros A B f l P. induction l as [|a l IH]; intros H; [exists []; split; constructor|]. destruct IH as (bs & E & F2); [intros; apply H; now right|]. destruct (H a (or_introl eq_refl)) as (b & Eb & Pb).
  exists (b :: bs). cbn [each]. rewrite Eb, E. split; [reflexivity|now constructor].
Qed.
Lemma each_forall2 : forall {A B} (f : A -> option B) (P : A -> B -> Prop) l bs, each f l = Some bs -> (forall a b, In a l -> f a = Some b -> P a b) -> Forall2 P l bs.
Proof.
  intros A B f P l. induction l as [|a l IH]; intros bs E H; cbn [each] in E; [injection E as <-; constructor|]. destruct (f a) as [b|] eqn:Ea; [|discriminate]. destruct (each f l) as [bs'|]; [|discriminate]. injection E as <-.
  constructor; [apply H; [now left|exact Ea]|]. apply IH; [reflexivity|]. intros; apply H; [now right|assumption].
Qed.
Lemma map_fst_combine : forall {A B} (l : list A) (m : list B), length l = length m -> map fst (combine l m) = l.
Proof. intros A B l. induction l as [|a l IH]; intros [|b m] H; try discriminate; [reflexivity|]. cbn [combine map fst]. cbn [length] in H. rewrite IH by lia. reflexivity. Qed.
Lemma nth_combine_error : forall {A B} (l : list A) (m : list B) j a b, nth_error l j = Some a -> nth_error m j = Some b -> nth_error (combine l m) j = Some (a, b).
Proof. intros A B l. induction l as [|x l IH]; intros m [|j] a b H K; destruct m as [|y m]; try discriminate; cbn in *; [congruence|now apply IH]. Qed.
Lemma nth_error_at : forall (l : list string) j, (j < length l)%nat -> nth_error l j = Some (nth j l ""%string).
Proof. intros l. induction l as [|a l IH]; intros [|j] H; cbn in *; try lia; [reflexivity|apply IH; lia]. Qed.

Section Theorems.
  Variable parse : string -> option number.
  Notation parser := (generic_csv_payload_parser parse).
  Variables (names : list string) (rows : list (list string)).
  Hypothesis distinct : NoDup names.
  Hypothesis full : forall r, In r rows -> length r = length names.

  Lemma column_all : forall (f : string -> bool) j k, nth_error names j = Some k -> (forallb f (column rows j) = true <-> forall r c, In r rows -> under names k r c -> f c = true).
  Proof.
    intros f j k J. unfold column. rewrite forallb_forall. split.
    - intros H r c R (j' & J' & C). assert (j' = j) as -> by (apply (NoDup_nth_error names); [exact distinct|apply nth_error_Some; congruence|congruence]).
      apply H. apply in_map_iff. exists r. split; [now apply nth_error_nth|exact R].
    - intros H c C. apply in_map_iff in C. destruct C as (r & <- & R). apply (H r); [exact R|]. exists j. split; [exact J|]. apply nth_error_at. rewrite (full r R). apply nth_error_Some. congruence.
  Qed.
  Lemma kinds_at : forall j k, nth_error names j = Some k -> nth_error (kinds parse names rows) j = Some (kind_of parse (column rows j)).
  Proof.
    intros j k J. unfold kinds. assert (L : (j < length names)%nat) by (apply nth_error_Some; congruence). 
    rewrite nth_error_map. rewrite (nth_error_nth' (seq 0 (length names)) 0%nat) by (now rewrite seq_length). rewrite seq_nth by exact L. reflexivity.
  Qed.
  Lemma kind_spec : forall j k, nth_error names j = Some k ->
    match kind_of parse (column rows j) with Ints => integral parse names rows k | Floats => numeric parse names rows k /\ ~ integral parse names rows k | Objects => ~ numeric parse names rows k end.
  Proof.
    intros j k J. unfold kind_of. pose proof (column_all (is_int parse) j k J) as A. pose proof (column_all (is_number parse) j k J) as B.
    assert (AI : (forall r c, In r rows -> under names k r c -> is_int parse c = true) <-> integral parse names rows k).
    { unfold integral, is_int. split; intros H r c R U; specialize (H r c R U); [destruct (parse c) as [[z|q]|]; try discriminate; now exists z|destruct H as (z & ->); reflexivity]. }
    assert (BI : (forall r c, In r rows -> under names k r c -> is_number parse c = true) <-> numeric parse names rows k).
    { unfold numeric, is_number. split; intros H r c R U; specialize (H r c R U); [destruct (parse c); congruence|destruct (parse c); congruence]. }
    destruct (forallb (is_int parse) (column rows j)); [apply AI, A; reflexivity|]. destruct (forallb (is_number parse) (column rows j)).
    - split; [apply BI, B; reflexivity|]. intros K. discriminate (proj2 A (proj2 AI K)).
    - intros K. discriminate (proj2 B (proj2 BI K)).
  Qed.
  Lemma integral_numeric : forall k, integral parse names rows k -> numeric parse names rows k.
  Proof. intros k H r c R U K. destruct (H r c R U) as (z & E). congruence. Qed.
  Lemma row_value : forall r j k c, In r rows -> nth_error names j = Some k -> nth_error r j = Some c ->
    In (k, cell_value parse (floated (typed parse names rows)) (kind_of parse (column rows j)) c) (row_values parse names rows r).
  Proof.
    intros r j k c R J C. unfold row_values. apply (nth_error_In _ j). apply nth_combine_error; [exact J|]. rewrite nth_error_map, (nth_combine_error _ _ j _ _ (kinds_at j k J) C). reflexivity.
  Qed.
  Lemma row_names : forall r, In r rows -> map fst (row_values parse names rows r) = names.
  Proof.
    intros r R. unfold row_values. apply map_fst_combine. rewrite map_length, combine_length. unfold kinds. rewrite map_length, seq_length, (full r R). lia.
  Qed.
  Lemma value_stands : forall r j k c b, In r rows -> nth_error names j = Some k -> nth_error r j = Some c -> stands_for parse names rows k c (cell_value parse b (kind_of parse (column rows j)) c).
  Proof.
    intros r j k c b R J C. pose proof (kind_spec j k J) as K. assert (U : under names k r c) by (exists j; tauto). unfold stands_for, cell_value. destruct (kind_of parse (column rows j)).
    - destruct (K r c R U) as (z & E). rewrite E. split; [intros _; destruct b; do 2 eexists; repeat split|intros N; exfalso; now apply N, integral_numeric].
    - destruct K as [K _]. split; [intros _|tauto]. pose proof (K r c R U). destruct (parse c) as [n|]; [|congruence]. do 2 eexists. repeat split.
    - split; [tauto|]. intros _. reflexivity.
  Qed.

  (** * C297 *)
  (** A file with a column corrected_timestamp of numbers gives a sample for each row, with that time and the offset, and under each name of the file but
      epoch_timestamp what the cell says: the number in a column of numbers, and else the words. *)
  Theorem C297_samples : forall C (columns : C) offset, In "corrected_timestamp"%string names -> numeric parse names rows "corrected_timestamp" ->
    exists samples, parser names rows columns offset = Some samples /\
    Forall2 (fun r s => without "epoch_timestamp" names (map fst (data s)) /\
      (forall c, under names "corrected_timestamp" r c -> exists n, parse c = Some n /\ epoch s == rational n + offset) /\
      (forall k c, under names k r c -> k <> "epoch_timestamp"%string -> exists v, In (k, v) (data s) /\ stands_for parse names rows k c v)) rows samples.
  Proof.
    intros C columns offset I N. unfold generic_csv_payload_parser. replace (existsb (String.eqb "corrected_timestamp") names) with true by (symmetry; apply existsb_exists; exists "corrected_timestamp"%string; split; [exact I|reflexivity]).
    apply each_all. intros r R. apply In_nth_error in I. destruct I as (j & J). assert (X : nth_error r j = Some (nth j r ""%string)) by (apply nth_error_at; rewrite (full r R); apply nth_error_Some; congruence).
    pose proof (row_value r j _ _ R J X) as IV. pose proof (value_stands r j _ _ (floated (typed parse names rows)) R J X) as [SV _]. destruct (SV N) as (n & n' & E & P & Q). rewrite E in IV.
    unfold one. rewrite (lookup_in _ _ _ (eq_ind_r (@NoDup string) distinct (row_names r R)) IV). eexists. split; [reflexivity|]. cbn [data epoch]. split; [|split].
    - rewrite <- (row_names r R) at 1. apply without_filter.
    - intros c (j' & J' & C'). assert (j' = j) as -> by (apply (NoDup_nth_error names); [exact distinct|apply nth_error_Some; congruence|congruence]). rewrite X in C'. injection C' as <-. exists n'. split; [exact P|]. now rewrite Q.
    - intros k c (j' & J' & C') NE. eexists. split; [apply filter_In; split; [now apply (row_value r j' k c)|]|now apply (value_stands r j' k c)].
      cbn [fst]. apply negb_true_iff. now apply String.eqb_neq.
  Qed.
  (** Integers stay integers if some column has words, or if all columns (but epoch_timestamp) are integers. *)
  Theorem C297_integers : forall C (columns : C) offset samples, parser names rows columns offset = Some samples ->
    (exists k, In k names /\ k <> "epoch_timestamp"%string /\ ~ numeric parse names rows k) \/ (forall k, In k names -> k <> "epoch_timestamp"%string -> integral parse names rows k) ->
    Forall2 (fun r s => forall k c z, integral parse names rows k -> under names k r c -> parse c = Some (I z) -> k <> "epoch_timestamp"%string -> In (k, Number (I z)) (data s)) rows samples.
  Proof.
    intros C columns offset samples H W. unfold generic_csv_payload_parser in H. destruct (existsb _ names); [|discriminate].
    assert (FL : floated (typed parse names rows) = false).
    { unfold floated. apply andb_false_iff. destruct W as [(k & I & NE & NN)|W].
      - left. apply negb_false_iff, existsb_exists. exists Objects. split; [|reflexivity]. apply In_nth_error in I. destruct I as (j & J). unfold typed. apply in_map_iff. exists (k, Objects). split; [reflexivity|].
        apply filter_In. split; [|apply negb_true_iff; now apply String.eqb_neq]. apply (nth_error_In _ j), nth_combine_error; [exact J|]. rewrite (kinds_at j k J). f_equal.
        pose proof (kind_spec j k J) as K. destruct (kind_of parse (column rows j)); [exfalso; now apply NN, integral_numeric|tauto|reflexivity].
      - right. apply not_true_iff_false. intros E. apply existsb_exists in E. destruct E as (kd & I & E). destruct kd; try discriminate. unfold typed in I. apply in_map_iff in I. destruct I as ([k kd] & E' & I). cbn [snd] in E'. subst kd.
        apply filter_In in I. destruct I as [I NE]. cbn [fst] in NE. apply negb_true_iff, String.eqb_neq in NE. apply In_nth_error in I. destruct I as (j & J).
        assert (J1 : nth_error names j = Some k). { pose proof (f_equal (option_map fst) J) as X. rewrite <- nth_error_map, map_fst_combine in X; [exact X|]. unfold kinds. now rewrite map_length, seq_length. }
        pose proof (nth_combine_error _ _ j _ _ J1 (kinds_at j k J1)) as J2. rewrite J in J2. injection J2 as K. pose proof (kind_spec j k J1) as S. rewrite <- K in S. destruct S as [_ S]. apply S, W; [now apply (nth_error_In _ j)|exact NE]. }
    apply (each_forall2 _ _ _ _ H). intros r s R E k c z IK (j & J & X) P NE. pose proof (row_value r j k c R J X) as V. rewrite FL in V. pose proof (kind_spec j k J) as S.
    assert (KK : kind_of parse (column rows j) = Ints) by (destruct (kind_of parse (column rows j)); [reflexivity|tauto|exfalso; now apply S, integral_numeric]).
    rewrite KK in V. unfold cell_value in V. rewrite P in V. unfold one in E. destruct (lookup _ _) as [[n|w]|]; try discriminate. injection E as <-. cbn [data]. apply filter_In. split; [exact V|]. apply negb_true_iff. now apply String.eqb_neq.
  Qed.
  (** Without that column there is an error, and so with words in it and a row. *)
  Theorem C297_refused : forall C (columns : C) offset, (~ In "corrected_timestamp"%string names -> parser names rows columns offset = None) /\
    (rows <> [] -> ~ numeric parse names rows "corrected_timestamp" -> parser names rows columns offset = None).
  Proof.
    intros C columns offset. unfold generic_csv_payload_parser. destruct (existsb (String.eqb "corrected_timestamp") names) eqn:E; split; try reflexivity.
    - intros H. exfalso. apply H. apply existsb_exists in E. destruct E as (x & I & X). apply String.eqb_eq in X. now subst.
    - intros NE NN. apply existsb_exists in E. destruct E as (x & I & X). apply String.eqb_eq in X. subst x. apply In_nth_error in I. destruct I as (j & J).
      assert (H : forall r, In r rows -> one offset (row_values parse names rows r) = None).
      { intros r R. assert (X : nth_error r j = Some (nth j r ""%string)) by (apply nth_error_at; rewrite (full r R); apply nth_error_Some; congruence). pose proof (row_value r j _ _ R J X) as IV. pose proof (value_stands r j _ _ (floated (typed parse names rows)) R J X) as [_ SV]. rewrite (SV NN) in IV.
        unfold one. now rewrite (lookup_in _ _ _ (eq_ind_r (@NoDup string) distinct (row_names r R)) IV). }
      revert H. generalize (row_values parse names rows). intros rv H. destruct rows as [|r l]; [congruence|]. cbn [each]. now rewrite (H r (or_introl eq_refl)).
  Qed.
End Theorems.
Print Assumptions C297_samples. Print Assumptions C297_integers. Print Assumptions C297_refused.

(** Not vacuous: two rows of a sensor's file with words; the cells it has. *)
Definition parse0 (s : string) : option number :=
  if String.eqb s "100" then Some (I 100) else if String.eqb s "100.5" then Some (F (201 # 2)) else if String.eqb s "7" then Some (I 7) else if String.eqb s "8" then Some (I 8) else None.
Example C297_example : generic_csv_payload_parser parse0 ["corrected_timestamp"; "count"; "state"]%string [["100"; "7"; "on"]; ["100.5"; "8"; "off"]]%string tt 1 =
    Some [mksample 101 [("corrected_timestamp"%string, Number (F 100)); ("count"%string, Number (I 7)); ("state"%string, Words "on")];
          mksample (203 # 2) [("corrected_timestamp"%string, Number (F (201 # 2))); ("count"%string, Number (I 8)); ("state"%string, Words "off")]] /\
  numeric parse0 ["corrected_timestamp"; "count"; "state"]%string [["100"; "7"; "on"]; ["100.5"; "8"; "off"]]%string "corrected_timestamp" /\
  ~ numeric parse0 ["corrected_timestamp"; "count"; "state"]%string [["100"; "7"; "on"]; ["100.5"; "8"; "off"]]%string "state".
Proof.
  split; [vm_compute; reflexivity|]. split.
  - intros r c [ <- |[ <- |[]]] (j & J & C); (destruct j as [|[|[|j]]]; cbn in J, C; try discriminate; try (destruct j; discriminate); injection C as <-; vm_compute; discriminate).
  - intros H. apply (H ["100"; "7"; "on"]%string "on"%string); [now left|exists 2%nat; split; reflexivity|reflexivity].
Qed.

(** * C298: the claims without the conditions *)
(** "Integers stay integers": without a column of words, one column of floats turns all into floats. *)
Theorem C298_integers_refuted : exists names rows s, generic_csv_payload_parser parse0 names rows tt 0 = Some [s] /\ integral parse0 names rows "count" /\ data s = [("corrected_timestamp"%string, Number (F (201 # 2))); ("count"%string, Number (F 7))].
Proof.
  exists ["corrected_timestamp"; "count"]%string, [["100.5"; "7"]]%string. eexists. split; [vm_compute; reflexivity|]. split; [|reflexivity].
  intros r c [ <- |[]] (j & J & C). destruct j as [|[|j]]; cbn in J, C; try discriminate; [|destruct j; discriminate]. injection C as <-. exists 7%Z. reflexivity.
Qed.
(** "The columns of mission.yaml say where the time is": they are not used. *)
Theorem C298_columns_refuted : exists names rows, generic_csv_payload_parser parse0 names rows [("time", "eeeeeeeeee")]%string 0 = None /\ In "time"%string names /\ numeric parse0 names rows "time".
Proof.
  exists ["time"; "count"]%string, [["100"; "7"]]%string. split; [vm_compute; reflexivity|]. split; [now left|].
  intros r c [ <- |[]] (j & J & C). destruct j as [|[|j]]; cbn in J, C; try discriminate; [|destruct j; discriminate]. injection C as <-. vm_compute. discriminate.
Qed.
(** "All columns are kept": epoch_timestamp is not. *)
Theorem C298_epoch_refuted : exists names rows s, generic_csv_payload_parser parse0 names rows tt 0 = Some [s] /\ In "epoch_timestamp"%string names /\ data s = [("corrected_timestamp"%string, Number (I 100))].
Proof. exists ["corrected_timestamp"; "epoch_timestamp"]%string, [["100"; "7"]]%string. eexists. split; [vm_compute; reflexivity|]. split; [cbn; tauto|reflexivity]. Qed.
(** "The data tell the time of the sample": the offset is not in them. *)
Theorem C298_offset_refuted : exists names rows s s', generic_csv_payload_parser parse0 names rows tt 0 = Some [s] /\ generic_csv_payload_parser parse0 names rows tt 3600 = Some [s'] /\ epoch s' == epoch s + 3600 /\ data s = data s'.
Proof. exists ["corrected_timestamp"]%string, [["100"]]%string. do 2 eexists. split; [vm_compute; reflexivity|]. split; [vm_compute; reflexivity|]. split; reflexivity. Qed.
Print Assumptions C298_integers_refuted. Print Assumptions C298_columns_refuted. Print Assumptions C298_epoch_refuted. Print Assumptions C298_offset_refuted.
