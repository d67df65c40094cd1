(** C279/C280: whole files corrected from ALR's to BioCam's clock. *)
From Coq Require Import Ascii String Sorted.
From Verif Require Import PyBase TimeModel TimeSpec TimeProofs AlrModel AlrProps Ae2000Props AlrFilesModel.
Open Scope Q_scope.
Open Scope list_scope.

(** ** Specification *)
Definition within (w s : text) : Prop := exists x y, s = x ++ w ++ y.
(** A line of a poll: its fields 1, 5 and 7 (counting from 0) are whole numbers, and the words stand somewhere in it. *)
Inductive poll_line : text -> poll -> Prop :=
| a_poll f0 f2 f3 f4 f6 wa wb wc p rest :
    ~ In ","%char f0 -> ~ In ","%char f2 -> ~ In ","%char f3 -> ~ In ","%char f4 -> ~ In ","%char f6 ->
    numeral wa (bc0 p) -> numeral wb (alr p) -> numeral wc (bc1 p) -> rest = [] \/ (exists r, rest = ","%char :: r) ->
    poll_line (f0 ++ ","%char :: pad wa (bc0 p) ++ ","%char :: f2 ++ ","%char :: f3 ++ ","%char :: f4 ++ ","%char :: pad wb (alr p) ++ ","%char :: f6 ++ ","%char :: pad wc (bc1 p) ++ rest) p.
Inductive log_of : list text -> list poll -> Prop :=
| log_end : log_of [] []
| log_other l ls ps : ~ within (txt "poll_time:") l -> log_of ls ps -> log_of (l :: ls) ps
| log_poll l ls p ps : within (txt "poll_time:") l -> poll_line l p -> log_of ls ps -> log_of (l :: ls) (p :: ps).
(** The corrected time: on the line through the polls around it (or the two nearest ones). *)
Definition corrected_by (ps : list poll) (divisions stamp y : Q) : Prop :=
  exists l p q r, ps = l ++ p :: q :: r /\ on_line p q (stamp / divisions) y /\ (l = [] \/ at_s p <= stamp / divisions) /\ (r = [] \/ stamp / divisions < at_s q).
(** The same table with a new first column. *)
Definition corrected_table (ps : list poll) (divisions : Q) (column : text) (t t' : table) : Prop :=
  header t' = txt "corrected_timestamp" :: header t /\
  Forall2 (fun r r' => exists y, r' = y :: r /\ forall i, nth_error (header t) i = Some column -> corrected_by ps divisions (nth i r 0) y) (body t) (body t').
Definition fit (column : text) (t : table) : Prop :=
  NoDup (header t) /\ In column (header t) /\ ~ In (txt "corrected_timestamp") (header t) /\ body t <> [].
Definition disk_of (r : result) : disk := match r with Finished d | Stopped d => d end.

(** ** Facts *)
Lemma same_spec : forall a b, same a b = true <-> a = b.
Proof.
  induction a as [|x a IH]; intros [|y b]; cbn [same]; try (split; congruence).
  rewrite Bool.andb_true_iff, Ascii.eqb_eq, IH. split; [intros [-> ->]; reflexivity|intros E; injection E; auto].
Qed.
Lemma same_refl : forall a, same a a = true.
Proof. intros a. now apply same_spec. Qed.
Lemma same_ne : forall a b, a <> b -> same a b = false.
Proof. intros a b H. destruct (same a b) eqn:E; [|reflexivity]. now apply same_spec in E. Qed.
Lemma starts_spec : forall w s, starts w s = true <-> exists y, s = w ++ y.
Proof.
  induction w as [|x w IH]; intros s; cbn [starts app].
  - split; [intros _; now exists s|reflexivity].
  - destruct s as [|z s]; [split; [discriminate|intros [y E]; discriminate]|]. rewrite Bool.andb_true_iff, Ascii.eqb_eq, IH. split.
    + intros [-> [y ->]]. now exists y.
    + intros [y E]. injection E as -> ->. split; [reflexivity|now exists y].
Qed.
Lemma contains_spec : forall w s, contains w s = true <-> within w s.
Proof.
  intros w. induction s as [|c s IH]; cbn [contains].
  - rewrite Bool.orb_false_r, starts_spec. split; [intros [y E]; now exists [], y|intros (x & y & E); destruct x; [now exists y|discriminate]].
  - rewrite Bool.orb_true_iff, IH, starts_spec. split.
    + intros [[y E]|(x & y & ->)]; [now exists [], y|now exists (c :: x), y].
    + intros (x & y & E). destruct x as [|a x]; [left; now exists y|right; injection E as -> ->; now exists x, y].
Qed.
Lemma line_read : forall l p, within (txt "poll_time:") l -> poll_line l p -> read_line l = Some [p].
Proof.
  intros l p W H. unfold read_line. rewrite (proj2 (contains_spec _ _) W). destruct H as [f0 f2 f3 f4 f6 wa wb wc p rest N0 N2 N3 N4 N6 A B C R].
  rewrite !split_cons by first [assumption|nodigit].
  assert (exists tail, Ae2000Model.split_at ","%char (pad wc (bc1 p) ++ rest) = pad wc (bc1 p) :: tail) as [tail ->].
  { destruct R as [ -> | [r ->] ]; [rewrite app_nil_r; exists []; apply split_none; nodigit|eexists; apply split_cons; nodigit]. }
  cbn [nth_error]. unfold bind. rewrite !py_numeral by assumption. destruct p; reflexivity.
Qed.
Lemma log_read : forall ls ps, log_of ls ps -> read_lines ls = Some ps.
Proof.
  intros ls ps H. induction H as [|l ls ps N H IH|l ls p ps W L H IH]; cbn [read_lines]; [reflexivity| |].
  - unfold read_line. destruct (contains (txt "poll_time:") l) eqn:E; [apply contains_spec in E; contradiction|]. cbn [bind]. rewrite IH. reflexivity.
  - rewrite (line_read _ _ W L). cbn [bind]. rewrite IH. reflexivity.
Qed.
Lemma lines_app : forall a b, read_lines (a ++ b) = bind (read_lines a) (fun p => bind (read_lines b) (fun q => Some (p ++ q))).
Proof.
  induction a as [|l a IH]; intros b; cbn [app read_lines]; [cbn [bind]; destruct (read_lines b); reflexivity|].
  rewrite IH. destruct (read_line l) as [p|]; cbn [bind]; [|reflexivity]. destruct (read_lines a) as [q|]; cbn [bind]; [|reflexivity].
  destruct (read_lines b) as [r|]; cbn [bind]; [|reflexivity]. now rewrite app_assoc.
Qed.
Lemma logs_read : forall texts, read_logs (map Some texts) = read_lines (concat texts).
Proof. induction texts as [|t texts IH]; [reflexivity|]. cbn [map read_logs concat]. rewrite lines_app, IH. reflexivity. Qed.
Lemma index_some : forall name l i, NoDup l -> nth_error l i = Some name -> index name l = Some i.
Proof.
  intros name. induction l as [|x l IH]; intros [|i] D E; try discriminate; cbn [nth_error] in E; cbn [index].
  - injection E as ->. now rewrite same_refl.
  - inversion D as [|y m NI D2]; subst. rewrite same_ne; [|intros ->; apply NI; now apply nth_error_In in E]. now rewrite (IH i D2 E).
Qed.
Lemma index_none : forall name l, ~ In name l -> index name l = None.
Proof.
  intros name. induction l as [|x l IH]; intros N; [reflexivity|]. cbn [index]. rewrite same_ne; [|intros ->; apply N; now left]. rewrite IH; [reflexivity|]. intros I; apply N; now right.
Qed.
(** A stem without ".csv" keeps its letters. *)
Lemma name_plain : forall stem, ~ within (txt ".csv") stem -> output_name (stem ++ txt ".csv") = stem ++ txt "_corrected.csv".
Proof.
  unfold output_name. induction stem as [|c s IH]; intros N; [reflexivity|].
  cbn [app replace_from]. destruct (starts (txt ".csv") (c :: s ++ txt ".csv")) eqn:E.
  - exfalso. apply starts_spec in E. destruct E as [y E]. destruct s as [|c1 [|c2 [|c3 s]]]; try (vm_compute in E; discriminate).
    apply N. exists [], s. cbn in E |- *. injection E as -> -> -> -> _. reflexivity.
  - f_equal. apply IH. intros (x & y & ->). apply N. now exists (c :: x), y.
Qed.
Lemma last4_app : forall stem, last4 (stem ++ txt ".csv") = txt ".csv".
Proof.
  intros stem. unfold last4. rewrite app_length. replace (length stem + length (txt ".csv") - 4)%nat with (length stem) by (cbn; lia).
  rewrite skipn_app, skipn_all, Nat.sub_diag. reflexivity.
Qed.
Lemma write_same : forall d n t, write d n t n = Some t.
Proof. intros. unfold write. now rewrite same_refl. Qed.
Lemma write_other : forall d n t m, m <> n -> write d n t m = d m.
Proof. intros. unfold write. now rewrite same_ne. Qed.
Lemma both_impl : forall (A B : Type) (P Q : A -> B -> Prop), (forall a b, P a b -> Q a b) -> forall l m, Forall2 P l m -> Forall2 Q l m.
Proof. intros A B P Q H l m F. induction F; constructor; auto. Qed.
Lemma rows_ok : forall ps c dv i rows, ticking ps -> (2 <= length ps)%nat -> analyse ps = Ready c ->
  exists out, correct_rows c dv i rows = Some out /\ Forall2 (fun r r' => exists y, r' = y :: r /\ corrected_by ps dv (nth i r 0) y) rows out.
Proof.
  intros ps c dv i rows T L A. induction rows as [|r rows (out & E & F)]; [exists []; split; [reflexivity|constructor]|].
  cbn [correct_rows]. destruct (C55_piecewise ps c dv (nth i r 0) T L A) as (y & -> & Y). cbn [bind]. rewrite E. cbn [bind].
  eexists. split; [reflexivity|]. constructor; [exists y; split; [reflexivity|exact Y]|exact F].
Qed.
Lemma table_ok : forall ps c dv column t, ticking ps -> (2 <= length ps)%nat -> analyse ps = Ready c -> fit column t ->
  exists t', correct_table c dv column t = Some t' /\ corrected_table ps dv column t t'.
Proof.
  intros ps c dv column t T L A (D & I & N & B). unfold correct_table, new_column. apply In_nth_error in I. destruct I as [i I]. rewrite (index_some _ _ _ D I). cbn [bind].
  destruct (rows_ok ps c dv i (body t) T L A) as (out & E & F). destruct (body t) as [|r rows] eqn:BE; [congruence|]. rewrite (index_none _ _ N). rewrite E. cbn [bind].
  eexists. split; [reflexivity|]. split; [reflexivity|]. cbn [header body]. rewrite BE. eapply (both_impl _ _ (fun r r' => exists y, r' = y :: r /\ corrected_by ps dv (nth i r 0) y)); [|exact F].
  intros a b (y & -> & Y). exists y. split; [reflexivity|]. intros j J. assert (i = j) as <-; [|exact Y].
  apply (proj1 (NoDup_nth_error (header t)) D); [apply nth_error_Some; congruence|congruence].
Qed.
Lemma sorted_ok : forall l, Sorted Z.le l -> sorted l = true.
Proof.
  induction l as [|a [|b l] IH]; intros H; [reflexivity|reflexivity|]. inversion H as [|x y SL HD]; subst. inversion HD; subst.
  cbn [sorted]. apply andb_true_intro. split; [now apply Z.leb_le|exact (IH SL)].
Qed.
Lemma stem_inj : forall a b w : text, a ++ w = b ++ w -> a = b.
Proof. intros a b w H. now apply app_inv_tail in H. Qed.
Lemma files_ok : forall ps c dv column, ticking ps -> (2 <= length ps)%nat -> analyse ps = Ready c -> forall stems d,
  (forall s, In s stems -> ~ within (txt ".csv") s /\ exists t, d (s ++ txt ".csv") = Some t /\ fit column t) ->
  (forall s s', In s stems -> In s' stems -> s ++ txt "_corrected" <> s') ->
  exists d', correct_files c dv column (map (fun s => s ++ txt ".csv") stems) d = Finished d' /\
    (forall s, In s stems -> exists t t', d (s ++ txt ".csv") = Some t /\ d' (s ++ txt "_corrected.csv") = Some t' /\ corrected_table ps dv column t t') /\
    (forall n, (forall s, In s stems -> n <> s ++ txt "_corrected.csv") -> d' n = d n).
Proof.
  intros ps c dv column T L A. induction stems as [|s stems IH]; intros d G X.
  - exists d. split; [reflexivity|]. split; [intros s []|reflexivity].
  - destruct (G s (or_introl eq_refl)) as (P & t & DT & FT). destruct (table_ok ps c dv column t T L A FT) as (t' & E & CT).
    cbn [map correct_files]. rewrite DT. cbn [bind]. rewrite E. rewrite (name_plain s P).
    assert (forall s', In s' (s :: stems) -> s' ++ txt ".csv" <> s ++ txt "_corrected.csv") as NE.
    { intros s' I H. apply (X s s' (or_introl eq_refl) I). replace (s ++ txt "_corrected.csv") with ((s ++ txt "_corrected") ++ txt ".csv") in H by (rewrite <- app_assoc; reflexivity).
      now apply stem_inj in H. }
    destruct (IH (write d (s ++ txt "_corrected.csv") t')) as (d' & E' & O & U).
    + intros s' I. destruct (G s' (or_intror I)) as (P' & u & DU & FU). split; [exact P'|]. exists u. split; [|exact FU]. rewrite write_other; [exact DU|]. apply NE. now right.
    + intros a b IA IB. apply X; now right.
    + exists d'. split; [exact E'|]. split.
      * intros s' I. destruct (in_dec (list_eq_dec ascii_dec) s' stems) as [J|J].
        -- destruct (O s' J) as (u & u' & DU & DU' & CU). exists u, u'. split; [|now split]. rewrite write_other in DU; [exact DU|]. apply NE. now right.
        -- destruct I as [<-|I]; [|contradiction]. exists t, t'. split; [exact DT|]. split; [|exact CT]. rewrite U; [apply write_same|].
           intros s' I H. apply stem_inj in H. now subst s'.
      * intros n H. rewrite U; [apply write_other; apply H; now left|]. intros s' I. apply H. now right.
Qed.

(** ** C279 *)
(** A log's lines give its polls, in order, whatever else stands in it, and several logs are read one after the other. *)
Theorem C279_logs : forall texts ps, log_of (concat texts) ps -> read_logs (map Some texts) = Some ps.
Proof. intros texts ps H. rewrite logs_read. now apply log_read. Qed.
Print Assumptions C279_logs.
(** With one file after each -a, every file gets a copy with the corrected time in front, and no other file changes. *)
Theorem C279_files : forall texts ps stems column dv force d,
  log_of (concat texts) ps -> ticking ps -> Sorted Z.le (map bc0 ps) -> (2 <= length ps)%nat ->
  (forall s, In s stems -> ~ within (txt ".csv") s /\ exists t, d (s ++ txt ".csv") = Some t /\ fit column t) ->
  (forall s s', In s stems -> In s' stems -> s ++ txt "_corrected" <> s') ->
  (force = true \/ forall s, In s stems -> d (s ++ txt "_corrected.csv") = None) ->
  exists d', run (map Some texts) (Some (map (fun s => (s ++ txt ".csv", [])) stems)) column dv force d = Finished d' /\
    (forall s, In s stems -> exists t t', d (s ++ txt ".csv") = Some t /\ d' (s ++ txt "_corrected.csv") = Some t' /\ corrected_table ps dv column t t') /\
    (forall n, (forall s, In s stems -> n <> s ++ txt "_corrected.csv") -> d' n = d n).
Proof.
  intros texts ps stems column dv force d H T B L G X O. apply sorted_ok in B.
  destruct (C55_ready ps ltac:(intros ->; cbn in L; lia) T B) as [c A]. destruct (files_ok ps c dv column T L A stems d G X) as (d' & E & R). exists d'. split; [|exact R]. clear R.
  unfold run. rewrite map_map. cbn [fst]. rewrite (proj2 (forallb_forall _ _)).
  2:{ intros n I. apply in_map_iff in I. destruct I as (s & <- & _). rewrite last4_app. apply same_refl. }
  cbn [negb]. assert ((negb force && existsb (fun n => match d (output_name n) with Some _ => true | None => false end) (map (fun s => s ++ txt ".csv") stems))%bool = false) as ->.
  { destruct O as [->|O]; [reflexivity|]. apply Bool.andb_false_iff. right. apply Bool.not_true_is_false. intros K. apply existsb_exists in K. destruct K as (n & I & K).
    apply in_map_iff in I. destruct I as (s & <- & I). rewrite name_plain in K by apply (G s I). rewrite (O s I) in K. discriminate. }
  rewrite (C279_logs _ _ H), A. exact E.
Qed.
Print Assumptions C279_files.
(** However it ends, nothing but the outputs is written, and without -f no file that was there changes. *)
Lemma files_else : forall c dv column names d n, ~ In n (map output_name names) -> disk_of (correct_files c dv column names d) n = d n.
Proof.
  intros c dv column. induction names as [|m names IH]; intros d n N; [reflexivity|]. cbn [correct_files map] in *. destruct (bind (d m) (correct_table c dv column)) as [t|]; [|reflexivity].
  rewrite IH by (intros I; apply N; now right). apply write_other. intros ->. apply N. now left.
Qed.
Theorem C279_others : forall logs groups column dv force d n, ~ In n (map (fun g => output_name (fst g)) groups) -> disk_of (run logs (Some groups) column dv force d) n = d n.
Proof.
  intros logs groups column dv force d n N. unfold run. destruct (negb _); [reflexivity|]. destruct (_ && _)%bool; [reflexivity|]. destruct (read_logs logs) as [ps|]; [|reflexivity].
  destruct (analyse ps); try reflexivity. apply files_else. now rewrite map_map.
Qed.
Print Assumptions C279_others.
Theorem C279_kept : forall logs groups column dv d n t, d n = Some t -> disk_of (run logs groups column dv false d) n = Some t.
Proof.
  intros logs groups column dv d n t E. unfold run. destruct (negb _); [exact E|]. cbn [negb andb]. destruct (existsb _ _) eqn:X; [exact E|]. destruct (read_logs logs) as [ps|]; [|exact E].
  destruct (analyse ps); try exact E. rewrite files_else; [exact E|]. intros I. apply in_map_iff in I. destruct I as (m & <- & I).
  apply Bool.not_true_iff_false in X. apply X. apply existsb_exists. exists m. split; [exact I|]. now rewrite E.
Qed.
Print Assumptions C279_kept.
(** A missing log, or a name that does not end in .csv, stops it before anything is written. *)
Theorem C279_refused : forall logs groups column dv force d, In None logs \/ (exists g, In g groups /\ ~ exists stem, fst g = stem ++ txt ".csv") ->
  run logs (Some groups) column dv force d = Stopped d.
Proof.
  intros logs groups column dv force d H. unfold run. destruct (negb (forallb _ _)) eqn:F; [reflexivity|]. destruct (_ && _)%bool; [reflexivity|].
  destruct H as [H|(g & I & N)].
  - assert (read_logs logs = None) as ->; [|reflexivity]. clear F. induction logs as [|[l|] logs IH]; [destruct H| |reflexivity]. destruct H as [H|H]; [discriminate|].
    cbn [read_logs]. rewrite (IH H). destruct (read_lines l); reflexivity.
  - exfalso. apply Bool.negb_false_iff in F. rewrite forallb_forall in F. specialize (F (fst g) (in_map fst _ _ I)). apply same_spec in F. apply N.
    exists (firstn (length (fst g) - 4) (fst g)). rewrite <- F. symmetry. apply firstn_skipn.
Qed.
Print Assumptions C279_refused.

(** Two polls: at 1000 s of ALR BioCam shows 1002 s, at 2000 s it shows 3002 s; the file is in milliseconds. *)
Definition log1 : list text := [txt "boot"; txt "x,1001000,poll_time:,,alr,1000000,bc,1003000"; txt "temperature,9"; txt "x,3001000,poll_time:,,alr,2000000,bc,3003000,ok"].
Definition sheet : table := mktable [txt "depth"; txt "timestamp"] [[5; 1000000]; [6; 1500000]; [7; 2000000]].
Definition disk1 : disk := fun n => if same n (txt "d/nav.csv") then Some sheet else if same n (txt "d/oxy.csv") then Some (mktable [txt "timestamp"] [[2500000]]) else None.
Definition rows_at (r : result) (n : string) : option (list (list Q)) := option_map (fun t => map (map Qred) (body t)) (disk_of r (txt n)).
Definition ended (r : result) : bool := match r with Finished _ => true | Stopped _ => false end.
Example run1 : let r := run [Some log1] (Some [(txt "d/nav.csv", []); (txt "d/oxy.csv", [])]) (txt "timestamp") 1000 false disk1 in
  ended r = true /\ rows_at r "d/nav_corrected.csv" = Some [[1002; 5; 1000000]; [2002; 6; 1500000]; [3002; 7; 2000000]] /\
  rows_at r "d/oxy_corrected.csv" = Some [[4002; 2500000]] /\ rows_at r "d/nav.csv" = Some [[5; 1000000]; [6; 1500000]; [7; 2000000]].
Proof. vm_compute. auto. Qed.

(** ** C280 *)
(** Every file given is corrected: not the second one after the same -a, and nothing is said. *)
Theorem C280_group_refuted : exists logs name others column dv d d', (forall n, In n (name :: others) -> exists t, d n = Some t /\ fit column t) /\
  run logs (Some [(name, others)]) column dv false d = Finished d' /\ exists stem, In (stem ++ txt ".csv") others /\ d' (stem ++ txt "_corrected.csv") = None.
Proof.
  exists [Some log1], (txt "d/nav.csv"), [txt "d/oxy.csv"], (txt "timestamp"), 1000, disk1. eexists. split; [|split; [vm_compute; reflexivity|]].
  - intros n [<-|[<-|[]]]; eexists; (split; [reflexivity|]); (split; [|split; [|split; [|discriminate]]]); cbn.
    + repeat constructor; cbn; intuition discriminate.
    + auto.
    + intuition discriminate.
    + repeat constructor; cbn; intuition discriminate.
    + auto.
    + intuition discriminate.
  - exists (txt "d/oxy"). split; [now left|]. vm_compute. reflexivity.
Qed.
Print Assumptions C280_group_refuted.
(** The copy is beside the file, only its own name changed: a folder with ".csv" in its name is changed too, to one that need not exist. *)
Theorem C280_folder_refuted : exists folder stem, ~ In "/"%char stem /\ ~ within (txt ".csv") stem /\
  output_name (folder ++ "/"%char :: stem ++ txt ".csv") <> folder ++ "/"%char :: stem ++ txt "_corrected.csv".
Proof.
  exists (txt "alr.csv.d"), (txt "nav"). split; [cbn; intuition discriminate|]. split; [|vm_compute; discriminate].
  intros H. apply contains_spec in H. vm_compute in H. discriminate.
Qed.
Print Assumptions C280_folder_refuted.
(** A file without rows only gets a copy without rows: it stops the script, and the files after it are not corrected. *)
Theorem C280_empty_refuted : exists logs empty name column dv d, (exists t, d name = Some t /\ fit column t) /\
  (exists t, d empty = Some t /\ In column (header t) /\ body t = []) /\
  ended (run logs (Some [(name, [])]) column dv false d) = true /\
  let r := run logs (Some [(empty, []); (name, [])]) column dv false d in ended r = false /\ exists stem, name = stem ++ txt ".csv" /\ disk_of r (stem ++ txt "_corrected.csv") = None.
Proof.
  exists [Some log1], (txt "e.csv"), (txt "d/nav.csv"), (txt "timestamp"), 1000, (write disk1 (txt "e.csv") (mktable [txt "timestamp"] [])).
  split; [|split; [|split; [|split]]].
  - eexists. split; [reflexivity|]. split; [|split; [|split; [|discriminate]]]; cbn; [repeat constructor; cbn; intuition discriminate|auto|intuition discriminate].
  - eexists. split; [reflexivity|]. split; [now left|reflexivity].
  - vm_compute. reflexivity.
  - vm_compute. reflexivity.
  - exists (txt "d/nav"). split; reflexivity.
Qed.
Print Assumptions C280_empty_refuted.
(** All polls of the log are used: the line of a poll whose reply was cut off stops the script, also when the others are enough. *)
Theorem C280_cut_refuted : exists before cut after ps, log_of (before ++ after) ps /\ (2 <= length ps)%nat /\ ticking ps /\ (exists tail p, poll_line (cut ++ tail) p) /\
  forall groups column dv force d, run [Some (before ++ cut :: after)] groups column dv force d = Stopped d.
Proof.
  exists [nth 1 log1 []], (txt "x,3501000,poll_time:,,alr"), [nth 3 log1 []], [mkpoll 1001000 1000000 1003000; mkpoll 3001000 2000000 3003000].
  split; [|split; [cbn; lia|split; [cbn; lia|split]]].
  - cbn [nth log1 app]. apply log_poll; [apply contains_spec; reflexivity| |apply log_poll; [apply contains_spec; reflexivity| |constructor]].
    + refine (a_poll (txt "x") (txt "poll_time:") [] (txt "alr") (txt "bc") 7 7 7 (mkpoll 1001000 1000000 1003000) [] _ _ _ _ _ _ _ _ (or_introl eq_refl));
        first [cbn; intuition discriminate | split; cbn; lia].
    + refine (a_poll (txt "x") (txt "poll_time:") [] (txt "alr") (txt "bc") 7 7 7 (mkpoll 3001000 2000000 3003000) (txt ",ok") _ _ _ _ _ _ _ _ (or_intror (ex_intro _ (txt "ok") eq_refl)));
        first [cbn; intuition discriminate | split; cbn; lia].
  - exists (txt ",2500000,bc,3503000"), (mkpoll 3501000 2500000 3503000).
    refine (a_poll (txt "x") (txt "poll_time:") [] (txt "alr") (txt "bc") 7 7 7 (mkpoll 3501000 2500000 3503000) [] _ _ _ _ _ _ _ _ (or_introl eq_refl));
        first [cbn; intuition discriminate | split; cbn; lia].
  - intros groups column dv force d. unfold run. destruct (negb (forallb _ _)); [reflexivity|]. destruct (_ && _)%bool; [reflexivity|].
    match goal with |- context [read_logs ?x] => assert (read_logs x = None) as -> by (vm_compute; reflexivity) end. reflexivity.
Qed.
Print Assumptions C280_cut_refuted.
