(** Facts about the overwrite guards. *)
From Coq Require Import Ascii String.
From Verif Require Import PyBase GuardModel.
Local Open Scope string_scope.

(** ** Specification *)
(** A file system is a tree: whatever exists lies in a directory. *)
Definition tree (fs : fsys) : Prop := forall p x, fs (p /. [x]) <> None -> fs p = Some ADir.
(** Every file of [fs] is still there with the same contents. *)
Definition keeps_files (fs fs' : fsys) : Prop := forall p c, fs p = Some (AFile c) -> fs' p = Some (AFile c).
Definition absent (fs : fsys) (p : fpath) : Prop := fs p = None.
Definition holds (fs : fsys) (p : fpath) (c : string) : Prop := fs p = Some (AFile c).

(** ** Basic facts *)
Lemma path_eqb_spec : forall p q, path_eqb p q = true <-> p = q.
Proof. intros p q. unfold path_eqb. destruct list_eq_dec; split; congruence. Qed.
Lemma path_eqb_refl : forall p, path_eqb p p = true.
Proof. intro p. now apply path_eqb_spec. Qed.
Lemma path_eqb_neq : forall p q, p <> q -> path_eqb p q = false.
Proof. intros p q H. destruct (path_eqb p q) eqn:E; [|reflexivity]. apply path_eqb_spec in E. contradiction. Qed.
Lemma app_neq : forall (p q r : fpath), q <> r -> p /. q <> p /. r.
Proof. intros p q r H E. apply H. exact (app_inv_head p q r E). Qed.

Lemma is_prefix_spec : forall p q, is_prefix p q = true <-> exists r, q = p /. r.
Proof.
  induction p as [|a p IH]; intro q; cbn; [split; [intros _; now exists q|reflexivity]|].
  destruct q as [|b q]; [split; [discriminate|intros [r [=]]]|].
  rewrite andb_true_iff, String.eqb_eq, IH. split.
  - intros [-> [r ->]]. now exists r.
  - intros [r [= -> ->]]. split; [reflexivity|now exists r].
Qed.

Lemma absent_below : forall fs p q, tree fs -> fs p = None -> fs (p /. q) = None.
Proof.
  intros fs p q T E. induction q as [|x q IH] using rev_ind; [now rewrite app_nil_r|].
  rewrite app_assoc. destruct (fs ((p /. q) /. [x])) eqn:F; [|reflexivity].
  assert (fs (p /. q) = Some ADir) by (apply (T _ x); congruence). congruence.
Qed.

Lemma exists_in_false : forall fs p, exists_in fs p = false <-> fs p = None.
Proof. intros. unfold exists_in. destruct (fs p); split; congruence. Qed.

Lemma write_all_other : forall l fs p, ~ In p (map fst l) -> write_all fs l p = fs p.
Proof.
  induction l as [|[q c] l IH]; intros fs p H; [reflexivity|]. cbn in *. rewrite IH by tauto.
  unfold write. rewrite path_eqb_neq; [reflexivity|]. intros ->. tauto.
Qed.
Lemma write_all_In : forall l fs p, In p (map fst l) -> exists c, write_all fs l p = Some (AFile c) /\ In (p, c) l.
Proof.
  induction l as [|[q c] l IH]; intros fs p H; [destruct H|]. cbn [write_all].
  destruct (in_dec (list_eq_dec string_dec) p (map fst l)) as [I|N].
  - destruct (IH (write fs q c) p I) as (c' & E & J). exists c'. split; [exact E|now right].
  - destruct H as [<-|H]; [|contradiction]. exists c. rewrite write_all_other by exact N. cbn.
    unfold write. rewrite path_eqb_refl. split; [reflexivity|now left].
Qed.
(** The last write to a path decides. *)
Lemma write_all_last : forall l1 p c l2 fs, ~ In p (map fst l2) -> write_all fs (l1 ++ (p, c) :: l2) p = Some (AFile c).
Proof.
  induction l1 as [|[q d] l1 IH]; intros p c l2 fs H; cbn [app write_all].
  - rewrite write_all_other by exact H. unfold write. now rewrite path_eqb_refl.
  - now apply IH.
Qed.

Lemma mkdirs_keeps : forall fs p, keeps_files fs (mkdirs fs p).
Proof. intros fs p q c E. unfold mkdirs. now rewrite E. Qed.
Lemma mkdirs_some : forall fs p q n, fs q = Some n -> mkdirs fs p q = Some n.
Proof. intros fs p q n E. unfold mkdirs. now rewrite E. Qed.
Lemma mkdirs_file : forall fs p q c, mkdirs fs p q = Some (AFile c) -> fs q = Some (AFile c).
Proof. intros fs p q c. unfold mkdirs. destruct (fs q); [auto|]. destruct (is_prefix q p); discriminate. Qed.
Lemma keeps_trans : forall a b c, keeps_files a b -> keeps_files b c -> keeps_files a c.
Proof. unfold keeps_files. auto. Qed.
Lemma keeps_refl : forall a, keeps_files a a.
Proof. unfold keeps_files. auto. Qed.

Lemma writes_below_absent_keep : forall l fs fs0 d, tree fs0 -> fs0 d = None -> keeps_files fs0 fs ->
  (forall p, In p (map fst l) -> exists q, p = d /. q) -> keeps_files fs0 (write_all fs l).
Proof.
  intros l fs fs0 d T E K B p c H.
  destruct (in_dec (list_eq_dec string_dec) p (map fst l)) as [I|N].
  - destruct (B p I) as [q ->]. rewrite (absent_below fs0 d q T E) in H. discriminate.
  - rewrite write_all_other by exact N. now apply K.
Qed.

(** ** Trees are preserved *)
Lemma tree_mkdirs : forall fs d, tree fs -> (forall p c, is_prefix p d = true -> fs p <> Some (AFile c)) -> tree (mkdirs fs d).
Proof.
  intros fs d T NF p x. unfold mkdirs at 1 2. destruct (fs (p /. [x])) eqn:F.
  - intros _. assert (fs p = Some ADir) as -> by (apply (T _ x); congruence). reflexivity.
  - destruct (is_prefix (p /. [x]) d) eqn:P; [|congruence]. intros _.
    assert (is_prefix p d = true) as PD.
    { apply is_prefix_spec in P as [r ->]. apply is_prefix_spec. exists ([x] /. r). now rewrite app_assoc. }
    destruct (fs p) as [[|c]|] eqn:G; [reflexivity| |now rewrite PD]. exfalso. exact (NF p c PD G).
Qed.
Lemma tree_write : forall fs p x c, tree fs -> fs p = Some ADir -> fs (p /. [x]) <> Some ADir ->
  tree (write fs (p /. [x]) c).
Proof.
  intros fs p x c T D ND q y. unfold write at 1 2.
  destruct (path_eqb (q /. [y]) (p /. [x])) eqn:E.
  - apply path_eqb_spec in E. apply app_inj_tail in E as [-> ->]. intros _.
    destruct (path_eqb p (p /. [x])) eqn:E'; [|exact D].
    apply path_eqb_spec, (f_equal (@length _)) in E'. rewrite app_length in E'. cbn in E'. lia.
  - intro H. apply T in H. destruct (path_eqb q (p /. [x])) eqn:E'; [|exact H].
    apply path_eqb_spec in E'. subst q. contradiction.
Qed.

(** ** parse *)
Lemma check_nonempty : forall fs d p, In p (checked_files d) -> fs p <> None -> check_output_files_exist fs d <> [].
Proof.
  intros fs d p I N E. unfold check_output_files_exist in E.
  assert (In p (filter (exists_in fs) (checked_files d))) as J.
  { apply filter_In. split; [exact I|]. unfold exists_in. destruct (fs p); congruence. }
  rewrite E in J. exact J.
Qed.
Lemma check_empty : forall fs d, tree fs -> fs d = None -> check_output_files_exist fs d = [].
Proof.
  intros fs d T E. unfold check_output_files_exist, checked_files. cbn [filter].
  pose proof (fun q => proj2 (exists_in_false fs (d /. q)) (absent_below fs d q T E)) as A.
  rewrite !A. apply exists_in_false in E. now rewrite E.
Qed.

(** parse_single skips exactly the dives whose processed folder exists. *)
Lemma parse_single_skips : forall fs d n, fs (d_folder d) = Some n -> parse_single fs false d = fs.
Proof.
  intros fs d n E. unfold parse_single. cbn [negb andb].
  destruct (check_output_files_exist fs (d_folder d)) eqn:C; [|reflexivity].
  exfalso. eapply (check_nonempty fs (d_folder d) (d_folder d)); [|congruence|exact C].
  unfold checked_files. cbn. auto.
Qed.
Definition parsed (fs : fsys) (d : dive) : fsys :=
  write_all (mkdirs (mkdirs fs (d_folder d /. ["log"])) (d_folder d /. ["nav"])) (parse_writes d).
Lemma parse_single_runs : forall fs d, tree fs -> fs (d_folder d) = None -> parse_single fs false d = parsed fs d.
Proof. intros fs d T E. unfold parse_single. rewrite check_empty; auto. Qed.

Lemma parse_writes_below : forall d p, In p (map fst (parse_writes d)) -> exists q, p = d_folder d /. q.
Proof. intros d p. cbn. intros [<-|[<-|[<-|[<-|[<-|[<-|[<-|[]]]]]]]]; eexists; reflexivity. Qed.

Lemma parsed_keeps : forall fs d, tree fs -> fs (d_folder d) = None -> keeps_files fs (parsed fs d).
Proof.
  intros fs d T E. apply writes_below_absent_keep with (d := d_folder d); auto.
  - eapply keeps_trans; apply mkdirs_keeps.
  - apply parse_writes_below.
Qed.
Lemma parse_single_keeps : forall fs d, tree fs -> keeps_files fs (parse_single fs false d).
Proof.
  intros fs d T. destruct (fs (d_folder d)) eqn:E.
  - rewrite (parse_single_skips fs d n E). apply keeps_refl.
  - rewrite parse_single_runs by auto. now apply parsed_keeps.
Qed.

(** The outputs of parse are in place after a run that was not skipped. *)
Definition outputs_in_place (fs : fsys) (d : dive) : Prop :=
  holds fs (d_folder d /. ["nav"; "nav_standard.json"]) (d_interlaced d) /\
  holds fs (d_folder d /. ["nav"; "json_data_info.html"]) (d_info d) /\
  holds fs (d_folder d /. ["nav"; "timestamp_history.html"]) (d_history d).
Lemma parsed_in_place : forall fs d, outputs_in_place (parsed fs d) d.
Proof.
  intros fs d. set (w := parse_writes d).
  assert (forall l1 p c l2, w = (l1 ++ (p, c) :: l2)%list -> ~ In p (map fst l2) -> holds (parsed fs d) p c) as K.
  { intros l1 p c l2 E N. unfold holds, parsed. change (parse_writes d) with w. rewrite E. now apply write_all_last. }
  unfold w, parse_writes in K. split; [|split].
  - eapply (K (firstn 4 (parse_writes d))); [reflexivity|]. cbn.
    intros [E|[E|[]]]; apply app_inv_head in E; discriminate.
  - eapply (K (firstn 5 (parse_writes d))); [reflexivity|]. cbn.
    intros [E|[]]; apply app_inv_head in E; discriminate.
  - eapply (K (firstn 6 (parse_writes d))); [reflexivity|]. cbn. tauto.
Qed.
Lemma parse_single_force : forall fs d, parse_single fs true d = parsed fs d.
Proof. reflexivity. Qed.

(** Parsing one dive keeps the file system a tree. *)
Definition no_file_above (fs : fsys) (d : fpath) : Prop := forall p c, is_prefix p d = true -> fs p <> Some (AFile c).
Lemma tree_parsed : forall fs d, tree fs -> fs (d_folder d) = None -> no_file_above fs (d_folder d) -> tree (parsed fs d).
Proof.
  intros fs d T E NF. unfold parsed.
  set (f := d_folder d) in *.
  assert (forall x p c, is_prefix p (f /. [x]) = true -> fs p <> Some (AFile c)) as NF1.
  { intros x p c P. apply is_prefix_spec in P as [r R].
    destruct r as [|y r] using rev_ind.
    - rewrite app_nil_r in R. subst p. rewrite (absent_below fs f [x] T E). discriminate.
    - rewrite app_assoc in R. apply app_inj_tail in R as [R _]. apply NF. apply is_prefix_spec. now exists r. }
  set (fs1 := mkdirs fs (f /. ["log"])). assert (tree fs1) as T1 by (apply tree_mkdirs; eauto).
  set (fs2 := mkdirs fs1 (f /. ["nav"])).
  assert (tree fs2) as T2.
  { apply tree_mkdirs; [exact T1|]. intros p c P G. apply mkdirs_file in G. exact (NF1 "nav" p c P G). }
  assert (fs2 (f /. ["log"]) = Some ADir) as DL.
  { apply mkdirs_some. unfold fs1, mkdirs. rewrite (absent_below fs f _ T E).
    replace (is_prefix _ _) with true; [reflexivity|]. symmetry. apply is_prefix_spec. exists []. now rewrite app_nil_r. }
  assert (fs2 (f /. ["nav"]) = Some ADir) as DN.
  { unfold fs2, mkdirs. destruct (fs1 (f /. ["nav"])) as [[|c]|] eqn:G; [reflexivity| |].
    - apply mkdirs_file in G. rewrite (absent_below fs f _ T E) in G. discriminate.
    - replace (is_prefix _ _) with true; [reflexivity|]. symmetry. apply is_prefix_spec. exists []. now rewrite app_nil_r. }
  assert (forall a b, fs2 (f /. [a; b]) <> Some ADir) as ND.
  { intros a b. unfold fs2, mkdirs at 1, fs1, mkdirs at 1. rewrite (absent_below fs f [a; b] T E).
    assert (forall x, is_prefix (f /. [a; b]) (f /. [x]) = false) as N.
    { intro x. destruct is_prefix eqn:P; [|reflexivity]. apply is_prefix_spec in P as [r P].
      apply (f_equal (@length _)) in P. rewrite !app_length in P. cbn in P. lia. }
    rewrite !N. discriminate. }
  assert (forall l gs, (forall p, In p (map fst l) -> exists a b, p = f /. [a; b] /\ (a = "log" \/ a = "nav")) ->
    tree gs -> gs (f /. ["log"]) = Some ADir -> gs (f /. ["nav"]) = Some ADir ->
    (forall a b, gs (f /. [a; b]) <> Some ADir) -> tree (write_all gs l)) as K.
  { induction l as [|[p c] l IH]; intros gs B TG GL GN GD; [exact TG|]. cbn [write_all].
    destruct (B p (or_introl eq_refl)) as (a & b & -> & AB).
    assert (forall x, path_eqb (f /. [x]) (f /. [a; b]) = false) as NX.
    { intro x. apply path_eqb_neq, app_neq. discriminate. }
    apply IH.
    - intros q I. apply B. now right.
    - replace (f /. [a; b]) with ((f /. [a]) /. [b]) by now rewrite <- app_assoc.
      apply tree_write; [exact TG|destruct AB as [->| ->]; assumption|].
      rewrite <- app_assoc. apply GD.
    - unfold write. now rewrite NX.
    - unfold write. now rewrite NX.
    - intros a' b'. unfold write. destruct path_eqb; [discriminate|apply GD]. }
  apply K; auto. intros p. cbn.
  intros [<-|[<-|[<-|[<-|[<-|[<-|[<-|[]]]]]]]]; do 2 eexists; (split; [reflexivity|auto]).
Qed.

(** Parsed files only appear below the dive's folder. *)
Lemma parsed_file_inv : forall fs d p c, parsed fs d p = Some (AFile c) ->
  fs p = Some (AFile c) \/ exists q, p = d_folder d /. q.
Proof.
  intros fs d p c H. unfold parsed in H.
  destruct (in_dec (list_eq_dec string_dec) p (map fst (parse_writes d))) as [I|N].
  - right. now apply parse_writes_below.
  - left. rewrite write_all_other in H by exact N. now apply mkdirs_file, mkdirs_file in H.
Qed.

(** No processed folder lies inside another one. *)
Definition unnested (ds : list dive) : Prop :=
  forall d d', In d ds -> In d' ds -> is_prefix (d_folder d) (d_folder d') = true -> d_folder d = d_folder d'.

Lemma parse_dives_keeps : forall ds fs, tree fs -> (forall d, In d ds -> no_file_above fs (d_folder d)) -> unnested ds ->
  keeps_files fs (parse_dives fs false ds).
Proof.
  induction ds as [|d ds IH]; intros fs T NF U; [apply keeps_refl|]. cbn [parse_dives].
  assert (unnested ds) as U' by (intros a b A B; apply U; now right).
  destruct (fs (d_folder d)) eqn:E.
  - rewrite (parse_single_skips fs d n E). apply IH; auto. intros d' I. apply NF. now right.
  - rewrite parse_single_runs by auto. apply (keeps_trans _ (parsed fs d)); [now apply parsed_keeps|].
    apply IH; [apply tree_parsed; auto; apply NF; now left| |exact U'].
    intros d' I p c P G. destruct (parsed_file_inv _ _ _ _ G) as [G'|[q ->]]; [exact (NF d' (or_intror I) p c P G')|].
    apply is_prefix_spec in P as [r R].
    assert (d_folder d = d_folder d') as DD.
    { apply U; [now left|now right|]. apply is_prefix_spec. exists (q /. r). now rewrite app_assoc. }
    rewrite DD in *. rewrite <- app_assoc in R. rewrite <- (app_nil_r (d_folder d')) in R at 1. apply app_inv_head in R.
    destruct q; [|discriminate]. rewrite app_nil_r in G.
    (* the folder itself is a directory *)
    unfold parsed in G. rewrite write_all_other in G.
    + apply mkdirs_file, mkdirs_file in G. congruence.
    + intro I'. cbn in I'. rewrite DD in I'.
      repeat (destruct I' as [I'|I']; [apply (f_equal (@length _)) in I'; rewrite app_length in I'; cbn in I'; lia|]).
      exact I'.
Qed.
