(** C92, C93: the images of a camera. *)
From Coq Require Import Ascii String Sorting.Sorted Sorting.Permutation.
From Verif Require Import PyBase NmeaModel NmeaProofs CsvModel FilesModel FilesProps InterlaceModel InterlaceProofs CamSysModel.
Open Scope list_scope.

(** A file name: [pre], anything, [suf]. *)
Definition named (pre suf n : text) : Prop := exists x, n = pre ++ x ++ suf.
Definition named_with (mid suf n : text) : Prop := exists x y, n = x ++ mid ++ y ++ suf.
(** The result [out] is in order of the path text, lists each path once, and lists exactly those satisfying [P]. *)
Definition lists (tree : list path) (P : path -> Prop) (out : list path) : Prop :=
  StronglySorted (fun a b => str_le (str a) (str b) = true) out /\ (NoDup tree -> NoDup out) /\ forall p, In p out <-> In p tree /\ P p.
Definition directly_in (d : path) (N : text -> Prop) (p : path) : Prop := exists n, p = d ++ [n] /\ N n.
Definition somewhere_in (d : path) (N : text -> Prop) (p : path) : Prop := exists between n, p = d ++ between ++ [n] /\ N n.
Definition plain (a : text) : Prop := ~ In star a.
(** The components of a directory written with slashes. *)
Definition component (c : text) : Prop := c <> [] /\ c <> [dot] /\ ~ In slash c.

Lemma path_eqb_iff : forall a b, path_eqb a b = true <-> a = b.
Proof.
  unfold path_eqb. induction a as [|x a IH]; intros [|y b]; cbn; try (split; discriminate); [split; reflexivity|].
  specialize (IH b). rewrite andb_true_iff in IH |- *. rewrite andb_true_iff, text_eqb_iff. split.
  - intros (L & -> & F). f_equal. now apply IH.
  - intros E. injection E as -> ->. destruct (proj2 IH eq_refl). auto.
Qed.
Lemma ends_with_iff : forall q s, ends_with q s = true <-> exists x, s = x ++ q.
Proof.
  intros q s. unfold ends_with. rewrite prefix_iff. split.
  - intros [v E]. exists (rev v). rewrite <- (rev_involutive s), E, rev_app_distr, rev_involutive. reflexivity.
  - intros [x ->]. exists (rev x). now rewrite rev_app_distr.
Qed.
Lemma glob1_iff : forall pre suf s, glob1 pre suf s = true <-> named pre suf s.
Proof.
  intros pre suf s. unfold glob1, starts_with, named. rewrite andb_true_iff, prefix_iff. split.
  - intros [[v ->] E]. rewrite skipn_app, skipn_all, Nat.sub_diag in E. cbn in E. apply ends_with_iff in E as [x ->]. now exists x.
  - intros [x ->]. split; [now exists (x ++ suf)|]. rewrite skipn_app, skipn_all, Nat.sub_diag. apply ends_with_iff. now exists x.
Qed.
Lemma glob2_iff : forall mid suf s, glob2 mid suf s = true <-> named_with mid suf s.
Proof.
  intros mid suf s. unfold glob2, named_with. rewrite andb_true_iff, ends_with_iff, contains_iff. split.
  - intros [[z ->] (u & v & E)]. rewrite app_length, Nat.add_sub, firstn_app, firstn_all, Nat.sub_diag in E. cbn in E. rewrite app_nil_r in E. subst z.
    exists u, v. now rewrite <- !app_assoc.
  - intros (x & y & ->). split; [exists (x ++ mid ++ y); now rewrite <- !app_assoc|].
    replace (x ++ mid ++ y ++ suf) with ((x ++ mid ++ y) ++ suf) by now rewrite <- !app_assoc.
    rewrite app_length, Nat.add_sub, firstn_app, firstn_all, Nat.sub_diag. cbn. rewrite app_nil_r. now exists x, y.
Qed.
Lemma in_dir_iff : forall tree d ok (N : text -> Prop) p, (forall n, ok n = true <-> N n) -> In p (in_dir tree d ok) <-> In p tree /\ directly_in d N p.
Proof.
  intros tree d ok N p K. unfold in_dir. rewrite filter_In. apply and_iff_compat_l. unfold directly_in. split.
  - destruct (rev p) as [|n r] eqn:E; [discriminate|]. rewrite andb_true_iff, path_eqb_iff, K. intros [<- H]. exists n. split; [|exact H].
    rewrite <- (rev_involutive p), E. reflexivity.
  - intros (n & -> & H). rewrite rev_app_distr. cbn [rev app]. rewrite andb_true_iff, path_eqb_iff, K. now rewrite rev_involutive.
Qed.
Lemma below_iff : forall tree d ok (N : text -> Prop) p, (forall n, ok n = true <-> N n) -> In p (below tree d ok) <-> In p tree /\ somewhere_in d N p.
Proof.
  intros tree d ok N p K. unfold below. rewrite filter_In. apply and_iff_compat_l. unfold somewhere_in. split.
  - destruct (rev p) as [|n r] eqn:E; [discriminate|]. rewrite !andb_true_iff, path_eqb_iff, K. intros [[F L] H]. exists (skipn (length d) (rev r)), n. split; [|exact H].
    rewrite <- (rev_involutive p), E. cbn [rev]. rewrite app_assoc. f_equal. rewrite <- F at 1. symmetry. apply firstn_skipn.
  - intros (b & n & -> & H). rewrite !rev_app_distr. cbn [rev app]. rewrite !andb_true_iff, path_eqb_iff, K. repeat split; [|apply Nat.leb_le|exact H].
    + rewrite rev_app_distr, !rev_involutive, firstn_app, firstn_all, Nat.sub_diag. cbn. now rewrite app_nil_r.
    + rewrite app_length, !rev_length. lia.
Qed.
Lemma insert_sorted : forall x l, StronglySorted (fun a b => str_le (str a) (str b) = true) l -> StronglySorted (fun a b => str_le (str a) (str b) = true) (insert str x l).
Proof.
  intros x l. induction l as [|y l IH]; intros S; [repeat constructor|]. cbn [insert]. inversion S as [|? ? S' F]; subst. destruct (str_le (str x) (str y)) eqn:E.
  - constructor; [exact S|]. constructor; [exact E|]. eapply Forall_impl; [|exact F]. intros z Z. now apply (str_le_trans _ (str y)).
  - constructor; [now apply IH|]. apply Forall_forall. intros z Z. apply (Permutation_in _ (insert_perm str x l)) in Z. destruct Z as [<-|Z]; [now apply str_le_total|].
    rewrite Forall_forall in F. now apply F.
Qed.
Lemma sorted_lists : forall tree (P : path -> Prop) l, (forall p, In p l <-> In p tree /\ P p) -> (NoDup tree -> NoDup l) -> lists tree P (sorted str l).
Proof.
  intros tree P l H D. repeat split.
  - clear. induction l; [constructor|]. now apply insert_sorted.
  - intros T. apply (Permutation_NoDup (Permutation_sym (sorted_perm str l))). now apply D.
  - apply H. eapply Permutation_in; [|eassumption]. apply sorted_perm.
  - apply H. eapply Permutation_in; [|eassumption]. apply sorted_perm.
  - intros Q. apply H in Q. eapply Permutation_in; [|exact Q]. symmetry. apply sorted_perm.
Qed.
Lemma text_neq : forall a b, a <> b -> text_eqb a b = false.
Proof. intros a b H. destruct (text_eqb a b) eqn:E; [apply text_eqb_iff in E; contradiction|reflexivity]. Qed.
Lemma split_join : forall d, d <> [] -> Forall (fun c => ~ In slash c) d -> split slash (join slash d) = d.
Proof.
  induction d as [|c d IH]; intros N F; [congruence|]. inversion F; subst. destruct d as [|c' d]; [now apply split_none|].
  change (join slash (c :: c' :: d)) with (c ++ slash :: join slash (c' :: d)). rewrite split_app by assumption. f_equal. now apply IH.
Qed.
Lemma keep : forall d, Forall component d -> filter (fun c => negb (text_eqb c [] || text_eqb c [dot])) d = d.
Proof.
  intros d F. induction F as [|c d (A & B & _) _ IH]; [reflexivity|]. cbn [filter]. now rewrite (text_neq c []), (text_neq c [dot]), IH.
Qed.
Lemma parts_join : forall d, d <> [] -> Forall component d -> parts (join slash d) = d.
Proof.
  intros d N F. unfold parts. rewrite split_join; [now apply keep|exact N|]. eapply Forall_impl; [|exact F]. intros c (_ & _ & H). exact H.
Qed.
Lemma sorted_nodup_filter : forall (f : path -> bool) l, NoDup l -> NoDup (filter f l).
Proof. intros f l. apply NoDup_filter. Qed.

(** A folder without '*': the images directly in it. *)
Theorem C92_folder : forall tree d ext, d <> [] -> Forall component d -> plain (join slash d) ->
  (exists p, In p tree /\ directly_in d (named [] ext) p) ->
  exists out, image_list tree (join slash d) ext = Some out /\ lists tree (directly_in d (named [] ext)) out.
Proof.
  intros tree d ext N F P (q & Q). unfold image_list. rewrite split_none by exact P. rewrite parts_join by assumption. cbv zeta.
  pose proof (fun p => in_dir_iff tree d (glob1 [] ext) (named [] ext) p (glob1_iff [] ext)) as K.
  destruct (in_dir tree d (glob1 [] ext)) as [|x l] eqn:E; [apply K in Q; destruct Q|]. eexists. split; [reflexivity|].
  apply sorted_lists; [exact K|]. rewrite <- E. apply NoDup_filter.
Qed.
Print Assumptions C92_folder.
(** If there are none there, the path is the beginning of the image names. *)
Theorem C92_beginning : forall tree d n ext, Forall component d -> component n -> ~ In dot n -> plain (join slash (d ++ [n])) ->
  (forall p, In p tree -> ~ directly_in (d ++ [n]) (named [] ext) p) ->
  exists out, image_list tree (join slash (d ++ [n])) ext = Some out /\ lists tree (directly_in d (named n ext)) out.
Proof.
  intros tree d n ext F C D P Q. unfold image_list. rewrite split_none by exact P. rewrite parts_join; [|now destruct d|apply Forall_app; split; [exact F|constructor; [exact C|constructor]]]. cbv zeta.
  pose proof (fun p => in_dir_iff tree (d ++ [n]) (glob1 [] ext) (named [] ext) p (glob1_iff [] ext)) as K.
  destruct (in_dir tree (d ++ [n]) (glob1 [] ext)) as [|x l] eqn:E; [|destruct (Q x); apply K; now left].
  rewrite removelast_last, last_last. assert (stem n = n) as ->.
  { unfold stem. assert (FilesModel.name n = n) as ->.
    { unfold FilesModel.name. rewrite split_none by apply C. destruct C as (A & B & _). cbn [filter]. now rewrite (text_neq n []), (text_neq n [dot]). }
    assert (forall s, ~ In dot s -> rfind dot s = None) as R.
    { induction s as [|c s IH]; intros H; [reflexivity|]. cbn. rewrite IH by (intros J; apply H; now right). destruct (N.eqb_spec c dot) as [->|]; [destruct H; now left|reflexivity]. }
    now rewrite R. }
  eexists. split; [reflexivity|]. apply sorted_lists; [|apply NoDup_filter]. intros p. apply in_dir_iff, glob1_iff.
Qed.
Print Assumptions C92_beginning.

(** One '*': if a single entry begins as written, the images anywhere below it. *)
Lemma glob_prefix_iff : forall tree d pre p, Forall component d -> ~ In slash pre ->
  In p (glob_prefix tree (join slash (d ++ [pre]))) <-> In p tree /\ directly_in d (named pre []) p.
Proof.
  intros tree d pre p F S. unfold glob_prefix. rewrite split_join; [|now destruct d|apply Forall_app; split; [eapply Forall_impl; [|exact F]; intros c (_ & _ & H); exact H|now repeat constructor]].
  rewrite removelast_last, last_last, keep by exact F. apply in_dir_iff, glob1_iff.
Qed.
Definition only (tree : list path) (P : path -> Prop) (e : path) : Prop := In e tree /\ P e /\ forall e', In e' tree -> P e' -> e' = e.
Lemma first_glob : forall tree d pre e, Forall component d -> ~ In slash pre -> only tree (directly_in d (named pre [])) e ->
  exists r, glob_prefix tree (join slash (d ++ [pre])) = e :: r.
Proof.
  intros tree d pre e F S (I & H & U). destruct (glob_prefix tree (join slash (d ++ [pre]))) as [|x r] eqn:E.
  - pose proof (proj2 (glob_prefix_iff tree d pre e F S) (conj I H)) as J. now rewrite E in J.
  - assert (In x tree /\ directly_in d (named pre []) x) as [A B] by (apply (glob_prefix_iff tree d pre x F S); rewrite E; now left).
    exists r. now rewrite (U x A B).
Qed.
Theorem C92_one_star : forall tree d pre rest ext e, Forall component d -> ~ In slash pre -> plain (join slash (d ++ [pre])) ->
  rest <> [] -> Forall component rest -> plain (join slash rest) -> only tree (directly_in d (named pre [])) e ->
  exists out, image_list tree (join slash (d ++ [pre]) ++ star :: slash :: join slash rest) ext = Some out /\
    lists tree (somewhere_in (e ++ rest) (named [] ext)) out.
Proof.
  intros tree d pre rest ext e F S P N R PR O. destruct (first_glob tree d pre e F S O) as [r E]. unfold image_list.
  rewrite split_app by exact P. rewrite split_none; [|intros [J|J]; [discriminate|exact (PR J)]]. rewrite E.
  assert (parts (slash :: join slash rest) = rest) as ->.
  { unfold parts. change (split slash (slash :: join slash rest)) with ([] :: split slash (join slash rest)). cbn [filter text_eqb negb orb]. exact (parts_join rest N R). }
  eexists. split; [reflexivity|]. apply sorted_lists; [|apply NoDup_filter]. intros p. apply below_iff, glob1_iff.
Qed.
Print Assumptions C92_one_star.
(** Two or three: the images in that directory whose name ends with, or contains, what is written. *)
Theorem C92_two_stars : forall tree d pre mid ext e, Forall component d -> ~ In slash pre -> plain (join slash (d ++ [pre])) ->
  plain mid -> only tree (directly_in d (named pre [])) e ->
  (exists out, image_list tree (join slash (d ++ [pre]) ++ star :: slash :: star :: mid) ext = Some out /\
    lists tree (directly_in e (named [] (mid ++ ext))) out) /\
  exists out, image_list tree (join slash (d ++ [pre]) ++ star :: slash :: star :: mid ++ [star]) ext = Some out /\
    lists tree (directly_in e (named_with mid ext)) out.
Proof.
  intros tree d pre mid ext e F S P M O. destruct (first_glob tree d pre e F S O) as [r E]. unfold image_list.
  rewrite !(split_app star (join slash (d ++ [pre]))) by exact P.
  change (slash :: star :: mid) with ([slash] ++ star :: mid). change (slash :: star :: mid ++ [star]) with ([slash] ++ star :: mid ++ [star]).
  rewrite !(split_app star [slash]) by (intros [J|[]]; discriminate). rewrite (split_none star mid) by exact M. rewrite (split_app star mid) by exact M.
  change (split star []) with [@nil N]. rewrite E. split; (eexists; split; [reflexivity|]; apply sorted_lists; [|apply NoDup_filter]; intros p; apply in_dir_iff).
  - apply glob1_iff.
  - apply glob2_iff.
Qed.
Print Assumptions C92_two_stars.
(** The stamps: one for each image, in the same order, from its own name. *)
Theorem C92_stamps : forall T (convert : text -> T) images i d n, nth_error images i = Some (d ++ [n]) ->
  length (stamp_list convert images) = length images /\ nth_error (stamp_list convert images) i = Some (convert n).
Proof. intros T convert images i d n H. unfold stamp_list. split; [apply map_length|]. erewrite map_nth_error by exact H. now rewrite last_last. Qed.
Print Assumptions C92_stamps.

Definition ex_tree : list path := map (map txt) [["image"]; ["image"; "i2"]; ["image"; "i2"; "b_LC1.tif"]; ["image"; "i2"; "a_LC2.tif"]; ["image"; "i2"; "c_RC.tif"]; ["image"; "c.txt"];
  ["image"; "flat"]; ["image"; "flat"; "z.tif"]; ["image"; "flat"; "y.tif"]; ["image"; "i2"; "sub"]; ["image"; "i2"; "sub"; "d.tif"]]%string.
Example C92_ex : image_list ex_tree (txt "image/flat") (txt ".tif") = Some (map (map txt) [["image"; "flat"; "y.tif"]; ["image"; "flat"; "z.tif"]]%string) /\
  image_list ex_tree (txt "image/i2/a_") (txt ".tif") = Some (map (map txt) [["image"; "i2"; "a_LC2.tif"]]%string) /\
  image_list ex_tree (txt "image/i*/sub") (txt ".tif") = Some (map (map txt) [["image"; "i2"; "sub"; "d.tif"]]%string) /\
  image_list ex_tree (txt "image/i*/*LC*") (txt ".tif") = Some (map (map txt) [["image"; "i2"; "a_LC2.tif"]; ["image"; "i2"; "b_LC1.tif"]]%string).
Proof. vm_compute. repeat split. Qed.

(** Two folders begin as written: only the images of the one listed first are found, whichever that is. *)
Theorem C93_two_folders_refuted : exists tree tree' where_ ext d1 d2 p1 p2, Permutation tree tree' /\
  where_ = txt "image/i*/LC" /\ named (txt "i") [] d1 /\ named (txt "i") [] d2 /\ p1 = [txt "image"; d1; txt "LC"; txt "a.tif"] /\ p2 = [txt "image"; d2; txt "LC"; txt "b.tif"] /\ In p1 tree /\ In p2 tree /\
  image_list tree where_ ext = Some [p1] /\ image_list tree' where_ ext = Some [p2].
Proof.
  exists (map (map txt) [["image"; "i1"]; ["image"; "i2"]; ["image"; "i1"; "LC"; "a.tif"]; ["image"; "i2"; "LC"; "b.tif"]]%string),
         (map (map txt) [["image"; "i2"]; ["image"; "i1"]; ["image"; "i1"; "LC"; "a.tif"]; ["image"; "i2"; "LC"; "b.tif"]]%string), (txt "image/i*/LC"), (txt ".tif"), (txt "i1"), (txt "i2").
  do 2 eexists. split; [apply perm_swap|]. split; [reflexivity|]. split; [now exists (txt "1")|]. split; [now exists (txt "2")|]. split; [reflexivity|]. split; [reflexivity|].
  split; [cbn; tauto|]. split; [cbn; tauto|]. split; vm_compute; reflexivity.
Qed.
Print Assumptions C93_two_folders_refuted.
(** No folder begins as written: an exception instead of an empty list. *)
Theorem C93_no_folder_refuted : exists where_ ext, image_list [] where_ ext = None /\ image_list [] (txt "image") ext = Some [].
Proof. exists (txt "image*/LC"), (txt ".tif"). vm_compute. repeat split. Qed.
Print Assumptions C93_no_folder_refuted.

(** Between the stars, folders are ignored: the images are looked for in the first folder. *)
Theorem C93_folder_between_refuted : exists tree ext p q, In p tree /\ In q tree /\ p = [txt "i1"; txt "sub"; txt "a_LC.tif"] /\ q = [txt "i1"; txt "b_LC.tif"] /\
  image_list tree (txt "i*/sub/*LC") ext = Some [q].
Proof.
  exists (map (map txt) [["i1"]; ["i1"; "sub"]; ["i1"; "sub"; "a_LC.tif"]; ["i1"; "b_LC.tif"]]%string), (txt ".tif"). do 2 eexists.
  split; [|split; [|split; [reflexivity|split; [reflexivity|vm_compute; reflexivity]]]]; cbn; tauto.
Qed.
Print Assumptions C93_folder_between_refuted.

(** Camera names: a leading slash is dropped and the other slashes become underscores. *)
Theorem C93_name_partial : forall parts, Forall (fun c => ~ In slash c) parts -> parts <> [] ->
  camera_name (slash :: join slash parts) = join 95%N parts.
Proof.
  intros ps F N. unfold camera_name. assert (contains [slash] (slash :: join slash ps) = true) as ->. { apply contains_iff. now exists [], (join slash ps). }
  cbn [tl]. assert (forall c, ~ In slash c -> map (fun c => if N.eqb c slash then 95%N else c) c = c) as K.
  { induction c as [|x c IH]; intros H; [reflexivity|]. cbn. rewrite IH by (intros J; apply H; now right). destruct (N.eqb_spec x slash) as [->|]; [destruct H; now left|reflexivity]. }
  clear N. induction F as [|c ps C F IH]; [reflexivity|]. destruct ps as [|c' ps]; [now apply K|].
  change (join slash (c :: c' :: ps)) with (c ++ slash :: join slash (c' :: ps)). change (join 95 (c :: c' :: ps)) with (c ++ 95%N :: join 95 (c' :: ps)).
  rewrite map_app. cbn [map]. now rewrite K, IH.
Qed.
Print Assumptions C93_name_partial.
(** Without a leading slash the first letter is lost; two cameras can get the same name. *)
Theorem C93_name_refuted : exists a b c, a <> b /\ camera_name a = camera_name b /\ hd_error c <> Some slash /\ ~ occurs (firstn 1 c) (camera_name c).
Proof.
  exists (txt "/left/cam"), (txt "/left_cam"), (txt "port/cam"). split; [discriminate|]. split; [reflexivity|]. split; [discriminate|].
  intros H. apply contains_iff in H. vm_compute in H. discriminate.
Qed.
Print Assumptions C93_name_refuted.
