(** C307, C308: the files of the corrected images. *)
From Coq Require Import Ascii String.
From Verif Require Import PyBase NmeaModel NmeaProofs CsvModel FilesModel FilesProps OutNameModel.
Open Scope list_scope.

(** * Specification *)
(** An extension *)
Definition extension (f : text) : Prop := f <> [] /\ ~ In dot f /\ ~ In slash f.

(** * Lemmas *)
Lemma split_plain : forall sep s c, In c (split sep s) -> ~ In sep c.
Proof.
  intros sep. induction s as [|x s IH]; intros c H; cbn [split] in H; [destruct H as [ <- |[]]; intros []|].
  destruct (N.eqb_spec x sep) as [E|E]; [destruct H as [ <- |H]; [intros []|now apply IH]|].
  destruct (split_nonempty sep s) as (w & ws & S). rewrite S in *. destruct H as [ <- |H]; [intros [J|J]; [congruence|]; now apply (IH w (or_introl eq_refl))|]. now apply IH; right.
Qed.
Lemma name_no_slash : forall p, plain (name p).
Proof.
  intros p. unfold name. set (l := filter _ _). assert (forall c, In c l -> plain c) as P by (intros c H; apply filter_In in H as [H _]; now apply (split_plain slash p)). clearbody l.
  induction l as [|a l IH]; [intros []|]. destruct l as [|b l]; [apply P; now left|]. cbn [last]. apply IH. intros c H. apply P. now right.
Qed.
Lemma stem_no_slash : forall p, plain (stem p).
Proof.
  intros p. pose proof (name_no_slash p) as P. unfold stem. destruct (rfind dot (name p)) as [i|]; [|exact P]. destruct (_ && _)%bool; [|exact P].
  intros H. apply P. rewrite <- (firstn_skipn i (name p)). apply in_app_iff. now left.
Qed.
Lemma stem_some : forall p, name p <> [] -> stem p <> [].
Proof.
  intros p H. unfold stem. destruct (rfind dot (name p)) as [i|]; [|exact H]. destruct ((0 <? i)%nat && _)%bool eqn:E; [|exact H]. apply andb_true_iff in E as [E _]. apply Nat.ltb_lt in E.
  destruct (name p); [congruence|]. destruct i; [lia|discriminate].
Qed.
Lemma named : forall bag camera folder format i, extension format -> plain (image_filename bag camera i) -> image_filename bag camera i <> [] ->
  name (output_path bag camera folder format i) = image_filename bag camera i ++ dot :: format /\ stem (output_path bag camera folder format i) = image_filename bag camera i.
Proof.
  intros bag camera folder format i (F1 & F2 & F3) P N. assert (name (output_path bag camera folder format i) = image_filename bag camera i ++ dot :: format) as E.
  { unfold output_path. cbn [app]. apply name_dir.
    - intros H. apply in_app_iff in H as [H|[H|H]]; [now apply P|discriminate|now apply F3].
    - destruct (image_filename bag camera i); discriminate.
    - destruct (image_filename bag camera i) as [|x [|y l]]; [congruence|discriminate|discriminate]. }
  split; [exact E|]. now apply (stem_of_name _ _ format).
Qed.
Lemma output_inj : forall bag camera folder format i j, output_path bag camera folder format i = output_path bag camera folder format j -> image_filename bag camera i = image_filename bag camera j.
Proof. intros bag camera folder format i j H. unfold output_path in H. apply app_inv_head, app_inv_head, app_inv_tail in H. exact H. Qed.
Lemma read_correct : forall {A} (develop : text -> A) bag camera folder format images fs,
  (forall p, ~ In p (map (output_path bag camera folder format) images) -> read (correct develop bag camera folder format images fs) p = read fs p) /\
  (forall i, NoDup (map (output_path bag camera folder format) images) -> In i images -> read (correct develop bag camera folder format images fs) (output_path bag camera folder format i) = Some (develop i)).
Proof.
  intros A develop bag camera folder format. induction images as [|j images IH]; intros fs; [split; [reflexivity|intros i _ []]|]. unfold correct in *. cbn [fold_left map]. split.
  - intros p H. rewrite (proj1 (IH _)) by (intros I; apply H; now right). unfold read. cbn [find fst]. destruct (text_eqb _ p) eqn:E; [|reflexivity]. apply text_eqb_iff in E. exfalso. apply H. now left.
  - intros i D [ -> |I]; inversion D as [|x l N D' X]; subst.
    + rewrite (proj1 (IH _)) by exact N. unfold read. cbn [find fst]. replace (text_eqb _ _) with true by (symmetry; now apply text_eqb_iff). reflexivity.
    + now apply (proj2 (IH _)).
Qed.
Lemma nodup_stems : forall camera folder format images, NoDup (map stem images) -> NoDup (map (output_path false camera folder format) images).
Proof.
  intros camera folder format images H. apply (NoDup_map_inv (fun p => firstn (length p - length format - 1 - length folder - 1) (skipn (length folder + 1) p))). rewrite map_map.
  rewrite (map_ext _ stem); [exact H|]. intros i. unfold output_path, image_filename. rewrite !app_length. cbn [length].
  replace (folder ++ [slash] ++ stem i ++ [dot] ++ format) with ((folder ++ [slash]) ++ stem i ++ [dot] ++ format) by (now rewrite <- app_assoc). replace (length folder + 1)%nat with (length (folder ++ [slash])) by (now rewrite app_length).
  rewrite skipn_app, skipn_all, Nat.sub_diag. cbn [skipn app]. replace (_ - length format - 1 - length folder - 1)%nat with (length (stem i)) by lia. now rewrite firstn_app, firstn_all, Nat.sub_diag, firstn_O, app_nil_r.
Qed.

(** * C307 *)
(** Images of different stems: afterwards the folder has the corrected image of each under its stem, and all other files are as before. *)
Theorem C307_images : forall A (develop : text -> A) camera folder format images fs, NoDup (map stem images) ->
  let fs' := correct develop false camera folder format images fs in
  (forall i, In i images -> read fs' (folder ++ slash :: stem i ++ dot :: format) = Some (develop i)) /\
  (forall p, (forall i, In i images -> p <> folder ++ slash :: stem i ++ dot :: format) -> read fs' p = read fs p).
Proof.
  intros A develop camera folder format images fs D fs'. destruct (read_correct develop false camera folder format images fs) as [R1 R2]. split.
  - intros i I. now apply (R2 i (nodup_stems camera folder format images D)).
  - intros p H. apply R1. intros I. apply in_map_iff in I as (i & E & I). now apply (H i I).
Qed.
(** The list has the rows of the images that were corrected, each with the corrected image's file name. *)
Theorem C307_list : forall R camera folder format images (rows : list (text * R)) out raw r, extension format -> (forall i, In i images -> name i <> []) ->
  In (out, raw, r) (listed false camera folder format images rows) <-> In (raw, r) rows /\ (exists i, In i images /\ stem i = stem raw) /\ out = stem raw ++ dot :: format.
Proof.
  intros R camera folder format images rows out raw r F N. unfold listed. rewrite C75_filelist.
  assert (forall i, In i images -> name (output_path false camera folder format i) = stem i ++ dot :: format /\ stem (output_path false camera folder format i) = stem i) as O.
  { intros i I. apply named; [exact F|apply stem_no_slash|now apply stem_some, N]. }
  split.
  - intros (I & before & p & after & E & -> & S & _). split; [exact I|]. assert (In p (map (output_path false camera folder format) images)) as P by (rewrite E, in_app_iff; right; now left).
    apply in_map_iff in P as (i & <- & J). destruct (O i J) as [O1 O2]. rewrite O2 in S. split; [now exists i|]. now rewrite O1, S.
  - intros (I & (i & J & S) & ->). split; [exact I|]. clear I N. induction images as [|j images IH]; [destruct J|].
    destruct (text_eqb (stem j) (stem raw)) eqn:E.
    + apply text_eqb_iff in E. destruct (O j (or_introl eq_refl)) as [O1 O2]. exists [], (output_path false camera folder format j), (map (output_path false camera folder format) images). rewrite O1, O2, E. repeat split. intros q [].
    + assert (stem j <> stem raw) as X by (intros X; apply text_eqb_iff in X; congruence). destruct J as [ -> |J]; [congruence|].
      destruct IH as (before & p & after & E1 & E2 & E3 & E4); [intros k K; apply O; now right|exact J|]. exists (output_path false camera folder format j :: before), p, after. cbn [map app]. rewrite E1. repeat split; trivial.
      intros q [ <- |Q]; [|now apply E4]. now rewrite (proj2 (O j (or_introl eq_refl))).
Qed.
(** Images in bags: one file per time, called after the camera and the time. *)
Theorem C307_bag : forall A (develop : text -> A) camera folder format images fs, NoDup images ->
  let fs' := correct develop true camera folder format images fs in
  (forall i, In i images -> read fs' (folder ++ slash :: (camera ++ 95%N :: i) ++ dot :: format) = Some (develop i)) /\
  (forall p, (forall i, In i images -> p <> folder ++ slash :: (camera ++ 95%N :: i) ++ dot :: format) -> read fs' p = read fs p).
Proof.
  intros A develop camera folder format images fs D fs'. destruct (read_correct develop true camera folder format images fs) as [R1 R2]. split.
  - intros i I. apply (R2 i); [|exact I]. clear - D. induction D as [|j l N D IH]; [constructor|]. cbn [map]. constructor; [|exact IH]. intros H. apply in_map_iff in H as (k & E & K).
    apply output_inj in E. unfold image_filename in E. apply app_inv_head, app_inv_head in E. now subst.
  - intros p H. apply R1. intros I. apply in_map_iff in I as (i & E & I). now apply (H i I).
Qed.
(** Their list has only rows of files that are called so too. *)
Theorem C307_bag_list : forall R camera folder format images (rows : list (text * R)) out raw r, extension format -> plain camera -> (forall i, In i images -> plain i) ->
  In (out, raw, r) (listed true camera folder format images rows) -> exists i, In i images /\ stem raw = camera ++ 95%N :: i /\ out = (camera ++ 95%N :: i) ++ dot :: format.
Proof.
  intros R camera folder format images rows out raw r F C P H. apply C75_filelist in H as (_ & before & p & after & E & -> & S & _).
  assert (In p (map (output_path true camera folder format) images)) as Q by (rewrite E, in_app_iff; right; now left). apply in_map_iff in Q as (i & <- & I). exists i. split; [exact I|].
  destruct (named true camera folder format i F) as [N1 N2].
  - intros J. unfold image_filename in J. cbn [app] in J. apply in_app_iff in J as [J|[J|J]]; [now apply C|discriminate|now apply (P i I)].
  - unfold image_filename. destruct camera; discriminate.
  - rewrite N2 in S. split; [now symmetry|exact N1].
Qed.
Print Assumptions C307_images. Print Assumptions C307_list. Print Assumptions C307_bag. Print Assumptions C307_bag_list.

(** Not vacuous: two images, of which one was there before, and a row of an image that was not corrected. *)
Example C307_example : let images := [txt "raw/a.1.tif"; txt "raw/b.tif"] in let fs := correct (fun i => i) false (txt "cam") (txt "out") (txt "png") images [(txt "out/b.png", txt "old"); (txt "out/c.png", txt "kept")] in
  NoDup (map stem images) /\ extension (txt "png") /\ read fs (txt "out/a.1.png") = Some (txt "raw/a.1.tif") /\ read fs (txt "out/b.png") = Some (txt "raw/b.tif") /\ read fs (txt "out/c.png") = Some (txt "kept") /\
  listed false (txt "cam") (txt "out") (txt "png") images [(txt "b.tif", 1%N); (txt "c.tif", 2%N); (txt "x/a.1.raw", 3%N)] = [(txt "b.png", txt "b.tif", 1%N); (txt "a.1.png", txt "x/a.1.raw", 3%N)].
Proof. repeat split; try reflexivity; try discriminate; [repeat constructor; cbn; intuition discriminate|cbn; intuition discriminate|cbn; intuition discriminate]. Qed.
Example C307_bag_example : read (correct (fun i => i) true (txt "cam") (txt "out") (txt "png") [txt "12.5"; txt "13.0"] []) (txt "out/cam_12.5.png") = Some (txt "12.5").
Proof. reflexivity. Qed.

(** * C308: the claims without the conditions *)
(** "Every image is corrected": of two with one stem in two folders only one is left. *)
Theorem C308_folders_refuted : exists i j, i <> j /\ forall A (develop : text -> A) camera folder format fs,
  let fs' := correct develop false camera folder format [i; j] fs in
  read fs' (output_path false camera folder format i) = Some (develop j) /\ (forall p, p <> output_path false camera folder format j -> read fs' p = read fs p).
Proof.
  exists (txt "left/0001.tif"), (txt "right/0001.tif"). split; [discriminate|]. intros A develop camera folder format fs fs'.
  assert (output_path false camera folder format (txt "left/0001.tif") = output_path false camera folder format (txt "right/0001.tif")) as E by reflexivity. split.
  - unfold fs', correct, read. cbn [fold_left find fst]. rewrite E. replace (text_eqb _ _) with true by (symmetry; now apply text_eqb_iff). reflexivity.
  - intros p H. unfold fs', correct, read. cbn [fold_left find fst]. rewrite E. destruct (text_eqb _ p) eqn:X; [apply text_eqb_iff in X; now symmetry in X|]. reflexivity.
Qed.
(** "filelist.csv has the corrected images": for images in bags auv_nav calls the rows' files after the time alone (sensors.py:2086-2091), and the list is
    empty. *)
Theorem C308_bags_refuted : exists camera images (rows : list (text * N)), images <> [] /\ map (fun r => stem (fst r)) rows = images /\ forall folder format, extension format ->
  listed true camera folder format images rows = [].
Proof.
  exists (txt "cam"), [txt "12.5"; txt "13.0"], [(txt "image/raw/cam/12.5.png", 1%N); (txt "image/raw/cam/13.0.png", 2%N)]. split; [discriminate|]. split; [reflexivity|]. intros folder format F.
  match goal with |- ?l = [] => destruct l as [|[[out raw] r] l'] eqn:E; [reflexivity|exfalso] end.
  assert (In (out, raw, r) (listed true (txt "cam") folder format [txt "12.5"; txt "13.0"] [(txt "image/raw/cam/12.5.png", 1%N); (txt "image/raw/cam/13.0.png", 2%N)])) as L by (rewrite E; now left).
  pose proof L as I. apply C75_filelist in I as [I _].
  apply C307_bag_list in L; [|exact F|cbv; intuition discriminate|intros i [ <- |[ <- |[]]]; cbv; intuition discriminate]. destruct L as (i & _ & S & _).
  destruct I as [I|[I|[]]]; injection I as <- <-; discriminate S.
Qed.
Print Assumptions C308_folders_refuted. Print Assumptions C308_bags_refuted.
