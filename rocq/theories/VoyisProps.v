(** C72: time stamps and file names of the Voyis image records. *)
From Coq Require Import Ascii String.
From Verif Require Import PyBase NmeaModel NmeaProofs CsvModel VoyisModel.
Local Open Scope Q_scope.
Local Open Scope list_scope.

(** ** Specification *)
(** The name has [tag] after its first [k] characters. *)
Definition tagged (k : nat) (tag n : text) : Prop := exists p r, n = p ++ tag ++ r /\ length p = k.
(** Seconds to add to a time given in the mission's time zone. *)
Definition utc (tz timeoffset t : Q) : Q := t - tz * 3600 - timeoffset.
(** The time read from the last image with a PPS name among [l], each with its camera's tag position
    and date format. *)
Inductive last_pps : list (nat * formats * image) -> Q -> Prop :=
| last_here : forall l k f im t, tagged k PPS (i_name im) -> by_pps f (i_name im) = Some t -> last_pps (l ++ [(k, f, im)]) t
| last_before : forall l k f im t, ~ tagged k PPS (i_name im) -> last_pps l t -> last_pps (l ++ [(k, f, im)]) t.
(** All images of a run in the order of processing. *)
Definition source (k : nat) (c : option camera) : list (nat * formats * image) := match c with Some c => map (fun im => (k, c_formats c, im)) (c_images c) | None => [] end.
Definition sources (stills laser : option camera) : list (nat * formats * image) := source 15 stills ++ source 16 laser.
Definition still_files (stills : option camera) : list text := match stills with Some c => map i_rel (c_images c) | None => [] end.
Definition images_of (c : option camera) : list image := match c with Some c => c_images c | None => [] end.
(** A date format that can read every name with its tag. *)
Definition readable (k : nat) (c : option camera) : Prop := forall f im, In (k, f, im) (source k c) -> tagged k PPS (i_name im) -> by_pps f (i_name im) <> None.

(** ** Lemmas *)
Lemma slice_tag : forall a n, text_eqb (slice a (a + 3) n) PPS = true <-> tagged a PPS n.
Proof.
  intros a n. rewrite text_eqb_iff. unfold slice, tagged. replace (a + 3 - a)%nat with 3%nat by lia. split.
  - intros E. exists (firstn a n), (skipn 3 (skipn a n)). split.
    + rewrite <- E, firstn_skipn. symmetry. apply firstn_skipn.
    + apply firstn_length_le. destruct (Nat.le_gt_cases a (length n)) as [H|H]; [exact H|]. rewrite skipn_all2 in E by lia. discriminate.
  - intros (p & r & -> & L). rewrite <- L, skipn_app, skipn_all, Nat.sub_diag. reflexivity.
Qed.
Lemma slice_system : forall a n, text_eqb (slice a (a + 3) n) SYSTEM = false.
Proof.
  intros a n. destruct (text_eqb _ _) eqn:E; [|reflexivity]. apply text_eqb_iff in E. apply (f_equal (@length _)) in E. unfold slice in E.
  replace (a + 3 - a)%nat with 3%nat in E by lia. rewrite firstn_length in E. change (length SYSTEM) with 6%nat in E. lia.
Qed.
Lemma next_spec : forall a f n e, next_epoch a (a + 3) f n e = if text_eqb (slice a (a + 3) n) PPS then option_map Some (by_pps f n) else Some e.
Proof. intros a f n e. unfold next_epoch. now rewrite slice_system. Qed.
Lemma last_fun : forall l t u, last_pps l t -> last_pps l u -> t = u.
Proof.
  intros l t u H. revert u. induction H as [l k f im t T B|l k f im t T H IH]; intros u U; inversion U as [l' k' f' im' t' T' B' E|l' k' f' im' t' T' B' E]; apply app_inj_tail in E; destruct E as [-> E]; injection E as -> -> ->; try contradiction; [congruence|now apply IH].
Qed.

(** What one loop does, given the images [pre] processed before it. *)
Definition known (pre : list (nat * formats * image)) (e : option Q) : Prop := match e with Some t => last_pps pre t | None => forall t, ~ last_pps pre t end.
Definition src (a : nat) (f : formats) (ims : list image) := map (fun im => (a, f, im)) ims.
Definition rec_ok (off : Q) (pre all : list (nat * formats * image)) (files : list text) (i : nat) (r : record) : Prop :=
  nth_error files i = Some (r_file r) /\ exists t, last_pps (pre ++ firstn (S i) all) t /\ r_time r == t + off.
Lemma known_nil : known [] None.
Proof. intros t H. inversion H as [l ? ? ? ? ? ? E|l ? ? ? ? ? ? E]; destruct l; discriminate. Qed.
Lemma known_step : forall pre a f im e o, known pre e -> next_epoch a (a + 3) f (i_name im) e = Some o -> known (pre ++ [(a, f, im)]) o.
Proof.
  intros pre a f im e o K N. rewrite next_spec in N. destruct (text_eqb _ _) eqn:T.
  - apply slice_tag in T. destruct (by_pps f (i_name im)) as [t|] eqn:B; [|discriminate]. cbn in N. injection N as <-. now apply last_here.
  - assert (~ tagged a PPS (i_name im)) as T' by (intro G; apply slice_tag in G; congruence). injection N as <-. destruct e as [t|]; [now apply last_before|].
    intros t H. inversion H as [l ? ? ? ? G ? E|l ? ? ? ? G H' E]; apply app_inj_tail in E; destruct E as [-> E]; injection E as -> -> ->; [contradiction|]. now apply (K t).
Qed.
Lemma loop_ok : forall a f off ims pre e files e' rs, known pre e -> loop a (a + 3) f off e files ims = Some (e', rs) ->
  known (pre ++ src a f ims) e' /\ length rs = length ims /\ forall i r, nth_error rs i = Some r -> rec_ok off pre (src a f ims) files i r.
Proof.
  intros a f off. induction ims as [|im ims IH]; intros pre e files e' rs K E; cbn [loop] in E.
  - injection E as <- <-. cbn. rewrite app_nil_r. split; [exact K|]. split; [reflexivity|]. intros [|i] r H; discriminate.
  - destruct (next_epoch a (a + 3) f (i_name im) e) as [[t|]|] eqn:N; try discriminate. destruct files as [|file files]; [discriminate|].
    destruct (loop a (a + 3) f off (Some t) files ims) as [[e2 rs2]|] eqn:L; [|discriminate]. apply (known_step pre) in N; [|exact K].
    destruct (IH _ _ _ _ _ N L) as (A & B & C). rewrite <- app_assoc in A. injection E as <- <-. split; [exact A|]. split; [cbn; lia|].
    intros [|i] r H; cbn in H.
    + injection H as <-. split; [reflexivity|]. exists t. split; [exact N|reflexivity].
    + destruct (C i r H) as (F & u & U & V). split; [exact F|]. exists u. split; [|exact V]. cbn [src map firstn]. rewrite <- app_assoc in U. exact U.
Qed.
(** When a loop fails. *)
Lemma loop_none : forall a f off ims pre e files, known pre e -> (forall im, In im ims -> tagged a PPS (i_name im) -> by_pps f (i_name im) <> None) ->
  (loop a (a + 3) f off e files ims = None <-> (length files < length ims)%nat \/ exists i, (i < length ims)%nat /\ forall t, ~ last_pps (pre ++ firstn (S i) (src a f ims)) t).
Proof.
  intros a f off. induction ims as [|im ims IH]; intros pre e files K R; cbn [loop].
  - split; [discriminate|]. intros [H|(i & H & _)]; cbn in H; lia.
  - destruct (next_epoch a (a + 3) f (i_name im) e) as [o|] eqn:N.
    2:{ exfalso. rewrite next_spec in N. destruct (text_eqb _ _) eqn:T; [|discriminate]. apply slice_tag in T. apply (R im); [now left|exact T|]. now destruct (by_pps f (i_name im)). }
    pose proof (known_step pre _ _ _ _ _ K N) as K'. destruct o as [t|].
    2:{ split; [intros _|reflexivity]. right. exists 0%nat. split; [cbn; lia|]. exact K'. }
    destruct files as [|file files]; [split; [intros _; left; cbn; lia|reflexivity]|].
    assert (forall x, In x ims -> tagged a PPS (i_name x) -> by_pps f (i_name x) <> None) as R' by (intros x X; apply R; now right).
    specialize (IH _ _ files K' R'). destruct (loop a (a + 3) f off (Some t) files ims) as [[e2 rs2]|].
    + split; [discriminate|]. intros H. exfalso. enough (@None (option Q * list record) = None) as _ by (assert (Some (e2, rs2) = None) as X; [apply IH|discriminate X]; destruct H as [H|(i & H & G)]; [left; cbn in H; lia|right; destruct i as [|i]; [exfalso; exact (G t K')|]; exists i; split; [cbn in H; lia|]; cbn [src map firstn] in G; now rewrite <- app_assoc]). reflexivity.
    + split; [intros _|reflexivity]. destruct (proj1 IH eq_refl) as [H|(i & H & G)]; [left; cbn; lia|]. right. exists (S i). split; [cbn; lia|]. cbn [src map firstn]. rewrite <- app_assoc in G. exact G.
Qed.

Lemma run_ok : forall a off c pre e files e' rs, known pre e -> run a (a + 3) off e files c = Some (e', rs) ->
  known (pre ++ source a c) e' /\ length rs = length (images_of c) /\ forall i r, nth_error rs i = Some r -> rec_ok off pre (source a c) files i r.
Proof.
  intros a off [c|] pre e files e' rs K E; [now apply (loop_ok a _ off _ pre e files)|]. injection E as <- <-. cbn. rewrite app_nil_r. split; [exact K|]. split; [reflexivity|]. intros [|i] r H; discriminate.
Qed.
Lemma run_none : forall a off c pre e files, known pre e -> readable a c ->
  (run a (a + 3) off e files c = None <-> (length files < length (images_of c))%nat \/ exists i, (i < length (images_of c))%nat /\ forall t, ~ last_pps (pre ++ firstn (S i) (source a c)) t).
Proof.
  intros a off [c|] pre e files K R.
  - apply (loop_none a _ off); [exact K|]. intros im I. apply R. cbn. apply in_map_iff. now exists im.
  - cbn. split; [discriminate|]. intros [H|(i & H & _)]; lia.
Qed.
Lemma source_length : forall k c, length (source k c) = length (images_of c).
Proof. intros k [c|]; [apply map_length|reflexivity]. Qed.
Lemma names_eq : forall stills, (match stills with Some c => map i_rel (c_images c) | None => [] end) = still_files stills.
Proof. intros [c|]; reflexivity. Qed.

(** ** C72 *)
(** Whatever is written: one record per image, stills first.  Its time is the time in the name of the
    last image up to this one, over both cameras, whose name has PPS at its place, taken to UTC.  The
    file names are those of the stills images, for the laser records too. *)
Theorem C72_records : forall tz toff stills laser rs, parse tz toff stills laser = Some rs ->
  length rs = (length (images_of stills) + length (images_of laser))%nat /\
  forall i r, nth_error rs i = Some r ->
    (exists t, last_pps (firstn (S i) (sources stills laser)) t /\ r_time r == utc tz toff t) /\
    ((i < length (images_of stills))%nat -> nth_error (still_files stills) i = Some (r_file r)) /\
    ((length (images_of stills) <= i)%nat -> nth_error (still_files stills) (i - length (images_of stills)) = Some (r_file r)).
Proof.
  intros tz toff stills laser rs E. unfold parse in E. cbv zeta in E. rewrite names_eq in E. set (off := - tz * 60 * 60 - toff) in *.
  assert (forall t, t + off == utc tz toff t) as O by (intros t; unfold off, utc; ring). clearbody off.
  destruct (run 15 18 off None (still_files stills) stills) as [[e rs1]|] eqn:E1; [|discriminate].
  destruct (run 16 19 off e (still_files stills) laser) as [[e2 rs2]|] eqn:E2; [|discriminate]. cbn in E. injection E as <-.
  destruct (run_ok 15 _ _ [] _ _ _ _ known_nil E1) as (K & L1 & P1). destruct (run_ok 16 _ _ _ _ _ _ _ K E2) as (_ & L2 & P2). cbn [app] in *.
  split; [rewrite app_length; lia|]. intros i r H. unfold sources. rewrite firstn_app, source_length. destruct (Nat.lt_ge_cases i (length rs1)) as [C|C].
  - rewrite nth_error_app1 in H by exact C. destruct (P1 i r H) as (F & t & T & V). split; [|split; [intros _; exact F|lia]].
    exists t. replace (S i - length (images_of stills))%nat with 0%nat by lia. cbn [firstn]. rewrite app_nil_r. split; [exact T|]. rewrite V. apply O.
  - rewrite nth_error_app2 in H by exact C. destruct (P2 _ r H) as (F & t & T & V). rewrite L1 in *. split; [|split; [lia|intros _; exact F]].
    exists t. rewrite firstn_all2 by (rewrite source_length; lia). replace (S i - length (images_of stills))%nat with (S (i - length (images_of stills))) by lia. split; [exact T|]. rewrite V. apply O.
Qed.
Print Assumptions C72_records.
(** When all names carry PPS, each still has the time of its own name, and the laser records too. *)
Theorem C72_pps : forall tz toff stills laser rs, parse tz toff stills laser = Some rs ->
  (forall k f im, In (k, f, im) (sources stills laser) -> tagged k PPS (i_name im)) ->
  forall i r k f im, nth_error rs i = Some r -> nth_error (sources stills laser) i = Some (k, f, im) ->
  exists t, by_pps f (i_name im) = Some t /\ r_time r == utc tz toff t.
Proof.
  intros tz toff stills laser rs E A i r k f im R G0. apply C72_records in E. destruct E as (_ & P). destruct (P i r R) as ((t & T & V) & _).
  assert (firstn (S i) (sources stills laser) = firstn i (sources stills laser) ++ [(k, f, im)]) as G.
  { clear -G0. revert i G0. induction (sources stills laser) as [|x l IH]; intros [|i] G0; try discriminate; [cbn in G0; injection G0 as ->; reflexivity|]. cbn [firstn app]. f_equal. now apply IH. }
  rewrite G in T. exists t. split; [|exact V]. inversion T as [l ? ? ? ? ? B E|l ? ? ? ? N ? E]; apply app_inj_tail in E; destruct E as [-> E]; injection E as -> -> ->; [exact B|]. destruct N. apply (A k f im). now apply nth_error_In in G0.
Qed.
Print Assumptions C72_pps.
(** The system date format is never used: a slice of three characters is not "SYSTEM". *)
Definition with_system (g : text -> option Q) (c : option camera) : option camera :=
  option_map (fun c => mkcamera (mkformats (by_pps (c_formats c)) g) (c_images c)) c.
Theorem C172_system_unused : forall tz toff stills laser g h, parse tz toff (with_system g stills) (with_system h laser) = parse tz toff stills laser.
Proof.
  assert (forall a f f' off ims e files, by_pps f' = by_pps f -> loop a (a + 3) f' off e files ims = loop a (a + 3) f off e files ims) as L.
  { intros a f f' off ims. induction ims as [|im ims IH]; intros e files B; [reflexivity|]. cbn [loop]. rewrite !next_spec, B. destruct (if text_eqb _ _ then _ else _) as [[t|]|]; [|reflexivity|reflexivity].
    destruct files as [|x files]; [reflexivity|]. now rewrite IH by exact B. }
  assert (forall a off g c e files, run a (a + 3) off e files (with_system g c) = run a (a + 3) off e files c) as R by (intros a off g [c|] e files; [apply L; reflexivity|reflexivity]).
  intros tz toff stills laser g h. unfold parse. cbv zeta. rewrite !names_eq. assert (still_files (with_system g stills) = still_files stills) as -> by now destruct stills.
  pose proof (R 15%nat) as R15. pose proof (R 16%nat) as R16. change (15 + 3)%nat with 18%nat in R15. change (16 + 3)%nat with 19%nat in R16. rewrite R15.
  destruct (run 15 18 _ _ _ _) as [[e rs]|]; [|reflexivity]. now rewrite R16.
Qed.
Print Assumptions C172_system_unused.
(** Parsing fails exactly when there are more laser than stills images, or some image has no image
    with a PPS name at or before it. *)
Theorem C72_crash : forall tz toff stills laser, readable 15 stills -> readable 16 laser ->
  (parse tz toff stills laser = None <->
   (length (images_of stills) < length (images_of laser))%nat \/
   exists i, (i < length (sources stills laser))%nat /\ forall t, ~ last_pps (firstn (S i) (sources stills laser)) t).
Proof.
  intros tz toff stills laser R1 R2. unfold parse. cbv zeta. rewrite names_eq. set (off := - tz * 60 * 60 - toff). clearbody off.
  assert (length (still_files stills) = length (images_of stills)) as LF by (destruct stills; [apply map_length|reflexivity]).
  assert (forall i, firstn (S i) (sources stills laser) = firstn (S i) (source 15 stills) ++ firstn (S i - length (images_of stills)) (source 16 laser)) as FS by (intros i; unfold sources; now rewrite firstn_app, source_length).
  assert (length (sources stills laser) = (length (images_of stills) + length (images_of laser))%nat) as LS by (unfold sources; now rewrite app_length, !source_length).
  pose proof (run_none 15 off stills [] None (still_files stills) known_nil R1) as N1. change (15 + 3)%nat with 18%nat in N1.
  destruct (run 15 18 off None (still_files stills) stills) as [[e rs1]|] eqn:E1.
  - destruct (run_ok 15 _ _ [] _ _ _ _ known_nil E1) as (K & L1 & P1). cbn [app] in *.
    pose proof (run_none 16 off laser _ e (still_files stills) K R2) as N2. change (16 + 3)%nat with 19%nat in N2.
    destruct (run 16 19 off e (still_files stills) laser) as [x|]; cbn [option_map].
    + split; [discriminate|]. intros H. exfalso. assert (Some x = None) as X; [apply N2|discriminate X]. rewrite LF. destruct H as [H|(i & I & H)]; [now left|]. right.
      destruct (Nat.lt_ge_cases i (length (images_of stills))) as [C|C].
      * exfalso. assert (Some (e, rs1) = None) as X; [apply N1|discriminate X]. right. exists i. split; [exact C|]. intros t T. apply (H t). rewrite FS. replace (S i - length (images_of stills))%nat with 0%nat by lia. cbn [firstn]. now rewrite app_nil_r.
      * exists (i - length (images_of stills))%nat. split; [lia|]. intros t T. apply (H t). rewrite FS, firstn_all2 by (rewrite source_length; lia). now replace (S i - length (images_of stills))%nat with (S (i - length (images_of stills))) by lia.
    + split; [intros _|reflexivity]. destruct (proj1 N2 eq_refl) as [H|(i & I & H)]; [left; lia|]. right. exists (length (images_of stills) + i)%nat. split; [lia|]. intros t T. apply (H t). rewrite FS, firstn_all2 in T by (rewrite source_length; lia). now replace (S (length (images_of stills) + i) - length (images_of stills))%nat with (S i) in T by lia.
  - split; [intros _|reflexivity]. destruct (proj1 N1 eq_refl) as [H|(i & I & H)]; [lia|]. right. exists i. split; [lia|]. intros t T. apply (H t). rewrite FS in T. replace (S i - length (images_of stills))%nat with 0%nat in T by lia. cbn [firstn] in T. now rewrite app_nil_r in T.
Qed.
Print Assumptions C72_crash.

(** A laser record does not name the laser image, and a SYSTEM image does not get its own time. *)
Definition ex_read (t : Q) : text -> option Q := fun n => Some (t + inject_Z (Z.of_N (nth 0 n 0%N))).
Definition ex_formats : formats := mkformats (ex_read 100) (ex_read 500).
Definition still1 := mkimage (txt "120220601_10000PPS_1.tif") (txt "stills/1.tif").
Definition still2 := mkimage (txt "220220601_10000SYSTEM_2.tif") (txt "stills/2.tif").
Definition laser1 := mkimage (txt "320220601_100000PPS_3.tif") (txt "laser/3.tif").
Theorem C172_laser_name_refuted : exists tz toff stills laser rs i r im,
  parse tz toff (Some stills) (Some laser) = Some rs /\ nth_error (c_images laser) i = Some im /\ nth_error rs (length (c_images stills) + i) = Some r /\ r_file r <> i_rel im.
Proof.
  exists 0, 0, (mkcamera ex_formats [still1]), (mkcamera ex_formats [laser1]). eexists. exists 0%nat. eexists. exists laser1.
  split; [vm_compute; reflexivity|]. split; [reflexivity|]. split; [reflexivity|]. discriminate.
Qed.
Print Assumptions C172_laser_name_refuted.
Theorem C172_system_refuted : exists tz toff stills rs i r im t,
  parse tz toff (Some stills) None = Some rs /\ nth_error (c_images stills) i = Some im /\ nth_error rs i = Some r /\ tagged 15 SYSTEM (i_name im) /\
  by_system (c_formats stills) (i_name im) = Some t /\ ~ r_time r == utc tz toff t.
Proof.
  exists 0, 0, (mkcamera ex_formats [still1; still2]). eexists. exists 1%nat. eexists. exists still2, 550.
  split; [vm_compute; reflexivity|]. split; [reflexivity|]. split; [reflexivity|].
  split; [now exists (txt "220220601_10000"), (txt "_2.tif")|]. split; [vm_compute; reflexivity|]. intro H. discriminate H.
Qed.
Print Assumptions C172_system_refuted.
Example C72_ex : parse 1 5 (Some (mkcamera ex_formats [still1; still2])) (Some (mkcamera ex_formats [laser1])) =
  Some [mkrecord (149 + (- (1) * 60 * 60 - 5)) (txt "stills/1.tif"); mkrecord (149 + (- (1) * 60 * 60 - 5)) (txt "stills/2.tif"); mkrecord (151 + (- (1) * 60 * 60 - 5)) (txt "stills/1.tif")].
Proof. reflexivity. Qed.
Example C72_ex_crash : parse 0 0 (Some (mkcamera ex_formats [still2; still1])) None = None /\ parse 0 0 None (Some (mkcamera ex_formats [laser1])) = None.
Proof. split; reflexivity. Qed.
