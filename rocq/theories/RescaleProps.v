(** C243/C244: the command [correct_images rescale]. *)
From Coq Require Import Ascii String Permutation Lia Qround.
From Verif Require Import PyBase NmeaModel NmeaProofs FilesModel FilesProps CorrModel RescaleModel.
Open Scope Q_scope.
Open Scope list_scope.

(** Specification.  The images that are rescaled have a name that ends in .jpg, .png or .tif. *)
Definition is_image (n : text) : Prop := exists b e, n = b ++ e /\ (e = [46;106;112;103]%N \/ e = [46;112;110;103]%N \/ e = [46;116;105;102]%N).
(** The one row of the distances whose stem occurs in the name of the image. *)
Definition only_row (rows : list (text * Q)) (n : text) (h : Q) : Prop :=
  exists l p r, rows = l ++ (p, h) :: r /\ occurs (stem p) n /\ forall q, In q (l ++ r) -> ~ occurs (stem (fst q)) n.
Definition no_row (rows : list (text * Q)) (n : text) : Prop := forall q, In q rows -> ~ occurs (stem (fst q)) n.
Definition calibration_of (base : place) (camera : text) : place := base ++ [txt "calibration"; txt "mono_" ++ camera ++ txt ".yaml"].
Definition distances_of (base : place) (c : camera_rescale) : place :=
  base ++ distances c ++ [txt "csv"; txt "ekf"; txt "auv_ekf_" ++ r_name c ++ txt ".csv"].

Lemma place_eqb_iff : forall p q, place_eqb p q = true <-> p = q.
Proof. intros p q; unfold place_eqb; destruct list_eq_dec; intuition congruence. Qed.
Lemma lookup_write : forall A (fs : disk A) p q a, lookup (write fs p a) q = if place_eqb p q then Some a else lookup fs q.
Proof. reflexivity. Qed.

Lemma last4_iff : forall n e, length e = 4%nat -> (last4 n = e <-> exists b, n = b ++ e).
Proof.
  intros n e He; unfold last4; split.
  - intros H; exists (firstn (length n - 4) n); rewrite <- H, firstn_skipn; reflexivity.
  - intros [b ->]; rewrite app_length, He.
    replace (length b + 4 - 4)%nat with (length b) by lia.
    rewrite skipn_app, Nat.sub_diag, skipn_all; reflexivity.
Qed.
Lemma chosen_iff : forall n, chosen n = true <-> is_image n.
Proof.
  intros n; unfold chosen, is_image; rewrite !Bool.orb_true_iff, !text_eqb_iff, !last4_iff by reflexivity.
  split.
  - intros [ [ [b H]|[b H] ]|[b H] ]; eauto 8.
  - intros (b & e & H & [-> | [-> | ->] ]); eauto 8.
Qed.

Lemma rows_of_image : forall (rows : list (text * Q)) n,
  filter (fun r => text_in (fst r) (filter (fun p => contains (stem p) n) (map fst rows))) rows
  = filter (fun r => contains (stem (fst r)) n) rows.
Proof.
  intros rows n; apply filter_ext_in; intros r Hr; apply Bool.eq_iff_eq_true; rewrite text_in_iff, filter_In.
  split; [tauto|intros H; split; [apply in_map; exact Hr|exact H]].
Qed.
Lemma filter_nil : forall A (f : A -> bool) l, filter f l = [] <-> forall x, In x l -> f x = false.
Proof.
  induction l as [|a l IH]; cbn; [split; [intros _ x []|reflexivity]|].
  destruct (f a) eqn:E; split; try discriminate.
  - intros H; specialize (H a (or_introl eq_refl)); congruence.
  - intros H x [->|Hx]; [exact E|apply IH; assumption].
  - intros H; apply IH; auto.
Qed.
Lemma filter_one : forall A (f : A -> bool) l x, filter f l = [x] ->
  exists a b, l = a ++ x :: b /\ f x = true /\ forall y, In y (a ++ b) -> f y = false.
Proof.
  induction l as [|y l IH]; cbn; [discriminate|].
  intros x H; destruct (f y) eqn:E.
  - injection H as -> H. exists [], l; split; [reflexivity|split; [exact E|]]. cbn. apply filter_nil; exact H.
  - destruct (IH x H) as (a & b & -> & Hx & Hy). exists (y :: a), b; split; [reflexivity|split; [exact Hx|]].
    intros z [<-|Hz]; [exact E|apply Hy; exact Hz].
Qed.
Lemma altitude_only : forall rows n h, altitude_for rows n = Altitude h <-> only_row rows n h.
Proof.
  intros rows n h; unfold altitude_for, only_row; rewrite rows_of_image; split.
  - intros H. destruct (filter _ rows) as [|[p g] [|x l]] eqn:E; [discriminate| |discriminate].
    assert (g = h) as -> by congruence.
    destruct (filter_one _ _ _ _ E) as (a & b & Hr & Hp & Hq).
    exists a, p, b; split; [exact Hr|split; [apply contains_iff; exact Hp|]].
    intros q Hin Ho; apply contains_iff in Ho; rewrite (Hq q Hin) in Ho; discriminate.
  - intros (l & p & r & -> & Hp & Hq). rewrite filter_app; cbn [filter fst].
    rewrite (proj2 (contains_iff _ _) Hp).
    assert (F : forall k, (forall q, In q k -> In q (l ++ r)) -> filter (fun r0 : text * Q => contains (stem (fst r0)) n) k = []).
    { intros k Hk; apply filter_nil; intros q Hin; destruct (contains _ _) eqn:E; [|reflexivity].
      apply contains_iff in E; destruct (Hq q (Hk q Hin) E). }
    rewrite !F; [reflexivity| |]; intros q Hin; apply in_or_app; auto.
Qed.
Lemma altitude_none : forall rows n, altitude_for rows n = NoDistance <-> no_row rows n.
Proof.
  intros rows n; unfold altitude_for, no_row; rewrite rows_of_image; split.
  - intros H q Hin Ho; apply contains_iff in Ho.
    destruct (filter _ rows) as [|[p g] [|x l]] eqn:E; [|discriminate|discriminate].
    rewrite (proj1 (filter_nil _ _ _) E q Hin) in Ho; discriminate.
  - intros H; replace (filter _ rows) with (@nil (text * Q)); [reflexivity|symmetry; apply filter_nil].
    intros q Hin; destruct (contains _ _) eqn:E; [|reflexivity]. apply contains_iff in E; destruct (H q Hin E).
Qed.

Section Props.
Variable image : Type.
Variable size : image -> Z * Z.
Variable resampled : interpolation -> plan -> image -> option image.
Variable listed : list text -> list text.
Hypothesis listed_all : forall l, Permutation (listed l) l.
Notation files := (disk (content image)).
Notation run := (call_rescale image size resampled listed).
Notation camera_run := (rescale_camera image size resampled listed).
Notation cameras_run := (all_cameras image size resampled listed).
Notation images_run := (all_images image size resampled).
Notation image_run := (one_image image size resampled).

(** What one image gives, from the disk [fs] to the disk [fs']. *)
Definition handled (c : camera_rescale) (base : place) (fx fy : Q) (rows : list (text * Q)) (n : text) (fs fs' : files) (notes : list note) : Prop :=
  (no_row rows n /\ In (No_distance n) notes)
  \/ (exists h m f i j, only_row rows n h /\ interp c = Some m /\ lookup fs (base ++ folder c ++ [n]) = Some (Picture f i) /\
       resampled m (FilesModel.rescale (maintain c) (fst (size i)) (snd (size i)) ((h / fx) / target c) ((h / fy) / target c)) i = Some j /\
       lookup fs' (base ++ output c ++ [n]) = Some (Picture PNG j)).

Lemma names_in_iff : forall (fs : files) d n, In n (names_in image fs d) <-> lookup fs (d ++ [n]) <> None.
Proof.
  intros fs d n; unfold names_in; rewrite nodup_In. induction fs as [|[p a] fs IH]; cbn [flat_map lookup].
  - cbn; intuition congruence.
  - rewrite in_app_iff, IH. unfold name_in; cbn [fst].
    destruct (rev p) as [|m q] eqn:E.
    + apply (f_equal (@rev _)) in E; rewrite rev_involutive in E; subst p; cbn [rev].
      destruct (place_eqb [] (d ++ [n])) eqn:F; [apply place_eqb_iff in F; destruct d; discriminate|]. cbn; tauto.
    + apply (f_equal (@rev _)) in E; rewrite rev_involutive in E; subst p; cbn [rev].
      destruct (place_eqb (rev q) d) eqn:G.
      * apply place_eqb_iff in G; subst d.
        destruct (place_eqb (rev q ++ [m]) (rev q ++ [n])) eqn:F.
        -- apply place_eqb_iff, app_inv_head in F. injection F as <-. cbn; intuition congruence.
        -- cbn. split; [intros [[->|[]]|H]; [|exact H]|tauto].
           assert (place_eqb (rev q ++ [n]) (rev q ++ [n]) = true) by (apply place_eqb_iff; reflexivity). congruence.
      * destruct (place_eqb (rev q ++ [m]) (d ++ [n])) eqn:F; [|cbn; tauto].
        apply place_eqb_iff, app_inj_tail in F; destruct F as [F _].
        apply place_eqb_iff in F; congruence.
Qed.
Lemma listed_iff : forall (fs : files) d n, In n (filter chosen (listed (names_in image fs d))) <-> is_image n /\ lookup fs (d ++ [n]) <> None.
Proof.
  intros fs d n; rewrite filter_In, chosen_iff, <- names_in_iff.
  assert (H := listed_all (names_in image fs d)).
  split; intros [A B]; split; try assumption.
  - apply (Permutation_in _ H); exact A.
  - apply (Permutation_in _ (Permutation_sym H)); exact B.
Qed.

(** What a step does to the disk: it adds files of names of images to folders of [outs]. *)
Definition only_in (outs : list place) (base : place) (names : list text) (w : files) : Prop :=
  forall f, In f w -> exists o n, In o outs /\ In n names /\ is_image n /\ fst f = base ++ o ++ [n] /\ exists j, snd f = Picture PNG j.
Lemma lookup_app : forall (w fs : files) p, lookup (w ++ fs) p = match lookup w p with Some a => Some a | None => lookup fs p end.
Proof. induction w as [|[q a] w IH]; intros fs p; cbn; [reflexivity|]. destruct place_eqb; [reflexivity|apply IH]. Qed.
Lemma lookup_some : forall (w : files) p, lookup w p <> None -> exists f, In f w /\ fst f = p.
Proof.
  induction w as [|[q a] w IH]; intros p H; cbn in H; [congruence|].
  destruct (place_eqb q p) eqn:E; [apply place_eqb_iff in E; exists (q, a); cbn; auto|].
  destruct (IH p H) as (f & A & B); exists f; cbn; auto.
Qed.
Lemma lookup_keep : forall (w fs : files) p, lookup fs p <> None -> lookup (w ++ fs) p <> None.
Proof. intros w fs p H; rewrite lookup_app; destruct (lookup w p); congruence. Qed.

Lemma image_step : forall c base fx fy rows n fs fs' notes e, image_run c base fx fy rows n fs = (fs', notes, e) ->
  (exists w, fs' = w ++ fs /\ forall f, In f w -> fst f = base ++ output c ++ [n] /\ exists j, snd f = Picture PNG j) /\
  (forall x, In x notes -> x = No_distance n) /\
  (e = Finished -> handled c base fx fy rows n fs fs' notes).
Proof.
  intros c base fx fy rows n fs fs' notes e; unfold one_image, handled.
  assert (N : (exists w, fs = w ++ fs /\ forall f, In f w -> fst f = base ++ output c ++ [n] /\ exists j, snd f = Picture PNG j))
    by (exists []; split; [reflexivity|intros f []]).
  destruct (altitude_for rows n) as [h| |] eqn:A.
  - destruct (lookup fs _) as [[f i| | |]|] eqn:L; try (intros [= <- <- <-]; split; [exact N|split; [intros x []|discriminate]]).
    destruct (interp c) as [m|] eqn:I; [|intros [= <- <- <-]; split; [exact N|split; [intros x []|discriminate]]].
    destruct (resampled m _ i) as [j|] eqn:R; [|intros [= <- <- <-]; split; [exact N|split; [intros x []|discriminate]]].
    intros [= <- <- <-]; split; [|split; [intros x []|]].
    + exists [(base ++ output c ++ [n], Picture PNG j)]; split; [reflexivity|].
      intros g [<-|[]]; cbn; eauto.
    + intros _; right; exists h, m, f, i, j. split; [apply altitude_only; exact A|split; [reflexivity|split; [reflexivity|split; [exact R|]]]].
      rewrite lookup_write, (proj2 (place_eqb_iff _ _) eq_refl); reflexivity.
  - intros [= <- <- <-]; split; [exact N|split; [intros x [<-|[]]; reflexivity|]].
    intros _; left; split; [apply altitude_none; exact A|left; reflexivity].
  - destruct (lookup fs _) as [[f i| | |]|] eqn:L; try (intros [= <- <- <-]; split; [exact N|split; [intros x []|discriminate]]).
    destruct (interp c) as [m|] eqn:I; intros [= <- <- <-]; split; [exact N|split; [intros x []|discriminate]| exact N|split; [intros x []|discriminate]].
Qed.

Lemma images_step : forall c base fx fy rows names fs fs' notes e, NoDup names -> Forall is_image names ->
  images_run c base fx fy rows names fs = (fs', notes, e) ->
  (exists w, fs' = w ++ fs /\ only_in [output c] base names w) /\
  (forall x, In x notes -> exists n, In n names /\ x = No_distance n) /\
  (e = Finished -> forall n, In n names -> handled c base fx fy rows n fs fs' notes).
Proof.
  intros c base fx fy rows; induction names as [|n names IH]; intros fs fs' notes e Hd Hi; cbn [all_images].
  { intros [= <- <- <-]; split; [exists []; split; [reflexivity|intros f []]|split; [intros x []|intros _ n []]]. }
  inversion Hd as [|? ? Hn Hd']; inversion Hi as [|? ? Hin Hi']; subst.
  unfold after. destruct (image_run c base fx fy rows n fs) as [[fs1 notes1] e1] eqn:E1.
  destruct (image_step _ _ _ _ _ _ _ _ _ _ E1) as ((w1 & -> & W1) & N1 & H1).
  assert (O1 : only_in [output c] base (n :: names) w1).
  { intros f Hf; destruct (W1 f Hf) as [F J]; exists (output c), n; cbn; auto. }
  destruct e1; try (intros [= <- <- <-]; split; [exists w1; auto|split; [intros x Hx; exists n; cbn; auto|discriminate]]).
  destruct (images_run c base fx fy rows names (w1 ++ fs)) as [[fs2 notes2] e2] eqn:E2.
  destruct (IH _ _ _ _ Hd' Hi' E2) as ((w2 & -> & W2) & N2 & H2).
  intros [= <- <- <-]; split; [|split].
  - exists (w2 ++ w1); split; [apply app_assoc|].
    intros f Hf; apply in_app_or in Hf; destruct Hf as [Hf|Hf].
    + destruct (W2 f Hf) as (o & k & A & B & C & D); exists o, k; cbn in *; auto.
    + apply O1; exact Hf.
  - intros x Hx; apply in_app_or in Hx; destruct Hx as [Hx|Hx].
    + exists n; cbn; auto.
    + destruct (N2 x Hx) as (k & A & B); exists k; cbn; auto.
  - intros -> k [<-|Hk].
    + destruct (H1 eq_refl) as [[A B]|(h & m & f & i & j & A & B & C & D & F)].
      * left; split; [exact A|apply in_or_app; auto].
      * right; exists h, m, f, i, j; split; [exact A|split; [exact B|split; [exact C|split; [exact D|]]]].
        rewrite lookup_app. destruct (lookup w2 _) as [a|] eqn:L; [|exact F].
        destruct (lookup_some w2 (base ++ output c ++ [n])) as (g & G1 & G2); [congruence|].
        destruct (W2 g G1) as (o & k & [<-|[]] & K & _ & P & _).
        rewrite G2 in P; apply app_inv_head, app_inv_head in P; injection P as <-; contradiction.
    + destruct (H2 eq_refl k Hk) as [[A B]|(h & m & f & i & j & A & B & C & D & F)].
      * left; split; [exact A|apply in_or_app; auto].
      * right; exists h, m, f, i, j; split; [exact A|split; [exact B|split; [|split; [exact D|exact F]]]].
        rewrite lookup_app in C. destruct (lookup w1 _) as [a|] eqn:L; [|exact C].
        destruct (lookup_some w1 (base ++ folder c ++ [k])) as (g & G1 & G2); [congruence|].
        destruct (W1 g G1) as [P _]; rewrite G2 in P; rewrite !app_assoc in P; apply app_inj_tail in P; destruct P as [_ ->]; contradiction.
Qed.

Lemma listed_nodup : forall (fs : files) d, NoDup (filter chosen (listed (names_in image fs d))) /\ Forall is_image (filter chosen (listed (names_in image fs d))).
Proof.
  intros fs d; split.
  - apply NoDup_filter. apply (Permutation_NoDup (Permutation_sym (listed_all _))). apply NoDup_nodup.
  - apply Forall_forall; intros n H; apply filter_In in H; apply chosen_iff; tauto.
Qed.

Definition active (system : list text) (cams : list camera_rescale) : list camera_rescale := filter (fun c => text_in (r_name c) system) cams.

Lemma camera_step : forall system base c fs fs' notes e, camera_run system base c fs = (fs', notes, e) ->
  (exists w, fs' = w ++ fs /\ forall f, In f w -> In (r_name c) system /\ exists n j, is_image n /\ lookup fs (base ++ folder c ++ [n]) <> None /\
                fst f = base ++ output c ++ [n] /\ snd f = Picture PNG j) /\
  ~ In All_completed notes /\
  (forall x, In (Camera_missing x) notes -> x = r_name c /\ ~ In x system) /\
  (e = Finished -> ~ In (r_name c) system -> In (Camera_missing (r_name c)) notes) /\
  (e = Finished -> In (r_name c) system -> exists fx fy rows, lookup fs (calibration_of base (r_name c)) = Some (Calibration fx fy) /\
     lookup fs (distances_of base c) = Some (Distances rows) /\
     forall n, is_image n -> lookup fs (base ++ folder c ++ [n]) <> None -> handled c base fx fy rows n fs fs' notes).
Proof.
  intros system base c fs fs' notes e; unfold rescale_camera, calibration_of, distances_of.
  assert (N : exists w, fs = w ++ fs /\ forall f, In f w -> In (r_name c) system /\ exists n j, is_image n /\ lookup fs (base ++ folder c ++ [n]) <> None /\
                fst f = base ++ output c ++ [n] /\ snd f = Picture PNG j) by (exists []; split; [reflexivity|intros f []]).
  destruct (text_in (r_name c) system) eqn:T; cbn [negb].
  2: { assert (~ In (r_name c) system) by (rewrite <- text_in_iff; congruence).
       intros [= <- <- <-]; split; [exact N|split; [intros [|[]]; discriminate|split; [intros x [[= <-]|[]]; auto|split; [cbn; auto|tauto]]]]. }
  apply text_in_iff in T.
  assert (S : forall e', e' <> Finished -> (fs, @nil note, e') = (fs', notes, e) ->
    (exists w, fs' = w ++ fs /\ forall f, In f w -> In (r_name c) system /\ exists n j, is_image n /\ lookup fs (base ++ folder c ++ [n]) <> None /\
                fst f = base ++ output c ++ [n] /\ snd f = Picture PNG j) /\
    ~ In All_completed notes /\ (forall x, In (Camera_missing x) notes -> x = r_name c /\ ~ In x system) /\ e <> Finished).
  { intros e' He [= <- <- <-]; split; [exact N|split; [intros []|split; [intros x []|exact He]]]. }
  destruct (lookup fs (base ++ [txt "calibration"; txt "mono_" ++ r_name c ++ txt ".yaml"])) as [[f i|fx fy|rows|]|] eqn:L1;
    try (intros H; apply S in H; [|discriminate]; destruct H as (A & B & C & D); split; [exact A|split; [exact B|split; [exact C|split; intros; contradiction]]]).
  destruct (lookup fs (base ++ distances c ++ [txt "csv"; txt "ekf"; txt "auv_ekf_" ++ r_name c ++ txt ".csv"])) as [[f i|fx2 fy2|rows|]|] eqn:L2;
    try (intros H; apply S in H; [|discriminate]; destruct H as (A & B & C & D); split; [exact A|split; [exact B|split; [exact C|split; intros; contradiction]]]).
  clear S. intros H. destruct (listed_nodup fs (base ++ folder c)) as [Hd Hi].
  destruct (images_step _ _ _ _ _ _ _ _ _ _ Hd Hi H) as ((w & -> & W) & Nn & Hh).
  split; [|split; [|split; [|split]]].
  - exists w; split; [reflexivity|]. intros g Hg; split; [exact T|].
    destruct (W g Hg) as (o & n & [<-|[]] & K & I & P & j & J). exists n, j. apply listed_iff in K.
    rewrite <- app_assoc in K. tauto.
  - intros A; destruct (Nn _ A) as (? & _ & ?); discriminate.
  - intros x A; destruct (Nn _ A) as (? & _ & ?); discriminate.
  - intros; contradiction.
  - intros -> _. exists fx, fy, rows. split; [reflexivity|split; [reflexivity|]].
    intros n Hn Hl. apply (Hh eq_refl). apply listed_iff. rewrite <- app_assoc. auto.
Qed.

(** The disk after the cameras, from the ones before. *)
Lemma cameras_frame : forall system base cams fs fs' notes e, cameras_run system base cams fs = (fs', notes, e) ->
  exists w, fs' = w ++ fs /\ forall f, In f w -> exists c n j, In c cams /\ In (r_name c) system /\ is_image n /\
     lookup fs' (base ++ folder c ++ [n]) <> None /\ fst f = base ++ output c ++ [n] /\ snd f = Picture PNG j.
Proof.
  intros system base; induction cams as [|c cams IH]; intros fs fs' notes e; cbn [all_cameras].
  { intros [= <- <- <-]; exists []; split; [reflexivity|intros f []]. }
  unfold after. destruct (camera_run system base c fs) as [[fs1 notes1] e1] eqn:E1.
  destruct (camera_step _ _ _ _ _ _ _ E1) as ((w1 & -> & W1) & _).
  assert (F1 : forall w2 f, In f w1 -> exists d n j, In d (c :: cams) /\ In (r_name d) system /\ is_image n /\
     lookup (w2 ++ w1 ++ fs) (base ++ folder d ++ [n]) <> None /\ fst f = base ++ output d ++ [n] /\ snd f = Picture PNG j).
  { intros w2 f Hf; destruct (W1 f Hf) as (A & n & j & I & L & P & J). exists c, n, j.
    split; [left; reflexivity|split; [exact A|split; [exact I|split; [|split; [exact P|exact J]]]]].
    apply lookup_keep, lookup_keep; exact L. }
  destruct e1; try (intros [= <- <- <-]; exists w1; split; [reflexivity|exact (F1 [])]).
  destruct (cameras_run system base cams (w1 ++ fs)) as [[fs2 notes2] e2] eqn:E2.
  destruct (IH _ _ _ _ E2) as (w2 & -> & W2). intros [= <- <- <-].
  exists (w2 ++ w1); split; [apply app_assoc|]. intros f Hf; apply in_app_or in Hf; destruct Hf as [Hf|Hf]; [|apply F1; exact Hf].
  destruct (W2 f Hf) as (d & n & j & A & B); exists d, n, j; cbn; auto.
Qed.

(** A file that is not as it was is a rescaled image of a camera of the configuration. *)
Theorem C243_frame : forall system base cams fs fs' notes e p, run system base cams fs = (fs', notes, e) ->
  lookup fs' p <> lookup fs p ->
  exists cs c n j, cams = Some cs /\ In c cs /\ In (r_name c) system /\ is_image n /\ lookup fs' (base ++ folder c ++ [n]) <> None /\
    p = base ++ output c ++ [n] /\ lookup fs' p = Some (Picture PNG j).
Proof.
  intros system base [cs|] fs fs' notes e p; cbn; [|intros [= <- <- <-]; congruence].
  intros E H. destruct (cameras_frame _ _ _ _ _ _ _ E) as (w & -> & W).
  rewrite lookup_app in H. destruct (lookup w p) as [a|] eqn:L; [|congruence].
  assert (X : exists f, In f w /\ fst f = p /\ snd f = a).
  { clear -L. induction w as [|[q b] w IH]; cbn in L; [discriminate|]. destruct (place_eqb q p) eqn:F.
    - apply place_eqb_iff in F. injection L as <-. exists (q, b); cbn; auto.
    - destruct (IH L) as (f & A & B); exists f; cbn; auto. }
  destruct X as (f & F & Fp & Fa). destruct (W f F) as (c & n & j & A & B & C & D & P & J).
  exists cs, c, n, j. split; [reflexivity|split; [exact A|split; [exact B|split; [exact C|split; [exact D|split; [congruence|]]]]]].
  rewrite lookup_app, L; congruence.
Qed.
(** So a folder that is not an output folder is left alone, and so is every file that is not named like an image. *)
Theorem C243_sources : forall system base cams fs fs' notes e d n, run system base (Some cams) fs = (fs', notes, e) ->
  (forall c, In c cams -> output c <> d) -> lookup fs' (base ++ d ++ [n]) = lookup fs (base ++ d ++ [n]).
Proof.
  intros system base cams fs fs' notes e d n E H. unfold call_rescale in E.
  destruct (cameras_frame _ _ _ _ _ _ _ E) as (w & -> & W).
  rewrite lookup_app; destruct (lookup w _) as [a|] eqn:L; [|reflexivity].
  destruct (lookup_some w (base ++ d ++ [n])) as (f & F & Fp); [congruence|].
  destruct (W f F) as (c & k & j & A & _ & _ & _ & P & _). rewrite Fp in P; apply app_inv_head, app_inj_tail in P; destruct P as [P _].
  destruct (H c A); symmetry; exact P.
Qed.
Theorem C243_others : forall system base cams fs fs' notes e d n, run system base cams fs = (fs', notes, e) ->
  ~ is_image n -> lookup fs' (d ++ [n]) = lookup fs (d ++ [n]).
Proof.
  intros system base [cams|] fs fs' notes e d n E H; cbn in E; [|congruence].
  destruct (cameras_frame _ _ _ _ _ _ _ E) as (w & -> & W).
  rewrite lookup_app; destruct (lookup w _) as [a|] eqn:L; [|reflexivity].
  destruct (lookup_some w (d ++ [n])) as (f & F & Fp); [congruence|].
  destruct (W f F) as (c & k & j & _ & _ & I & _ & P & _). rewrite Fp, app_assoc in P; apply app_inj_tail in P; destruct P as [_ ->]; contradiction.
Qed.

Lemma not_image_yaml : forall a, ~ is_image (a ++ txt ".yaml").
Proof.
  intros a (b & e & H & E). apply (f_equal (@rev _)) in H. rewrite !rev_app_distr in H.
  destruct E as [-> | [-> | ->] ]; cbn in H; discriminate H.
Qed.
Lemma not_image_csv : forall a, ~ is_image (a ++ txt ".csv").
Proof.
  intros a (b & e & H & E). apply (f_equal (@rev _)) in H. rewrite !rev_app_distr in H.
  destruct E as [-> | [-> | ->] ]; cbn in H; discriminate H.
Qed.

Lemma cameras_written : forall system base cams fs fs' notes, cameras_run system base cams fs = (fs', notes, Finished) ->
  forall l c r, cams = l ++ c :: r -> In (r_name c) system ->
  (forall d, In d l -> output d <> folder c) -> (forall d, In d r -> output d <> output c) ->
  exists fx fy rows, lookup fs (calibration_of base (r_name c)) = Some (Calibration fx fy) /\ lookup fs (distances_of base c) = Some (Distances rows) /\
    forall n, is_image n -> lookup fs (base ++ folder c ++ [n]) <> None -> handled c base fx fy rows n fs fs' notes.
Proof.
  intros system base; induction cams as [|c0 cams IH]; intros fs fs' notes E l c r Hc Hs Hl Hr.
  { destruct l; discriminate. }
  cbn [all_cameras] in E; unfold after in E.
  destruct (camera_run system base c0 fs) as [[fs1 notes1] e1] eqn:E1.
  destruct (camera_step _ _ _ _ _ _ _ E1) as ((w1 & -> & W1) & _ & _ & _ & H1).
  destruct e1; try discriminate.
  destruct (cameras_run system base cams (w1 ++ fs)) as [[fs2 notes2] e2] eqn:E2.
  injection E as <- <- ->.
  destruct l as [|d l]; cbn in Hc; injection Hc as -> ->.
  - destruct (H1 eq_refl Hs) as (fx & fy & rows & A & B & H). exists fx, fy, rows; split; [exact A|split; [exact B|]].
    intros n Hn Hf. destruct (H n Hn Hf) as [[X Y]|(h & m & f & i & j & X & Y & Z & V & K)].
    + left; split; [exact X|apply in_or_app; auto].
    + right; exists h, m, f, i, j; split; [exact X|split; [exact Y|split; [exact Z|split; [exact V|]]]].
      rewrite <- K. apply (C243_sources system base r (w1 ++ fs) fs2 notes2 Finished (output c) n); [exact E2|].
      intros q Hq; apply Hr; exact Hq.
  - destruct (IH _ _ _ E2 l c r eq_refl Hs (fun q Hq => Hl q (or_intror Hq)) Hr) as (fx & fy & rows & A & B & H).
    assert (K : forall p, (forall n, is_image n -> p <> base ++ output d ++ [n]) -> lookup (w1 ++ fs) p = lookup fs p).
    { intros p Hp. rewrite lookup_app; destruct (lookup w1 p) as [a|] eqn:L; [|reflexivity].
      destruct (lookup_some w1 p) as (f & F & Fp); [congruence|].
      destruct (W1 f F) as (_ & k & j & I & _ & P & _). destruct (Hp k I); congruence. }
    assert (KF : forall n, lookup (w1 ++ fs) (base ++ folder c ++ [n]) = lookup fs (base ++ folder c ++ [n])).
    { intros n; apply K; intros k _ P. apply app_inv_head, app_inj_tail in P; destruct P as [P _].
      apply (Hl d (or_introl eq_refl)); congruence. }
    exists fx, fy, rows; split; [|split].
    + rewrite <- A; symmetry; apply K; intros n I P. unfold calibration_of in P.
      rewrite (app_assoc _ (output d)) in P.
      change [txt "calibration"; txt "mono_" ++ r_name c ++ txt ".yaml"] with ([txt "calibration"] ++ [txt "mono_" ++ r_name c ++ txt ".yaml"]) in P.
      rewrite (app_assoc base) in P. apply app_inj_tail in P. destruct P as [_ <-].
      rewrite (app_assoc (txt "mono_")) in I. exact (not_image_yaml _ I).
    + rewrite <- B; symmetry; apply K; intros n I P. unfold distances_of in P.
      rewrite (app_assoc _ (output d)) in P.
      change [txt "csv"; txt "ekf"; txt "auv_ekf_" ++ r_name c ++ txt ".csv"] with ([txt "csv"; txt "ekf"] ++ [txt "auv_ekf_" ++ r_name c ++ txt ".csv"]) in P.
      rewrite (app_assoc (distances c)), (app_assoc base) in P. apply app_inj_tail in P. destruct P as [_ <-].
      rewrite (app_assoc (txt "auv_ekf_")) in I. exact (not_image_csv _ I).
    + intros n Hn Hf. rewrite <- KF in Hf. destruct (H n Hn Hf) as [[X Y]|(h & m & f & i & j & X & Y & Z & V & P)].
      * left; split; [exact X|apply in_or_app; auto].
      * right; exists h, m, f, i, j. rewrite KF in Z. auto 10.
Qed.

(** When the command finishes, every camera of the configuration that is in camera.yaml has its calibration and its distances, and each of
    the images of its folder either has no row, of which there is a warning, or has its rescaled image in the output folder, as PNG, made
    from the image as it was when the command began, provided that the output folders of the cameras before are not its folder, and those of
    the cameras after are not its output folder. *)
Theorem C243_written : forall system base cams fs fs' notes, run system base (Some cams) fs = (fs', notes, Finished) ->
  forall l c r, cams = l ++ c :: r -> In (r_name c) system ->
  (forall d, In d l -> output d <> folder c) -> (forall d, In d r -> output d <> output c) ->
  exists fx fy rows, lookup fs (calibration_of base (r_name c)) = Some (Calibration fx fy) /\ lookup fs (distances_of base c) = Some (Distances rows) /\
    forall n, is_image n -> lookup fs (base ++ folder c ++ [n]) <> None ->
      (no_row rows n /\ In (No_distance n) notes)
      \/ (exists h m f i j, only_row rows n h /\ interp c = Some m /\ lookup fs (base ++ folder c ++ [n]) = Some (Picture f i) /\
           resampled m (FilesModel.rescale (maintain c) (fst (size i)) (snd (size i)) ((h / fx) / target c) ((h / fy) / target c)) i = Some j /\
           lookup fs' (base ++ output c ++ [n]) = Some (Picture PNG j)).
Proof. exact cameras_written. Qed.

(** The cameras that are not in camera.yaml are the ones of which there is a warning, when the command finishes; the last message is
    printed exactly when it finishes. *)
Theorem C243_missing : forall system base cams fs fs' notes x, run system base (Some cams) fs = (fs', notes, Finished) ->
  (In (Camera_missing x) notes <-> In x (map r_name cams) /\ ~ In x system).
Proof.
  intros system base cams fs fs' notes x; cbn. revert fs fs' notes; induction cams as [|c cams IH]; intros fs fs' notes; cbn [all_cameras map In].
  { intros [= <- <-]; cbn; intuition discriminate. }
  unfold after. destruct (camera_run system base c fs) as [[fs1 notes1] e1] eqn:E1.
  destruct (camera_step _ _ _ _ _ _ _ E1) as (_ & _ & A & B & _).
  destruct e1; try discriminate.
  destruct (cameras_run system base cams fs1) as [[fs2 notes2] e2] eqn:E2. intros [= <- <- ->].
  rewrite in_app_iff, (IH _ _ _ E2). split.
  - intros [H|H]; [destruct (A x H); subst; auto|tauto].
  - intros [[<-|H] K]; auto.
Qed.
Theorem C243_completed : forall system base cams fs fs' notes e, run system base cams fs = (fs', notes, e) ->
  (In All_completed notes <-> e = Finished).
Proof.
  intros system base [cams|] fs fs' notes e; cbn; [|intros [= <- <- <-]; cbn; intuition discriminate].
  revert fs fs' notes e; induction cams as [|c cams IH]; intros fs fs' notes e; cbn [all_cameras].
  { intros [= <- <- <-]; cbn; intuition. }
  unfold after. destruct (camera_run system base c fs) as [[fs1 notes1] e1] eqn:E1.
  destruct (camera_step _ _ _ _ _ _ _ E1) as (_ & A & _).
  destruct e1; try (intros [= <- <- <-]; intuition discriminate).
  destruct (cameras_run system base cams fs1) as [[fs2 notes2] e2] eqn:E2. intros [= <- <- <-].
  rewrite in_app_iff, (IH _ _ _ _ E2). tauto.
Qed.
(** Without a section rescale nothing is done. *)
Theorem C243_no_section : forall system base fs, run system base None fs = (fs, [], Quits).
Proof. reflexivity. Qed.

(** When the output folders are none of the image folders, running the command again gives the same files. *)
Definition unaffected (outs : list place) (base : place) (fs fs2 : files) : Prop :=
  (forall d n, ~ In d outs -> lookup fs2 (base ++ d ++ [n]) = lookup fs (base ++ d ++ [n])) /\
  (forall d n, ~ is_image n -> lookup fs2 (d ++ [n]) = lookup fs (d ++ [n])) /\
  (forall d, ~ In d outs -> names_in image fs2 (base ++ d) = names_in image fs (base ++ d)).
Lemma names_in_app : forall (w fs : files) outs names base d, only_in outs base names w -> ~ In d outs ->
  names_in image (w ++ fs) (base ++ d) = names_in image fs (base ++ d).
Proof.
  intros w fs outs names base d W D; unfold names_in; f_equal. rewrite flat_map_app.
  replace (flat_map _ w) with (@nil text); [reflexivity|]. symmetry.
  induction w as [|f w IH]; [reflexivity|]. cbn [flat_map]. rewrite IH by (intros g G; apply W; cbn; auto). rewrite app_nil_r.
  destruct (W f (or_introl eq_refl)) as (o & n & O & _ & _ & F & _). unfold name_in; rewrite F, app_assoc, rev_app_distr; cbn.
  destruct (place_eqb _ _) eqn:E; [|reflexivity]. apply place_eqb_iff in E. rewrite rev_involutive in E. apply app_inv_head in E. subst; contradiction.
Qed.
Lemma unaffected_refl : forall outs base fs, unaffected outs base fs fs. Proof. repeat split. Qed.
Lemma unaffected_app : forall outs base names w fs fs2, only_in outs base names w -> unaffected outs base fs fs2 -> unaffected outs base fs (w ++ fs2).
Proof.
  intros outs base names w fs fs2 W (A & B & C). split; [|split].
  - intros d n D. rewrite <- (A d n D), lookup_app. destruct (lookup w _) as [a|] eqn:L; [|reflexivity].
    destruct (lookup_some w (base ++ d ++ [n])) as (f & F & Fp); [congruence|].
    destruct (W f F) as (o & k & O & _ & _ & P & _). rewrite Fp in P. apply app_inv_head, app_inj_tail in P. destruct P as [<- _]; contradiction.
  - intros d n D. rewrite <- (B d n D), lookup_app. destruct (lookup w _) as [a|] eqn:L; [|reflexivity].
    destruct (lookup_some w (d ++ [n])) as (f & F & Fp); [congruence|].
    destruct (W f F) as (o & k & _ & _ & I & P & _). rewrite Fp, app_assoc in P. apply app_inj_tail in P. destruct P as [_ <-]; contradiction.
  - intros d D. rewrite <- (C d D). eapply names_in_app; eauto.
Qed.
Lemma images_local : forall outs c base fx fy rows names fs, Forall is_image names -> In (output c) outs -> ~ In (folder c) outs ->
  exists w notes e, only_in outs base names w /\ forall fs2, unaffected outs base fs fs2 -> images_run c base fx fy rows names fs2 = (w ++ fs2, notes, e).
Proof.
  intros outs c base fx fy rows names fs Hn Ho Hf. revert Hn; induction names as [|n names IH]; intros Hn; cbn [all_images].
  { exists [], [], Finished; split; [intros f []|reflexivity]. }
  inversion Hn as [|? ? I Hn']; subst. destruct (IH Hn') as (w & notes & e & W & R).
  assert (ST : exists w1 notes1 e1, only_in outs base [n] w1 /\ forall fs2, unaffected outs base fs fs2 -> image_run c base fx fy rows n fs2 = (w1 ++ fs2, notes1, e1)).
  { unfold one_image. destruct (altitude_for rows n) as [h| |].
    - destruct (lookup fs (base ++ folder c ++ [n])) as [[f i| | |]|] eqn:L;
        try (exists [], [], Raises; split; [intros f' []|intros fs2 (A & _); rewrite (A _ _ Hf), L; reflexivity]).
      destruct (interp c) as [m|]; [|exists [], [], Quits; split; [intros f' []|intros fs2 (A & _); rewrite (A _ _ Hf), L; reflexivity]].
      destruct (resampled m (scaled image size c fx fy h i) i) as [j|] eqn:R';
        [|exists [], [], Raises; split; [intros f' []|intros fs2 (A & _); rewrite (A _ _ Hf), L, R'; reflexivity]].
      exists [(base ++ output c ++ [n], Picture PNG j)], [], Finished; split; [|intros fs2 (A & _); rewrite (A _ _ Hf), L, R'; reflexivity].
      intros g [<-|[]]; exists (output c), n; cbn; eauto 8.
    - exists [], [No_distance n], Finished; split; [intros f' []|reflexivity].
    - destruct (lookup fs (base ++ folder c ++ [n])) as [[f i| | |]|] eqn:L;
        try (exists [], [], Raises; split; [intros f' []|intros fs2 (A & _); rewrite (A _ _ Hf), L; reflexivity]).
      destruct (interp c) as [m|]; [exists [], [], Raises|exists [], [], Quits]; (split; [intros f' []|intros fs2 (A & _); rewrite (A _ _ Hf), L; reflexivity]). }
  destruct ST as (w1 & notes1 & e1 & W1 & R1).
  assert (O1 : only_in outs base (n :: names) w1).
  { intros f F; destruct (W1 f F) as (o & k & A & [<-|[]] & C); exists o, n; cbn; auto. }
  destruct e1.
  - exists (w ++ w1), (notes1 ++ notes), e; split.
    + intros f F; apply in_app_or in F; destruct F as [F|F]; [|apply O1; exact F].
      destruct (W f F) as (o & k & A & B & C); exists o, k; cbn; auto.
    + intros fs2 U. rewrite (R1 fs2 U); cbn [after]. rewrite (R (w1 ++ fs2)); [rewrite app_assoc; reflexivity|].
      eapply unaffected_app; eauto.
  - exists w1, notes1, Quits; split; [exact O1|]. intros fs2 U. rewrite (R1 fs2 U); reflexivity.
  - exists w1, notes1, Raises; split; [exact O1|]. intros fs2 U. rewrite (R1 fs2 U); reflexivity.
Qed.
Lemma cameras_local : forall outs system base cams fs, (forall c, In c cams -> In (output c) outs /\ ~ In (folder c) outs) ->
  exists w notes e names, only_in outs base names w /\ forall fs2, unaffected outs base fs fs2 -> cameras_run system base cams fs2 = (w ++ fs2, notes, e).
Proof.
  intros outs system base cams fs; induction cams as [|c cams IH]; intros Hc; cbn [all_cameras].
  { exists [], [All_completed], Finished, []; split; [intros f []|reflexivity]. }
  destruct IH as (w & notes & e & names & W & R); [intros d D; apply Hc; cbn; auto|].
  destruct (Hc c (or_introl eq_refl)) as [Ho Hf].
  assert (ST : exists w1 notes1 e1 names1, only_in outs base names1 w1 /\ forall fs2, unaffected outs base fs fs2 -> camera_run system base c fs2 = (w1 ++ fs2, notes1, e1)).
  { unfold rescale_camera. destruct (negb _); [exists [], [Camera_missing (r_name c)], Finished, []; split; [intros f []|reflexivity]|].
    assert (L1 : forall fs2, unaffected outs base fs fs2 -> lookup fs2 (base ++ [txt "calibration"; txt "mono_" ++ r_name c ++ txt ".yaml"])
      = lookup fs (base ++ [txt "calibration"; txt "mono_" ++ r_name c ++ txt ".yaml"])).
    { intros fs2 (_ & B & _). change [txt "calibration"; txt "mono_" ++ r_name c ++ txt ".yaml"] with ([txt "calibration"] ++ [txt "mono_" ++ r_name c ++ txt ".yaml"]).
      rewrite (app_assoc base). apply B. rewrite (app_assoc (txt "mono_")). apply not_image_yaml. }
    assert (L2 : forall fs2, unaffected outs base fs fs2 -> lookup fs2 (base ++ distances c ++ [txt "csv"; txt "ekf"; txt "auv_ekf_" ++ r_name c ++ txt ".csv"])
      = lookup fs (base ++ distances c ++ [txt "csv"; txt "ekf"; txt "auv_ekf_" ++ r_name c ++ txt ".csv"])).
    { intros fs2 (_ & B & _). change [txt "csv"; txt "ekf"; txt "auv_ekf_" ++ r_name c ++ txt ".csv"] with ([txt "csv"; txt "ekf"] ++ [txt "auv_ekf_" ++ r_name c ++ txt ".csv"]).
      rewrite (app_assoc (distances c)), (app_assoc base). apply B. rewrite (app_assoc (txt "auv_ekf_")). apply not_image_csv. }
    destruct (lookup fs (base ++ [txt "calibration"; txt "mono_" ++ r_name c ++ txt ".yaml"])) as [[f i|fx fy|rows|]|];
      try (exists [], [], Raises, []; split; [intros f' []|intros fs2 U; rewrite (L1 fs2 U); reflexivity]);
      try (exists [], [], Quits, []; split; [intros f' []|intros fs2 U; rewrite (L1 fs2 U); reflexivity]).
    destruct (lookup fs (base ++ distances c ++ [txt "csv"; txt "ekf"; txt "auv_ekf_" ++ r_name c ++ txt ".csv"])) as [[f i|fx2 fy2|rows|]|];
      try (exists [], [], Raises, []; split; [intros f' []|intros fs2 U; rewrite (L1 fs2 U), (L2 fs2 U); reflexivity]).
    destruct (images_local outs c base fx fy rows (filter chosen (listed (names_in image fs (base ++ folder c)))) fs) as (w1 & notes1 & e1 & W1 & R1);
      [apply listed_nodup|exact Ho|exact Hf|].
    exists w1, notes1, e1, (filter chosen (listed (names_in image fs (base ++ folder c)))); split; [exact W1|].
    intros fs2 U. rewrite (L1 fs2 U), (L2 fs2 U). destruct U as (A & B & C). rewrite (C _ Hf). apply R1; repeat split; auto. }
  destruct ST as (w1 & notes1 & e1 & names1 & W1 & R1).
  destruct e1.
  - exists (w ++ w1), (notes1 ++ notes), e, (names1 ++ names); split.
    + intros f F; apply in_app_or in F; destruct F as [F|F];
        [destruct (W f F) as (o & k & A & B & C)|destruct (W1 f F) as (o & k & A & B & C)]; exists o, k; (split; [exact A|split; [apply in_or_app; auto|exact C]]).
    + intros fs2 U. rewrite (R1 fs2 U); cbn [after]. rewrite (R (w1 ++ fs2)); [rewrite app_assoc; reflexivity|].
      eapply unaffected_app; eauto.
  - exists w1, notes1, Quits, names1; split; [exact W1|]. intros fs2 U. rewrite (R1 fs2 U); reflexivity.
  - exists w1, notes1, Raises, names1; split; [exact W1|]. intros fs2 U. rewrite (R1 fs2 U); reflexivity.
Qed.
Theorem C243_again : forall system base cams fs fs' notes e, run system base (Some cams) fs = (fs', notes, e) ->
  (forall c d, In c cams -> In d cams -> output c <> folder d) ->
  exists fs'', run system base (Some cams) fs' = (fs'', notes, e) /\ forall p, lookup fs'' p = lookup fs' p.
Proof.
  intros system base cams fs fs' notes e E H; unfold call_rescale in *.
  destruct (cameras_local (map output cams) system base cams fs) as (w & notes1 & e1 & names & W & R).
  { intros c C; split; [apply in_map; exact C|]. rewrite in_map_iff; intros (d & D & Hd). exact (H d c Hd C D). }
  rewrite (R fs (unaffected_refl _ _ _)) in E. injection E as <- <- <-.
  exists (w ++ w ++ fs); split.
  - apply R. eapply unaffected_app; [exact W|apply unaffected_refl].
  - intros p. rewrite !lookup_app. destruct (lookup w p); reflexivity.
Qed.

(** When it finishes: every camera of camera.yaml with its calibration and its distances, a known method, and one row at most for each
    readable image. *)
Definition ready (base : place) (fs : files) (c : camera_rescale) : Prop :=
  exists fx fy rows m, lookup fs (calibration_of base (r_name c)) = Some (Calibration fx fy) /\ lookup fs (distances_of base c) = Some (Distances rows) /\
    interp c = Some m /\
    forall n, is_image n -> lookup fs (base ++ folder c ++ [n]) <> None ->
      no_row rows n \/ (exists h f i, only_row rows n h /\ lookup fs (base ++ folder c ++ [n]) = Some (Picture f i) /\
         resampled m (FilesModel.rescale (maintain c) (fst (size i)) (snd (size i)) ((h / fx) / target c) ((h / fy) / target c)) i <> None).
Lemma images_finish : forall outs c base fx fy rows m names fs fs2, Forall is_image names -> In (output c) outs -> ~ In (folder c) outs -> interp c = Some m ->
  unaffected outs base fs fs2 ->
  (forall n, In n names -> no_row rows n \/ (exists h f i, only_row rows n h /\ lookup fs (base ++ folder c ++ [n]) = Some (Picture f i) /\
         resampled m (FilesModel.rescale (maintain c) (fst (size i)) (snd (size i)) ((h / fx) / target c) ((h / fy) / target c)) i <> None)) ->
  exists w notes, only_in outs base names w /\ images_run c base fx fy rows names fs2 = (w ++ fs2, notes, Finished).
Proof.
  intros outs c base fx fy rows m names fs fs2 Hn Ho Hf Hm; revert Hn fs2; induction names as [|n names IH]; intros Hn fs2 U H; cbn [all_images].
  { exists [], []; split; [intros f []|reflexivity]. }
  inversion Hn as [|? ? I Hn']; subst.
  assert (ST : exists w1 notes1, only_in outs base [n] w1 /\ image_run c base fx fy rows n fs2 = (w1 ++ fs2, notes1, Finished)).
  { unfold one_image. destruct (H n (or_introl eq_refl)) as [X|(h & f & i & X & L & R)].
    - apply altitude_none in X; rewrite X. exists [], [No_distance n]; split; [intros f []|reflexivity].
    - apply altitude_only in X; rewrite X. destruct U as (A & _). rewrite (A _ _ Hf), L, Hm.
      unfold scaled, factor. destruct (resampled m _ i) as [j|]; [|congruence].
      exists [(base ++ output c ++ [n], Picture PNG j)], []; split; [|reflexivity].
      intros g [<-|[]]; exists (output c), n; cbn; eauto 8. }
  destruct ST as (w1 & notes1 & W1 & R1). rewrite R1; cbn [after].
  destruct (IH Hn' (w1 ++ fs2)) as (w & notes & W & R); [eapply unaffected_app; eauto|intros k K; apply H; cbn; auto|].
  rewrite R. exists (w ++ w1), (notes1 ++ notes); split; [|rewrite app_assoc; reflexivity].
  intros f F; apply in_app_or in F; destruct F as [F|F];
    [destruct (W f F) as (o & k & A & B & C)|destruct (W1 f F) as (o & k & A & [<-|[]] & C)]; [exists o, k|exists o, n]; cbn; auto.
Qed.
Theorem C243_finishes : forall system base cams fs, (forall c d, In c cams -> In d cams -> output c <> folder d) ->
  (forall c, In c cams -> In (r_name c) system -> ready base fs c) ->
  exists fs' notes, run system base (Some cams) fs = (fs', notes, Finished).
Proof.
  intros system base cams fs H Hr; unfold call_rescale.
  assert (G : forall cs fs2, (forall c, In c cs -> In c cams) -> unaffected (map output cams) base fs fs2 ->
    exists fs' notes, cameras_run system base cs fs2 = (fs', notes, Finished)).
  2: { apply (G cams fs); [auto|apply unaffected_refl]. }
  induction cs as [|c cs IH]; intros fs2 Hc U; cbn [all_cameras]; [eauto|].
  assert (C : In c cams) by (apply Hc; cbn; auto).
  assert (ST : exists w1 notes1 names1, only_in (map output cams) base names1 w1 /\ camera_run system base c fs2 = (w1 ++ fs2, notes1, Finished)).
  { unfold rescale_camera. destruct (text_in (r_name c) system) eqn:T; cbn [negb];
      [|exists [], [Camera_missing (r_name c)], []; split; [intros f []|reflexivity]].
    apply text_in_iff in T. destruct (Hr c C T) as (fx & fy & rows & m & L1 & L2 & Hm & Hi).
    unfold calibration_of in L1. unfold distances_of in L2.
    assert (U' := U). destruct U' as (A & B & N).
    replace (lookup fs2 (base ++ [txt "calibration"; txt "mono_" ++ r_name c ++ txt ".yaml"])) with (Some (@Calibration image fx fy)).
    2: { rewrite <- L1. change [txt "calibration"; txt "mono_" ++ r_name c ++ txt ".yaml"] with ([txt "calibration"] ++ [txt "mono_" ++ r_name c ++ txt ".yaml"]).
         rewrite (app_assoc base). symmetry; apply B. rewrite (app_assoc (txt "mono_")). apply not_image_yaml. }
    replace (lookup fs2 (base ++ distances c ++ [txt "csv"; txt "ekf"; txt "auv_ekf_" ++ r_name c ++ txt ".csv"])) with (Some (@Distances image rows)).
    2: { rewrite <- L2. change [txt "csv"; txt "ekf"; txt "auv_ekf_" ++ r_name c ++ txt ".csv"] with ([txt "csv"; txt "ekf"] ++ [txt "auv_ekf_" ++ r_name c ++ txt ".csv"]).
         rewrite (app_assoc (distances c)), (app_assoc base). symmetry; apply B. rewrite (app_assoc (txt "auv_ekf_")). apply not_image_csv. }
    assert (Ho : In (output c) (map output cams)) by (apply in_map; exact C).
    assert (Hf : ~ In (folder c) (map output cams)) by (rewrite in_map_iff; intros (d & D & Hd); exact (H d c Hd C D)).
    destruct (images_finish (map output cams) c base fx fy rows m (filter chosen (listed (names_in image fs2 (base ++ folder c)))) fs fs2)
      as (w1 & notes1 & W1 & R1); [apply listed_nodup|exact Ho|exact Hf|exact Hm|exact U| |eauto].
    intros n K; apply listed_iff in K. rewrite <- app_assoc, (A _ _ Hf) in K. apply Hi; tauto. }
  destruct ST as (w1 & notes1 & names1 & W1 & R1). rewrite R1; cbn [after].
  destruct (IH (w1 ++ fs2)) as (fs' & notes & R); [intros d D; apply Hc; cbn; auto|eapply unaffected_app; eauto|].
  rewrite R; eauto.
Qed.

(** The size of the rescaled image, if Pillow gives images of the size it is asked for: that of the source, or that of the ground it shows
    in pixels of the target size. *)
Hypothesis resampled_size : forall m p i j, resampled m p i = Some j -> size j = output_size p.
Theorem C243_size : forall system base cams fs fs' notes, run system base (Some cams) fs = (fs', notes, Finished) ->
  forall l c r n, cams = l ++ c :: r -> In (r_name c) system ->
  (forall d, In d l -> output d <> folder c) -> (forall d, In d r -> output d <> output c) ->
  is_image n -> lookup fs (base ++ folder c ++ [n]) <> None -> ~ In (No_distance n) notes ->
  exists fx fy rows h f i j, lookup fs (calibration_of base (r_name c)) = Some (Calibration fx fy) /\ lookup fs (distances_of base c) = Some (Distances rows) /\
    only_row rows n h /\ lookup fs (base ++ folder c ++ [n]) = Some (Picture f i) /\ lookup fs' (base ++ output c ++ [n]) = Some (Picture PNG j) /\
    (maintain c = true -> size j = size i) /\
    (maintain c = false -> fst (size j) = Qfloor (inject_Z (fst (size i)) * ((h / fx) / target c)) /\ snd (size j) = Qfloor (inject_Z (snd (size i)) * ((h / fy) / target c))).
Proof.
  intros system base cams fs fs' notes E l c r n Hc Hs Hl Hr Hn Hf Hw.
  destruct (C243_written _ _ _ _ _ _ E l c r Hc Hs Hl Hr) as (fx & fy & rows & C & D & H).
  destruct (H n Hn Hf) as [[_ X]|(h & m & f & i & j & A & _ & B & R & O)]; [contradiction|].
  exists fx, fy, rows, h, f, i, j. apply resampled_size in R.
  split; [exact C|split; [exact D|split; [exact A|split; [exact B|split; [exact O|split]]]]]; intros M; rewrite M in R.
  - rewrite R, C48_size_kept. symmetry; apply surjective_pairing.
  - rewrite R. cbn. auto.
Qed.
End Props.
Print Assumptions C243_frame.
Print Assumptions C243_sources.
Print Assumptions C243_others.
Print Assumptions C243_written.
Print Assumptions C243_missing.
Print Assumptions C243_completed.
Print Assumptions C243_no_section.
Print Assumptions C243_again.
Print Assumptions C243_finishes.
Print Assumptions C243_size.

(** Examples: images are their sizes. *)
Definition pil (m : interpolation) (p : plan) (i : Z * Z) : option (Z * Z) :=
  let '(w, h) := output_size p in if ((0 <? w)%Z && (0 <? h)%Z)%bool then Some (w, h) else None.
Definition command := call_rescale (Z * Z) (fun i => i) pil (fun l => l).
Definition base : place := [txt "processed"].
Definition cam (n : string) (from to : string) (keep : bool) : camera_rescale :=
  mkcr (txt n) [txt from] [txt "json"] (Some Bicubic) (1 # 100) keep [txt to].
Definition files0 : disk (content (Z * Z)) :=
  [ (base ++ [txt "calibration"; txt "mono_L.yaml"], Calibration 100 100);
    (base ++ [txt "calibration"; txt "mono_R.yaml"], Calibration 200 100);
    (base ++ [txt "json"; txt "csv"; txt "ekf"; txt "auv_ekf_L.csv"], Distances [(txt "image/L/a1.tif", 2); (txt "image/L/a2.tif", 4)]);
    (base ++ [txt "json"; txt "csv"; txt "ekf"; txt "auv_ekf_R.csv"], Distances [(txt "image/R/b1.tif", 4)]);
    (base ++ [txt "left"; txt "a1.png"], Picture PNG (100, 60)%Z); (base ++ [txt "left"; txt "a2.jpg"], Picture JPG (100, 60)%Z);
    (base ++ [txt "left"; txt "a3.png"], Picture PNG (100, 60)%Z); (base ++ [txt "left"; txt "a1.JPG"], Picture JPG (100, 60)%Z);
    (base ++ [txt "right"; txt "b1.tif"], Picture TIF (50, 50)%Z) ].
Definition disk_of (r : disk (content (Z * Z)) * list note * ending) := fst (fst r).
Definition notes_of (r : disk (content (Z * Z)) * list note * ending) := snd (fst r).
Definition end_of (r : disk (content (Z * Z)) * list note * ending) := snd r.
Definition both := command [txt "L"; txt "R"] base (Some [cam "L" "left" "small" false; cam "R" "right" "small" true]) files0.
Example both_end : end_of both = Finished /\ notes_of both = [No_distance (txt "a3.png"); All_completed]. Proof. vm_compute. auto. Qed.
Example both_files : lookup (disk_of both) (base ++ [txt "small"; txt "a1.png"]) = Some (Picture PNG (200, 120)%Z) /\
  lookup (disk_of both) (base ++ [txt "small"; txt "b1.tif"]) = Some (Picture PNG (50, 50)%Z) /\
  lookup (disk_of both) (base ++ [txt "small"; txt "a3.png"]) = None /\ lookup (disk_of both) (base ++ [txt "left"; txt "a1.png"]) = Some (Picture PNG (100, 60)%Z).
Proof. vm_compute. auto. Qed.
Example both_row : only_row [(txt "image/L/a1.tif", 2); (txt "image/L/a2.tif", 4)] (txt "a2.jpg") 4 /\ no_row [(txt "image/L/a1.tif", 2); (txt "image/L/a2.tif", 4)] (txt "a3.png").
Proof. split; [apply altitude_only|apply altitude_none]; reflexivity. Qed.
Example both_again : forall c d, In c [cam "L" "left" "small" false; cam "R" "right" "small" true] -> In d [cam "L" "left" "small" false; cam "R" "right" "small" true] -> output c <> folder d.
Proof. intros c d [<-|[<-|[]]] [<-|[<-|[]]]; discriminate. Qed.
Lemma pil_size : forall m p i j, pil m p i = Some j -> j = output_size p.
Proof. intros m p i j; unfold pil; destruct (output_size p) as [w h]; destruct (_ && _)%bool; congruence. Qed.
(** The hypotheses of the theorems hold of these. *)
Example both_written := C243_written (Z * Z) (fun i => i) pil (fun l => l) (fun l => Permutation_refl l) [txt "L"; txt "R"] base _ files0 _ _ (eq_refl : both = (disk_of both, notes_of both, Finished)).
Example both_size := C243_size (Z * Z) (fun i => i) pil (fun l => l) (fun l => Permutation_refl l) pil_size [txt "L"; txt "R"] base _ files0 _ _ (eq_refl : both = (disk_of both, notes_of both, Finished)).

(** C244: what one would expect and does not hold. *)
(** A camera of the configuration that is not in camera.yaml: "Rescaling completed for all cameras". *)
Theorem C244_completed_refuted : exists system base cams c fs fs' notes, command system base (Some cams) fs = (fs', notes, Finished) /\
  In All_completed notes /\ In c cams /\ lookup fs (base ++ folder c ++ [txt "a1.png"]) <> None /\ forall p, lookup fs' p = lookup fs p.
Proof.
  exists [txt "R"], base, [cam "L" "left" "small" false], (cam "L" "left" "small" false), files0, files0, [Camera_missing (txt "L"); All_completed].
  split; [reflexivity|]. split; [cbn; auto|]. split; [cbn; auto|]. split; [vm_compute; discriminate|reflexivity].
Qed.
(** The file of a name in .jpg is a JPEG file. *)
Theorem C244_format_refuted : exists system base cams fs fs' notes p i, command system base (Some cams) fs = (fs', notes, Finished) /\
  lookup fs p = None /\ lookup fs' p = Some (Picture PNG i) /\ exists d b, p = d ++ [b ++ txt ".jpg"].
Proof.
  exists [txt "L"], base, [cam "L" "left" "small" false], files0.
  remember (command [txt "L"] base (Some [cam "L" "left" "small" false]) files0) as r eqn:E.
  exists (disk_of r), (notes_of r), (base ++ [txt "small"; txt "a2.jpg"]), (400, 240)%Z.
  rewrite E; split; [reflexivity|]. split; [reflexivity|split; [reflexivity|]]. exists (base ++ [txt "small"]), (txt "a2"); reflexivity.
Qed.
(** Every image of the folder with a row is rescaled: a1.JPG is not, and nothing says so. *)
Theorem C244_extension_refuted : exists system base c fs fs' notes n i rows h, command system base (Some [c]) fs = (fs', notes, Finished) /\
  In (r_name c) system /\ lookup fs (base ++ folder c ++ [n]) = Some (Picture JPG i) /\ lookup fs (distances_of base c) = Some (Distances rows) /\ only_row rows n h /\
  lookup fs' (base ++ output c ++ [n]) = None /\ forall m, ~ In (No_distance m) notes \/ m <> n.
Proof.
  exists [txt "L"], base, (cam "L" "left" "small" false), files0.
  remember (command [txt "L"] base (Some [cam "L" "left" "small" false]) files0) as r eqn:E.
  exists (disk_of r), (notes_of r), (txt "a1.JPG"), (100, 60)%Z, [(txt "image/L/a1.tif", 2); (txt "image/L/a2.tif", 4)], 2.
  rewrite E; split; [reflexivity|]. split; [cbn; auto|split; [reflexivity|split; [reflexivity|split; [|split; [reflexivity|]]]]].
  - apply altitude_only; reflexivity.
  - intros m. destruct (list_eq_dec N.eq_dec m (txt "a1.JPG")) as [->|H]; [left; vm_compute; intuition discriminate|right; exact H].
Qed.
(** Running the command twice is like running it once: not when the output folder is the image folder. *)
Theorem C244_twice_refuted : exists system base c fs fs' notes fs'' notes' p, command system base (Some [c]) fs = (fs', notes, Finished) /\
  command system base (Some [c]) fs' = (fs'', notes', Finished) /\ lookup fs' p <> lookup fs p /\ lookup fs'' p <> lookup fs' p.
Proof.
  exists [txt "R"], base, (cam "R" "right" "right" false), files0.
  remember (command [txt "R"] base (Some [cam "R" "right" "right" false]) files0) as r eqn:E.
  exists (disk_of r), (notes_of r).
  remember (command [txt "R"] base (Some [cam "R" "right" "right" false]) (disk_of r)) as r' eqn:E'.
  exists (disk_of r'), (notes_of r'), (base ++ [txt "right"; txt "b1.tif"]).
  rewrite E', E; split; [reflexivity|split; [reflexivity|split; vm_compute; discriminate]].
Qed.
(** An image with a row of its own is rescaled: not when another stem occurs in its name. *)
Theorem C244_own_row_refuted : exists system base c fs fs' notes n rows h, command system base (Some [c]) fs = (fs', notes, Raises) /\
  lookup fs (distances_of base c) = Some (Distances rows) /\ NoDup (map (fun r => stem (fst r)) rows) /\ (exists p, In (p, h) rows /\ stem p = stem n) /\
  (exists f i, lookup fs (base ++ folder c ++ [n]) = Some (Picture f i)) /\ lookup fs' (base ++ output c ++ [n]) = None.
Proof.
  pose (rows := [(txt "a1.tif", 2); (txt "a12.tif", 2)]).
  pose (fs := [ (base ++ [txt "calibration"; txt "mono_L.yaml"], Calibration 100 100);
    (base ++ [txt "json"; txt "csv"; txt "ekf"; txt "auv_ekf_L.csv"], Distances rows); (base ++ [txt "left"; txt "a12.png"], Picture PNG (100, 60)%Z) ] : disk (content (Z * Z))).
  exists [txt "L"], base, (cam "L" "left" "small" false), fs, fs, [], (txt "a12.png"), rows, 2.
  split; [reflexivity|split; [reflexivity|split; [|split; [|split; [|reflexivity]]]]].
  - cbn. repeat constructor; cbn; intuition discriminate.
  - exists (txt "a12.tif"); split; [cbn; auto|reflexivity].
  - exists PNG, (100, 60)%Z; reflexivity.
Qed.
(** A missing calibration is found before anything is written. *)
Theorem C244_quits_late_refuted : exists system base cams fs fs' notes p, command system base (Some cams) fs = (fs', notes, Quits) /\ lookup fs' p <> lookup fs p.
Proof.
  exists [txt "L"; txt "C"], base, [cam "L" "left" "small" false; cam "C" "right" "small" false], files0.
  remember (command [txt "L"; txt "C"] base (Some [cam "L" "left" "small" false; cam "C" "right" "small" false]) files0) as r eqn:E.
  exists (disk_of r), (notes_of r), (base ++ [txt "small"; txt "a1.png"]). rewrite E; split; [reflexivity|vm_compute; discriminate].
Qed.
(** The images of two cameras are both kept: not with the same names and output folder. *)
Theorem C244_same_output_refuted : exists system base c d fs fs' notes n i j, command system base (Some [c; d]) fs = (fs', notes, Finished) /\
  r_name c <> r_name d /\ lookup (disk_of (command system base (Some [c]) fs)) (base ++ output c ++ [n]) = Some (Picture PNG i) /\
  lookup fs' (base ++ output c ++ [n]) = Some (Picture PNG j) /\ i <> j.
Proof.
  pose (fs := files0 ++ [(base ++ [txt "right"; txt "a1.png"], Picture PNG (50, 50)%Z);
     (base ++ [txt "json2"; txt "csv"; txt "ekf"; txt "auv_ekf_R.csv"], Distances [(txt "image/R/a1.tif", 4)])]).
  pose (d := mkcr (txt "R") [txt "right"] [txt "json2"] (Some Bicubic) (1 # 100) false [txt "small"]).
  exists [txt "L"; txt "R"], base, (cam "L" "left" "small" false), d, fs.
  remember (command [txt "L"; txt "R"] base (Some [cam "L" "left" "small" false; d]) fs) as r eqn:E.
  exists (disk_of r), (notes_of r), (txt "a1.png"), (200, 120)%Z, (100, 200)%Z.
  rewrite E; split; [reflexivity|split; [discriminate|split; [reflexivity|split; [reflexivity|discriminate]]]].
Qed.
(** An unknown method is refused: not when no image has a row. *)
Theorem C244_method_refuted : exists system base c fs fs' notes, interp c = None /\ In (r_name c) system /\ command system base (Some [c]) fs = (fs', notes, Finished).
Proof.
  exists [txt "R"], base, (mkcr (txt "R") [txt "left"] [txt "json"] None 1 false [txt "small"]), files0.
  remember (command [txt "R"] base (Some [mkcr (txt "R") [txt "left"] [txt "json"] None 1 false [txt "small"]]) files0) as r eqn:E.
  exists (disk_of r), (notes_of r). rewrite E; split; [reflexivity|split; [cbn; auto|reflexivity]].
Qed.
Print Assumptions C244_completed_refuted.
Print Assumptions C244_format_refuted.
Print Assumptions C244_extension_refuted.
Print Assumptions C244_twice_refuted.
Print Assumptions C244_own_row_refuted.
Print Assumptions C244_quits_late_refuted.
Print Assumptions C244_same_output_refuted.
Print Assumptions C244_method_refuted.
