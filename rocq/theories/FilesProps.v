(** C48: rescaling; C60: file selection; C61: writing images; C75: the list of written
    images. *)
From Coq Require Import Ascii String Qround Permutation Qfield.
From Verif Require Import PyBase NmeaModel NmeaProofs CsvModel FilesModel.
Open Scope list_scope.

Lemma text_in_iff : forall s l, text_in s l = true <-> In s l.
Proof.
  intros s l. unfold text_in. rewrite existsb_exists. split.
  - intros (x & I & E). apply text_eqb_iff in E. now subst.
  - intros I. exists s. split; [exact I|now apply text_eqb_iff].
Qed.

(** ** Specification of a stem: directory / stem . extension *)
Definition plain (s : text) : Prop := ~ In slash s.
Lemma split_app_any : forall sep a b, split sep (a ++ sep :: b) = split sep a ++ split sep b.
Proof.
  intros sep. induction a as [|c a IH]; intros b; cbn [app split].
  - now rewrite N.eqb_refl.
  - rewrite IH. destruct (N.eqb c sep); [reflexivity|]. destruct (split_nonempty sep a) as (w & ws & ->). reflexivity.
Qed.
Lemma name_dir : forall dir base, plain base -> base <> [] -> base <> [dot] -> name (dir ++ slash :: base) = base.
Proof.
  intros dir base P N D. unfold name. rewrite split_app_any, (split_none slash base) by exact P.
  rewrite filter_app. cbn [filter].
  assert ((negb (text_eqb base [] || text_eqb base [dot])) = true) as ->.
  { destruct (text_eqb base []) eqn:E; [apply text_eqb_iff in E; congruence|]. destruct (text_eqb base [dot]) eqn:F; [apply text_eqb_iff in F; congruence|reflexivity]. }
  now rewrite last_last.
Qed.
Lemma name_plain : forall base, plain base -> base <> [] -> base <> [dot] -> name base = base.
Proof.
  intros base P N D. unfold name. rewrite split_none by exact P. cbn [filter].
  assert ((negb (text_eqb base [] || text_eqb base [dot])) = true) as ->.
  { destruct (text_eqb base []) eqn:E; [apply text_eqb_iff in E; congruence|]. destruct (text_eqb base [dot]) eqn:F; [apply text_eqb_iff in F; congruence|reflexivity]. }
  reflexivity.
Qed.
Lemma rfind_last : forall a b, ~ In dot b -> rfind dot (a ++ dot :: b) = Some (length a).
Proof.
  assert (forall b, ~ In dot b -> rfind dot b = None) as N.
  { induction b as [|x b IH]; intros H; [reflexivity|]. cbn [rfind]. rewrite IH by (intros I; apply H; now right).
    destruct (N.eqb_spec x dot) as [->|]; [exfalso; apply H; now left|reflexivity]. }
  induction a as [|x a IH]; intros b H; cbn [app rfind length]; [now rewrite N, N.eqb_refl|]. now rewrite IH.
Qed.
Lemma stem_of_name : forall p base ext, name p = base ++ dot :: ext -> base <> [] -> ext <> [] -> ~ In dot ext -> stem p = base.
Proof.
  intros p base ext E B X D. unfold stem. rewrite E, rfind_last by exact D. rewrite app_length. cbn [length].
  destruct base as [|x base]; [congruence|]. destruct ext as [|y ext]; [congruence|]. cbn [length].
  destruct (Nat.ltb_spec 0 (S (length base))); [|lia]. destruct (Nat.ltb_spec (S (length base)) (S (length base) + S (S (length ext)) - 1)); [|lia].
  cbn [andb]. change (S (length base)) with (length (x :: base)). now rewrite firstn_app, firstn_all, Nat.sub_diag, firstn_O, app_nil_r.
Qed.

(** ** C60 *)
(** The stem of dir/base.ext is base, whatever the directory and the extension. *)
Theorem C60_stem : forall dir base ext, plain base -> plain ext -> base <> [] -> ext <> [] -> ~ In dot ext ->
  stem (dir ++ slash :: base ++ dot :: ext) = base /\ stem (base ++ dot :: ext) = base.
Proof.
  intros dir base ext P1 P2 B X D.
  assert (plain (base ++ dot :: ext)) as P. { intros I. apply in_app_iff in I as [I|[I|I]]; [now apply P1|discriminate|now apply P2]. }
  assert (base ++ dot :: ext <> []) as N1 by (destruct base; discriminate).
  assert (base ++ dot :: ext <> [dot]) as N2 by (destruct base as [|x [|y base]]; [congruence|discriminate|discriminate]).
  split; apply (stem_of_name _ _ ext); try assumption; [now apply name_dir|now apply name_plain].
Qed.
Print Assumptions C60_stem.
(** Exactly the rows whose stem is that of a line of the list, in order. *)
Definition listed (lines : list text) (path : text) : Prop := exists line, In line lines /\ stem line = stem path.
Theorem C60_trim : forall R (lines : list text) (rows : list (text * R)),
  (forall r, In r (trim lines rows) <-> In r rows /\ listed lines (fst r)) /\
  exists keep, trim lines rows = filter keep rows.
Proof.
  intros R lines rows. split; [|eexists; reflexivity]. intros r. unfold trim. rewrite filter_In, text_in_iff, filter_In, text_in_iff, !in_map_iff.
  unfold listed. split.
  - intros (I & _ & line & E & J). split; [exact I|]. exists line. now split.
  - intros (I & line & J & E). split; [exact I|]. split; [exists r; now split|]. exists line. now split.
Qed.
Print Assumptions C60_trim.
(** A list that gives the stem itself, without extension, misses images whose stem contains a
    dot. *)
Theorem C160_bare_stem_refuted : exists lines path, In (stem path) lines /\ trim lines [(path, tt)] = [].
Proof. exists [txt "20180101_120000.123"], (txt "image/20180101_120000.123.png"). split; [now left|reflexivity]. Qed.
Print Assumptions C160_bare_stem_refuted.
(** The rescaling matches by substring instead: image_1 is taken for image_12. *)
Theorem C160_substring_refuted : exists rows image h, altitude_for rows image = Altitude h /\ forall r, In r rows -> stem (fst r) <> stem image.
Proof. exists [(txt "image_1.png", 3%Q)], (txt "image_12.png"), 3%Q. split; [reflexivity|]. intros r [<-|[]]. discriminate. Qed.
Print Assumptions C160_substring_refuted.
Example C60_example : trim [txt "list/a.jpg"; txt "b"] [(txt "raw/a.png", 1%N); (txt "raw/ab.png", 2%N); (txt "b.tif", 3%N)] = [(txt "raw/a.png", 1%N); (txt "b.tif", 3%N)].
Proof. reflexivity. Qed.

(** ** C48 *)
Local Open Scope Q_scope.
Local Open Scope list_scope.
(** The box is centred, lies in the image and is at most one pixel wider than asked for. *)
Lemma half_bounds : forall n, (0 <= n -> 2 * half n <= n /\ n <= 2 * half n + 1 /\ 0 <= half n)%Z.
Proof. intros n H. unfold half. rewrite Z.quot_div_nonneg by lia. pose proof (Z.div_mod n 2). pose proof (Z.mod_pos_bound n 2). lia. Qed.
Lemma crop_bounds : forall w r, (0 <= w)%Z -> 1 <= r -> (0 <= Qfloor ((1 / r) * zq w) <= w)%Z.
Proof.
  intros w r W R. assert (0 <= zq w) as Z0 by (unfold zq, Qle; cbn; lia).
  assert (0 <= 1 / r) as I0 by (apply Qle_shift_div_l; lra). assert (1 / r <= 1) as I1 by (apply Qle_shift_div_r; lra).
  assert (0 <= (1 / r) * zq w) as P by (apply Qmult_le_0_compat; assumption).
  assert ((1 / r) * zq w <= zq w) as Q by (rewrite <- (Qmult_1_l (zq w)) at 2; apply Qmult_le_compat_r; assumption).
  apply Qfloor_resp_le in P, Q. unfold zq in Q at 2. rewrite Qfloor_Z in Q. exact (conj P Q).
Qed.
Theorem C48_crop_inside : forall w h hr vr left upper right lower w' h', (0 <= w)%Z -> (0 <= h)%Z ->
  rescale true w h hr vr = CropUp left upper right lower w' h' ->
  (0 <= left <= right /\ right <= w /\ 0 <= upper <= lower /\ lower <= h)%Z /\
  (left = w - right /\ upper = h - lower)%Z /\ w' = w /\ h' = h /\
  (inject_Z (right - left) <= zq w / hr + 1) /\ (zq w / hr < inject_Z (right - left) + 1).
Proof.
  intros w h hr vr left upper right lower w' h' W H E. unfold rescale in E.
  destruct (Qltb vr 1) eqn:V; [discriminate|]. destruct (Qltb hr 1) eqn:HH; [discriminate|]. apply Qltb_ge in V, HH.
  cbn [orb] in E. pose proof (crop_bounds w hr W HH) as CW. pose proof (crop_bounds h vr H V) as CH.
  remember (Qfloor ((1 / hr) * zq w)) as cw eqn:CE. remember (Qfloor ((1 / vr) * zq h)) as ch eqn:CE'. injection E as <- <- <- <- <- <-.
  pose proof (half_bounds (w - cw) ltac:(lia)) as B1. pose proof (half_bounds (h - ch) ltac:(lia)) as B2.
  assert ((1 / hr) * zq w == zq w / hr) as EQ by (field; lra).
  pose proof (Qfloor_le ((1 / hr) * zq w)) as F1. pose proof (Qlt_floor ((1 / hr) * zq w)) as F2. rewrite <- CE in F1, F2. rewrite EQ in F1, F2.
  rewrite inject_Z_plus in F2. change (inject_Z 1) with 1 in F2.
  assert ((cw <= w - half (w - cw) - half (w - cw) <= cw + 1)%Z) as SZ by lia.
  split; [lia|]. split; [lia|]. split; [reflexivity|]. split; [reflexivity|].
  destruct SZ as [S1 S2]. rewrite Zle_Qle in S1, S2. rewrite inject_Z_plus in S2. change (inject_Z 1) with 1 in S2. split; lra.
Qed.
Print Assumptions C48_crop_inside.
(** Maintaining the pixels keeps the size of the image. *)
Theorem C48_size_kept : forall w h hr vr, output_size (rescale true w h hr vr) = (w, h).
Proof. intros w h hr vr. unfold rescale. destruct (_ || _)%bool; reflexivity. Qed.
Print Assumptions C48_size_kept.
(** Otherwise the new image covers the same ground with pixels of the target size, up to one
    pixel; it is empty exactly when less than one target pixel is covered. *)
Theorem C48_footprint : forall w h altitude fx fy target w' h', 0 < fx -> 0 < fy -> 0 < target ->
  rescale false w h (factor altitude fx target) (factor altitude fy target) = Resize w' h' ->
  inject_Z w' * target <= zq w * (altitude / fx) /\ zq w * (altitude / fx) < (inject_Z w' + 1) * target.
Proof.
  intros w h alt fx fy t w' h' FX FY T E. unfold rescale in E. cbn [fst snd] in E. injection E as <- _.
  pose proof (Qfloor_le (zq w * factor alt fx t)) as F1. pose proof (Qlt_floor (zq w * factor alt fx t)) as F2.
  rewrite inject_Z_plus in F2. change (inject_Z 1) with 1 in F2.
  assert (zq w * (alt / fx) == (zq w * factor alt fx t) * t) as -> by (unfold factor; field; split; lra).
  split; [apply Qmult_le_compat_r; [exact F1|lra]|apply Qmult_lt_r; assumption].
Qed.
Print Assumptions C48_footprint.
Theorem C48_nonempty : forall w h hr vr, (0 < w)%Z -> (0 < h)%Z -> 1 <= zq w * hr -> 1 <= zq h * vr ->
  let '(w', h') := output_size (rescale false w h hr vr) in (0 < w' /\ 0 < h')%Z.
Proof.
  intros w h hr vr W H A B. cbn [rescale output_size fst snd]. apply Qfloor_resp_le in A, B. change (Qfloor 1) with 1%Z in *. lia.
Qed.
Print Assumptions C48_nonempty.
Theorem C148_empty_refuted : exists w h hr vr, (0 < w)%Z /\ (0 < h)%Z /\ 0 < hr /\ 0 < vr /\ rescale false w h hr vr = Resize 0 0.
Proof. exists 5%Z, 5%Z, (1 # 10), (1 # 10). repeat split. Qed.
Print Assumptions C148_empty_refuted.
(** Far away the crop box is empty for an even size. *)
Theorem C148_empty_crop_refuted : exists w h hr vr left upper lower, (0 < w)%Z /\ (0 < h)%Z /\ 0 < hr /\ 0 < vr /\
  rescale true w h hr vr = CropUp left upper left lower w h.
Proof. exists 4%Z, 4%Z, 5, 1. do 3 eexists. repeat split. Qed.
Print Assumptions C148_empty_crop_refuted.
(** [occurs a b]: the text [a] is somewhere in [b]. *)
Definition occurs (a b : text) : Prop := exists u v, b = u ++ a ++ v.
Lemma prefix_iff : forall a b, prefix a b = true <-> exists v, b = a ++ v.
Proof.
  induction a as [|x a IH]; intros [|y b]; cbn [prefix]; split; intros H; try reflexivity; try discriminate.
  - now exists []. - now exists (y :: b). - destruct H as [v E]; discriminate.
  - apply andb_true_iff in H as [H1 H2]. apply N.eqb_eq in H1 as ->. apply IH in H2 as [v ->]. now exists v.
  - destruct H as [v E]. injection E as -> ->. rewrite N.eqb_refl. apply IH. now exists v.
Qed.
Lemma contains_iff : forall a b, contains a b = true <-> occurs a b.
Proof.
  intros a. induction b as [|y b IH]; cbn [contains]; rewrite orb_true_iff, prefix_iff.
  - split; [intros [[v E]|H]; [now exists [], v|discriminate]|]. intros (u & v & E). left. exists v. destruct u; [exact E|discriminate].
  - rewrite IH. split.
    + intros [[v E]|(u & v & ->)]; [now exists [], v|now exists (y :: u), v].
    + intros ([|z u] & v & E); [left; now exists v|]. injection E as _ ->. right. now exists u, v.
Qed.
(** The altitude: the image's own row, if no other row's stem occurs in the image's name. *)
Lemma own_altitude : forall rows image p h, In (p, h) rows -> NoDup (map fst rows) -> contains (stem p) image = true ->
  (forall p' h', In (p', h') rows -> contains (stem p') image = true -> p' = p) -> altitude_for rows image = Altitude h.
Proof.
  intros rows image p h I N C U. unfold altitude_for.
  assert (forall r : text * Q, text_in (fst r) (filter (fun q => contains (stem q) image) (map fst rows)) = true <-> In (fst r) (map fst rows) /\ contains (stem (fst r)) image = true) as T
    by (intros r; now rewrite text_in_iff, filter_In).
  set (f := fun r : text * Q => text_in (fst r) (filter (fun q => contains (stem q) image) (map fst rows))) in *.
  assert (forall r, In r rows -> (f r = true <-> fst r = p)) as F.
  { intros [p' h'] J. unfold f; rewrite (T (p', h')). cbn [fst]. split; [intros [_ K]; exact (U _ _ J K)|]. intros ->. split; [now apply (in_map fst) in J|exact C]. }
  clearbody f. clear T U C. revert N I F. induction rows as [|[p' h'] rows IH]; intros N I F; [destruct I|]. cbn [map fst] in N. inversion_clear N as [|? ? N1 N2].
  cbn [filter]. destruct I as [I|I].
  - injection I as -> ->. destruct (f (p, h)) eqn:E; [|exfalso; destruct (F (p, h)) as [_ K]; [now left|]; rewrite K in E; [discriminate|reflexivity]].
    assert (filter f rows = []) as ->; [|reflexivity]. clear - N1 F. assert (forall r, In r rows -> f r = false) as K.
    { intros r J. destruct (f r) eqn:E; [|reflexivity]. exfalso. apply (F r (or_intror J)) in E. apply N1. rewrite <- E. now apply in_map. }
    clear - K. induction rows as [|r rows IH]; [reflexivity|]. cbn [filter]. rewrite K by now left. apply IH. intros s J. apply K. now right.
  - destruct (f (p', h')) eqn:E.
    + apply (F (p', h')) in E; [|now left]. cbn [fst] in E. subst p'. exfalso. apply N1. apply (in_map fst) in I. exact I.
    + apply IH; [exact N2|exact I|]. intros r J. apply F. now right.
Qed.
Theorem C48_own_altitude : forall rows image p h, In (p, h) rows -> NoDup (map fst rows) -> occurs (stem p) image ->
  (forall p' h', In (p', h') rows -> occurs (stem p') image -> p' = p) -> altitude_for rows image = Altitude h.
Proof. intros rows image p h I N C U. apply (own_altitude rows image p h I N); [now apply contains_iff|]. intros p' h' J K. apply (U p' h' J). now apply contains_iff. Qed.
Print Assumptions C48_own_altitude.
(** No row whose stem occurs in the name: the image is skipped. *)
Theorem C48_no_altitude : forall rows image, (forall p h, In (p, h) rows -> ~ occurs (stem p) image) -> altitude_for rows image = NoDistance.
Proof.
  intros rows image H. unfold altitude_for. assert (filter (fun p => contains (stem p) image) (map fst rows) = []) as ->.
  { assert (forall p, In p (map fst rows) -> contains (stem p) image = false) as K.
    { intros p I. apply in_map_iff in I as ([p' h] & <- & I). cbn [fst]. destruct (contains (stem p') image) eqn:E; [|reflexivity]. apply contains_iff in E. now elim (H p' h I). }
    clear H. induction (map fst rows) as [|p l IH]; [reflexivity|]. cbn [filter]. rewrite K by now left. apply IH. intros q I. apply K. now right. }
  cbn. induction rows as [|r rows IH]; [reflexivity|]. cbn [filter]. apply IH. intros p h I. apply (H p h). now right.
Qed.
Print Assumptions C48_no_altitude.
Theorem C148_ambiguous_refuted : exists rows image, In (txt "image_12.png", 5%Q) rows /\ image = txt "image_12.png" /\ NoDup (map fst rows) /\ altitude_for rows image = Ambiguous.
Proof.
  exists [(txt "image_1.png", 3%Q); (txt "image_12.png", 5%Q)], (txt "image_12.png"). split; [right; now left|]. split; [reflexivity|]. split; [|reflexivity].
  repeat constructor; cbn; intuition discriminate.
Qed.
Print Assumptions C148_ambiguous_refuted.
Example C48_example : rescale true 100 80 2 2 = CropUp 25 20 75 60 100 80 /\ rescale false 100 80 (1 # 2) (1 # 2) = Resize 50 40.
Proof. split; reflexivity. Qed.

(** ** C61 *)
Lemma attempts_spec : forall reads fuel i n ok, attempts reads fuel i = (n, ok) ->
  (i <= n)%nat /\ (n <= i + fuel)%nat /\ (forall k, (i <= k)%nat -> (k < n)%nat -> reads k = false) /\ (if ok then reads n = true /\ (n < i + fuel)%nat else n = (i + fuel)%nat).
Proof.
  intros reads. induction fuel as [|fuel IH]; intros i n ok E; cbn [attempts] in E.
  - injection E as <- <-. repeat split; try lia.
  - destruct (reads i) eqn:R; [injection E as <- <-; repeat split; try lia; exact R|].
    apply IH in E as (A & B & C & D). split; [lia|]. split; [lia|]. split.
    + intros k K1 K2. destruct (Nat.eq_dec k i) as [->|]; [exact R|apply C; lia].
    + destruct ok; [destruct D; split; [assumption|lia]|lia].
Qed.
(** At most five attempts, ending at the first success. *)
Theorem C61_attempts : forall reads, exists n, write_calls reads = n /\ (1 <= n <= 5)%nat /\
  (forall k, (S k < n)%nat -> reads k = false) /\ ((n < 5)%nat -> reads (n - 1)%nat = true).
Proof.
  intros reads. unfold write_calls. destruct (attempts reads max_tries 0) as [n ok] eqn:E. apply attempts_spec in E as (_ & B & C & D). unfold max_tries in *.
  destruct ok; eexists; (split; [reflexivity|]).
  - destruct D as [D1 D2]. split; [lia|]. split; [intros k K; apply C; lia|]. intros _. now replace (S n - 1)%nat with n by lia.
  - subst n. cbn [Nat.add] in *. split; [lia|]. split; [intros k K; apply C; lia|lia].
Qed.
Print Assumptions C61_attempts.
(** The error is reported exactly when all five attempts failed. *)
Theorem C61_error_reported : forall reads, write_output_image reads = Path true <-> forall k, (k < 5)%nat -> reads k = false.
Proof.
  intros reads. unfold write_output_image. destruct (attempts reads max_tries 0) as [n ok] eqn:E. apply attempts_spec in E as (_ & B & C & D). unfold max_tries in *.
  destruct (Nat.leb_spec 5 n).
  - split; [|reflexivity]. intros _ k K. apply C; lia.
  - destruct ok; [|lia]. destruct D as [D _]. destruct (Nat.ltb_spec 0 n); (split; [discriminate|]); intros K; rewrite K in D by lia; discriminate.
Qed.
Print Assumptions C61_error_reported.
(** But the caller gets the same path as after a success... *)
Definition returned (w : written) : option unit := match w with Path _ => Some tt | AttributeError => None end.
Theorem C161_caller_told_refuted : exists bad good, (forall k, bad k = false) /\ (forall k, good k = true) /\
  returned (write_output_image bad) = returned (write_output_image good).
Proof. exists (fun _ => false), (fun _ => true). repeat split. Qed.
Print Assumptions C161_caller_told_refuted.
(** ...and a write that succeeds on a later attempt raises. *)
Theorem C161_recovered_write_refuted : exists reads, reads 1%nat = true /\ write_output_image reads = AttributeError.
Proof. exists (fun k => (0 <? k)%nat). split; reflexivity. Qed.
Print Assumptions C161_recovered_write_refuted.
Theorem C161_recovered_writes_raise : forall reads k, (1 <= k < 5)%nat -> reads k = true -> (forall j, (j < k)%nat -> reads j = false) -> write_output_image reads = AttributeError.
Proof.
  intros reads k K R F. unfold write_output_image. destruct (attempts reads max_tries 0) as [n ok] eqn:E. apply attempts_spec in E as (_ & B & C & D). unfold max_tries in *.
  assert (n <= k)%nat as N. { destruct (Nat.le_gt_cases n k) as [|G]; [assumption|]. rewrite C in R by lia. discriminate. }
  destruct ok; [|lia]. destruct D as [D _]. destruct (Nat.leb_spec 5 n); [lia|]. destruct (Nat.ltb_spec 0 n); [reflexivity|]. assert (n = 0)%nat as -> by lia. rewrite F in D by lia. discriminate.
Qed.
Print Assumptions C161_recovered_writes_raise.
Example C61_example : write_output_image (fun _ => true) = Path false /\ write_calls (fun k => (2 <? k)%nat) = 4%nat.
Proof. split; reflexivity. Qed.

(** ** C75 *)
(** Every row of filelist.csv carries the navigation of a row whose image was written, under
    the name of a written image with that stem; every such row is there, in order. *)
Theorem C75_filelist : forall R done (rows : list (text * R)) out raw r, In (out, raw, r) (filelist done rows) <->
  In (raw, r) rows /\ exists before p after, done = before ++ p :: after /\ out = name p /\ stem p = stem raw /\ forall q, In q before -> stem q <> stem raw.
Proof.
  intros R done rows out raw r. unfold filelist. rewrite in_flat_map. split.
  - intros ([raw' r'] & I & H). cbn [fst snd] in H. destruct (find _ done) as [p|] eqn:F; [|destruct H]. destruct H as [H|[]]. injection H as <- <- <-. split; [exact I|].
    clear I. induction done as [|q done IH]; [discriminate|]. cbn [find] in F. destruct (text_eqb (stem q) (stem raw')) eqn:E.
    + injection F as <-. exists [], q, done. apply text_eqb_iff in E. repeat split; [exact E|intros ? []].
    + destruct (IH F) as (b & p' & a & -> & N & S & Q). exists (q :: b), p', a. repeat split; try assumption. intros x [<-|J]; [|now apply Q].
      intros K. apply text_eqb_iff in K. congruence.
  - intros (I & b & p & a & -> & -> & S & Q). exists (raw, r). split; [exact I|]. cbn [fst snd].
    assert (find (fun q => text_eqb (stem q) (stem raw)) (b ++ p :: a) = Some p) as ->; [|now left].
    clear I. induction b as [|q b IH]; cbn [app find].
    + apply text_eqb_iff in S. now rewrite S.
    + destruct (text_eqb (stem q) (stem raw)) eqn:E; [apply text_eqb_iff in E; exfalso; now apply (Q q (or_introl eq_refl))|]. apply IH. intros x J. apply Q. now right.
Qed.
Print Assumptions C75_filelist.
(** Two raw images with the same stem in different folders: both rows get the first one's
    corrected image (and on disk the second overwrote it). *)
Theorem C175_same_stem_refuted : exists rows done : list text, NoDup rows /\ length (filelist done (map (fun p => (p, tt)) rows)) = 2%nat /\
  exists out, map (fun x => fst (fst x)) (filelist done (map (fun p => (p, tt)) rows)) = [out; out].
Proof.
  exists [txt "a/1.raw"; txt "b/1.raw"], [txt "out/1.png"; txt "out/1.png"]. split; [repeat constructor; cbn; intuition discriminate|]. split; [reflexivity|]. eexists. reflexivity.
Qed.
Print Assumptions C175_same_stem_refuted.
Example C75_example : filelist [txt "out/2.png"; txt "out/1.png"] [(txt "raw/1.tif", 1%N); (txt "raw/2.tif", 2%N); (txt "raw/3.tif", 3%N)] =
  [(txt "1.png", txt "raw/1.tif", 1%N); (txt "2.png", txt "raw/2.tif", 2%N)].
Proof. reflexivity. Qed.
