(** Property C231 and its refuted sibling C232: navigation files for users and statistics of images. *)
From Coq Require Import Ascii String Qround Qminmax Permutation Reals Lra Psatz.
From Verif Require Import PyBase InterpSpec NmeaModel NmeaProofs CsvModel FilesModel FilesProps CamSysModel CamSysProps NavFileModel SortQ.
Open Scope list_scope.

(** The name of a file ends with the extension. *)
Definition with_ext (ext n : text) : Prop := exists base, n = base ++ ext.
Definition png : text := map (fun c => N.of_nat (nat_of_ascii c)) (list_ascii_of_string ".png").
Definition jpg : text := map (fun c => N.of_nat (nat_of_ascii c)) (list_ascii_of_string ".jpg").
(** The images of a folder are of one kind, with the extension [ext]. *)
Definition kind (names : list text) (ext : text) : Prop :=
  (ext = png /\ (forall n, In n names -> ~ with_ext jpg n) \/ ext = jpg /\ forall n, In n names -> ~ with_ext png n) /\ exists n, In n names /\ with_ext ext n.
Definition sorts (sort : list row -> list row) : Prop := forall l, Permutation l (sort l) /\ nondecreasing (fun r => r_cell r "timestamp [s]"%string) (sort l).
(** [sel]: the rows of the table for which there is an image, each as often as in the table, by time *)
Definition chosen_rows (rows : list row) (ok : row -> Prop) (sel : list row) : Prop :=
  nondecreasing (fun r => r_cell r "timestamp [s]"%string) sel /\ exists other, Permutation rows (sel ++ other) /\ Forall ok sel /\ Forall (fun r => ~ ok r) other.
Lemma ext_filter : forall ext names, filter (ends_with ext) names = [] <-> forall n, In n names -> ~ with_ext ext n.
Proof.
  intros ext names. split.
  - intros E n I W. apply ends_with_iff in W. assert (In n (filter (ends_with ext) names)) as K by (now apply filter_In). rewrite E in K. destruct K.
  - intros H. induction names as [|n names IH]; [reflexivity|]. cbn. destruct (ends_with ext n) eqn:W; [exfalso; apply (H n (or_introl eq_refl)); now apply ends_with_iff|]. apply IH. intros m M. apply H. now right.
Qed.
Lemma ext_some : forall ext names x l, filter (ends_with ext) names = x :: l -> exists n, In n names /\ with_ext ext n.
Proof. intros ext names x l E. exists x. assert (In x (filter (ends_with ext) names)) as K by (rewrite E; now left). apply filter_In in K as [K1 K2]. split; [exact K1|now apply ends_with_iff]. Qed.
Lemma sel_filter : forall sort (f : row -> bool) (ok : row -> Prop) rows, sorts sort -> (forall r, f r = true <-> ok r) -> chosen_rows rows ok (sort (filter f rows)).
Proof.
  intros sort f ok rows S H. destruct (S (filter f rows)) as [P N]. split; [exact N|]. exists (filter (fun r => negb (f r)) rows). split; [|split].
  - transitivity (filter f rows ++ filter (fun r => negb (f r)) rows); [|now apply Permutation_app_tail]. clear. induction rows as [|r rows IH]; [constructor|]. cbn. destruct (f r); cbn; [now constructor|]. now apply Permutation_cons_app.
  - apply Forall_forall. intros r R. apply Permutation_in with (l' := filter f rows) in R; [|now symmetry]. apply filter_In in R. now apply H.
  - apply Forall_forall. intros r R. apply filter_In in R as [_ R]. intros K. apply H in K. now rewrite K in R.
Qed.
Lemma no_kind : forall names, (filter (ends_with png) names = [] /\ filter (ends_with jpg) names = []) \/ (filter (ends_with png) names <> [] /\ filter (ends_with jpg) names <> []) -> forall ext, ~ kind names ext.
Proof.
  intros names [[A B]|[A B]] ext [[[-> K]|[-> K]] (n & N & W)].
  - rewrite ext_filter in A. now apply (A n).
  - rewrite ext_filter in B. now apply (B n).
  - apply B, ext_filter, K.
  - apply A, ext_filter, K.
Qed.
(** Headers of the cells: the shortest, the usual and the longest file *)
Definition headers (short long : bool) : list string :=
  let usual := ["timestamp [s]"; "latitude [deg]"; "longitude [deg]"; "depth [m]"; "altitude [m]"; "roll [deg]"; "pitch [deg]"; "heading [deg]"]%string in
  if short then ["latitude [deg]"; "longitude [deg]"]%string else if long then (usual ++ ["northing [m]"; "easting [m]"]%string) else usual.
(** A file is written if and only if it is allowed, the folder has images of one kind and one of them is in the table; it then has exactly the rows of these
    images, by time. *)
Definition answer (allowed : Prop) (nav : option (list row)) (names : list text) (filename : text -> row -> text) (cells : list string) (o : outcome) : Prop :=
  match o with
  | Written res => allowed /\ exists rows ext sel, nav = Some rows /\ kind names ext /\ chosen_rows rows (fun r => In (stem (r_path r) ++ ext) names) sel /\ sel <> [] /\
      res = map (fun r => (filename ext r, map (r_cell r) cells)) sel
  | Message => ~ allowed \/ nav = None \/ (forall ext, ~ kind names ext) \/ exists rows ext, nav = Some rows /\ kind names ext /\ forall r, In r rows -> ~ In (stem (r_path r) ++ ext) names
  end.
Lemma core : forall sort (allowed : Prop) rows names ext filename cells, sorts sort -> allowed -> kind names ext ->
  answer allowed (Some rows) names filename cells match filter (fun r => text_in (stem (r_path r) ++ ext) (filter (ends_with ext) names)) rows with [] => Message | rows => write_rows sort (filename ext) cells rows end.
Proof.
  intros sort allowed rows names ext filename cells S A K. set (f := fun r => text_in (stem (r_path r) ++ ext) (filter (ends_with ext) names)).
  assert (F : forall r, f r = true <-> In (stem (r_path r) ++ ext) names). { intros r. unfold f. rewrite text_in_iff, filter_In, ends_with_iff. split; [tauto|intros I; split; [exact I|now exists (stem (r_path r))]]. }
  destruct (filter f rows) as [|r0 rest] eqn:E; cbn [answer].
  - right. right. right. exists rows, ext. split; [reflexivity|]. split; [exact K|]. intros r R I. apply F in I. assert (In r (filter f rows)) as Q by now apply filter_In. rewrite E in Q. destruct Q.
  - unfold write_rows. split; [exact A|]. rewrite <- E. exists rows, ext, (sort (filter f rows)). split; [reflexivity|]. split; [exact K|]. split; [now apply sel_filter|]. split; [|reflexivity].
    intros N. destruct (S (filter f rows)) as [P _]. rewrite N in P. apply Permutation_sym, Permutation_nil in P. congruence.
Qed.
Lemma kind_png : forall names x l, filter (ends_with png) names = x :: l -> filter (ends_with jpg) names = [] -> kind names png.
Proof. intros names x l P J. split; [left; split; [reflexivity|now apply ext_filter]|eapply ext_some; eassumption]. Qed.
Lemma kind_jpg : forall names x l, filter (ends_with jpg) names = x :: l -> filter (ends_with png) names = [] -> kind names jpg.
Proof. intros names x l P J. split; [right; split; [reflexivity|now apply ext_filter]|eapply ext_some; eassumption]. Qed.
Lemma empty_table : forall allowed names filename cells, answer allowed (Some []) names filename cells Message.
Proof.
  intros allowed names filename cells. right. right. destruct (filter (ends_with png) names) eqn:P, (filter (ends_with jpg) names) eqn:J.
  - left. apply no_kind. left. now split.
  - right. exists [], jpg. split; [reflexivity|]. split; [eapply kind_jpg; eassumption|intros r []].
  - right. exists [], png. split; [reflexivity|]. split; [eapply kind_png; eassumption|intros r []].
  - left. apply no_kind. right. rewrite P, J. split; discriminate.
Qed.
Theorem C231_simplify : forall sort short long out force nav names, sorts sort ->
  answer (~ (short = true /\ long = true) /\ (out = true -> force = true)) nav names (fun ext r => stem (r_path r) ++ ext) (headers short long) (simplify sort short long out force nav (Some names)).
Proof.
  intros sort short long out force nav names S. unfold simplify. destruct (short && long)%bool eqn:SL; [apply Bool.andb_true_iff in SL; left; tauto|].
  destruct (out && negb force)%bool eqn:OF; [apply Bool.andb_true_iff in OF; left; intros [_ K]; destruct OF as [OF1 OF2]; rewrite (K OF1) in OF2; discriminate|].
  assert (A : ~ (short = true /\ long = true) /\ (out = true -> force = true)) by (split; [intros [-> ->]; discriminate|intros ->; destruct force; [reflexivity|discriminate]]).
  destruct nav as [rows|]; [|right; left; reflexivity]. destruct rows as [|r0 rows0]; [apply empty_table|]. change PNG with png. change JPG with jpg. set (rows := r0 :: rows0). replace (simple_columns short long) with (headers short long) by now destruct short, long.
  destruct (filter (ends_with png) names) as [|p ps] eqn:P, (filter (ends_with jpg) names) as [|j js] eqn:J; [right; right; left; apply no_kind; now left| | |right; right; left; apply no_kind; right; rewrite P, J; split; discriminate].
  - cbv zeta. apply (core sort _ rows names jpg (fun ext r => stem (r_path r) ++ ext)); [exact S|exact A|eapply kind_jpg; eassumption].
  - cbv zeta. apply (core sort _ rows names png (fun ext r => stem (r_path r) ++ ext)); [exact S|exact A|eapply kind_png; eassumption].
Qed.
Print Assumptions C231_simplify.
(** Without a folder every row is kept. *)
Theorem C231_all : forall sort short long out force rows, sorts sort -> ~ (short = true /\ long = true) -> (out = true -> force = true) -> rows <> [] -> exists sel, Permutation rows sel /\ nondecreasing (fun r => r_cell r "timestamp [s]"%string) sel /\
  simplify sort short long out force (Some rows) None = Written (map (fun r => (name (r_path r), map (r_cell r) (headers short long))) sel).
Proof.
  intros sort short long out force rows S SL OF N. exists (sort rows). destruct (S rows) as [P O]. split; [exact P|]. split; [exact O|]. unfold simplify.
  destruct (short && long)%bool eqn:E; [apply Bool.andb_true_iff in E; contradiction|]. destruct (out && negb force)%bool eqn:E2; [apply Bool.andb_true_iff in E2 as [E3 E4]; rewrite (OF E3) in E4; discriminate|].
  destruct rows as [|r rows]; [congruence|]. reflexivity.
Qed.
Print Assumptions C231_all.
(** Squidle: the same rows, by the stems of the images, position and attitude under Squidle's names *)
Theorem C231_squidle : forall sort out force nav names, sorts sort ->
  answer (out = true -> force = true) nav names (fun _ r => stem (r_path r))
    ["latitude [deg]"; "longitude [deg]"; "depth [m]"; "altitude [m]"; "timestamp [s]"; "northing [m]"; "easting [m]"; "roll [deg]"; "pitch [deg]"; "heading [deg]"]%string (squidle sort out force nav names) /\
  map fst squidle_columns = ["pose.lat"; "pose.lon"; "pose.dep"; "pose.alt"; "timestamp_start"; "pose.data.northing_m"; "pose.data.easting_m"; "pose.data.roll"; "pose.data.pitch"; "pose.data.heading"]%string.
Proof.
  intros sort out force nav names S. split; [|reflexivity]. unfold squidle.
  destruct (out && negb force)%bool eqn:OF; [apply Bool.andb_true_iff in OF; left; intros K; destruct OF as [OF1 OF2]; rewrite (K OF1) in OF2; discriminate|].
  assert (A : out = true -> force = true) by (intros ->; destruct force; [reflexivity|discriminate]).
  destruct nav as [rows|]; [|right; left; reflexivity]. destruct rows as [|r0 rows0]; [apply empty_table|]. change PNG with png. change JPG with jpg. set (rows := r0 :: rows0).
  destruct (filter (ends_with png) names) as [|p ps] eqn:P, (filter (ends_with jpg) names) as [|j js] eqn:J; [right; right; left; apply no_kind; now left| | |right; right; left; apply no_kind; right; rewrite P, J; split; discriminate].
  - cbv zeta. rewrite <- J. apply (core sort _ rows names jpg (fun _ r => stem (r_path r))); [exact S|exact A|eapply kind_jpg; eassumption].
  - cbv zeta. rewrite <- P. apply (core sort _ rows names png (fun _ r => stem (r_path r))); [exact S|exact A|eapply kind_png; eassumption].
Qed.
Print Assumptions C231_squidle.
(** If no two rows of the table have the same stem, each image of the folder has one row at most, and one if it is in the table. *)
Theorem C231_each : forall sort short long out force rows names res, sorts sort -> NoDup (map (fun r => stem (r_path r)) rows) -> simplify sort short long out force (Some rows) (Some names) = Written res ->
  NoDup (map fst res) /\ forall n, In n (map fst res) <-> In n names /\ exists ext r, kind names ext /\ In r rows /\ n = stem (r_path r) ++ ext.
Proof.
  intros sort short long out force rows names res S ND E. pose proof (C231_simplify sort short long out force (Some rows) names S) as H. rewrite E in H. destruct H as (_ & rows' & ext & sel & ER & K & (_ & other & P & F1 & F2) & _ & ->). injection ER as <-.
  rewrite map_map. cbn [fst]. split.
  - rewrite <- (map_map (fun r => stem (r_path r)) (fun s => s ++ ext)). apply FinFun.Injective_map_NoDup; [intros a b; apply app_inv_tail|]. apply (Permutation_map (fun r => stem (r_path r))) in P. rewrite map_app in P. apply (Permutation_NoDup P) in ND. clear - ND. induction (map (fun r => stem (r_path r)) sel) as [|a l IH]; [constructor|]. inversion ND; subst. constructor; [intros I; apply H1; apply in_app_iff; now left|now apply IH].
  - intros n. rewrite in_map_iff. split.
    + intros (r & <- & R). rewrite Forall_forall in F1. split; [now apply F1|]. exists ext, r. split; [exact K|]. split; [apply Permutation_in with (l := sel ++ other); [now symmetry|apply in_app_iff; now left]|reflexivity].
    + intros (I & ext' & r & K' & R & ->). assert (ext' = ext) as ->.
      { destruct K as [[[-> K1]|[-> K1]] _], K' as [[[-> K2]|[-> K2]] (m & M & W)]; try reflexivity; exfalso; now apply (K1 m). }
      exists r. split; [reflexivity|]. apply Permutation_in with (l' := sel ++ other) in R; [|exact P]. apply in_app_iff in R as [R|R]; [exact R|]. rewrite Forall_forall in F2. now apply F2 in R.
Qed.
Print Assumptions C231_each.

(** ** Degrees and minutes, bounding box *)
Open Scope Q_scope.
Theorem C231_minutes : forall deg, let '(d, m) := deg_min deg in inject_Z d + m / 60 == deg /\ (0 <= deg -> (0 <= d)%Z /\ 0 <= m < 60) /\ (deg < 0 -> (d <= 0)%Z /\ -60 < m <= 0).
Proof.
  intros deg. unfold deg_min. pose proof (Qfloor_le (deg * inject_Z 1)) as A1. pose proof (Qlt_floor (deg * inject_Z 1)) as B1. pose proof (Qfloor_le (deg * inject_Z (-1))) as A2. pose proof (Qlt_floor (deg * inject_Z (-1))) as B2.
  destruct (Qle_bool 0 deg) eqn:E.
  - apply Qle_bool_iff in E. assert (Z0 : (0 <= Qfloor (deg * inject_Z 1))%Z). { change 0%Z with (Qfloor 0). apply Qfloor_resp_le. change (inject_Z 1) with 1. lra. }
    set (f := Qfloor (deg * inject_Z 1)) in *. rewrite inject_Z_plus in B1. change (inject_Z 1) with 1 in *. rewrite Z.mul_1_l. split; [field|]. split; [intros _|intros; lra]. split; [exact Z0|lra].
  - assert (L : deg < 0). { apply Qnot_le_lt. intros H. apply Qle_bool_iff in H. congruence. }
    assert (Z0 : (0 <= Qfloor (deg * inject_Z (-1)))%Z). { change 0%Z with (Qfloor 0). apply Qfloor_resp_le. change (inject_Z (-1)) with (-(1)). lra. }
    set (f := Qfloor (deg * inject_Z (-1))) in *. rewrite inject_Z_plus in B2. change (inject_Z 1) with 1 in *. change (inject_Z (-1)) with (-(1)) in *. replace (-1 * f)%Z with (- f)%Z by lia. rewrite inject_Z_opp. split; [field|]. split; [intros; lra|]. intros _. split; [lia|lra].
Qed.
Print Assumptions C231_minutes.
Example minutes_example : let '(d, m) := deg_min (- (5 # 2)) in d = (-2)%Z /\ m == -30.
Proof. vm_compute. split; reflexivity. Qed.
Lemma greatest_spec : forall l x, (forall y, In y (x :: l) -> y <= greatest x l) /\ exists y, In y (x :: l) /\ greatest x l == y.
Proof.
  induction l as [|a l IH]; intros x; [split; [intros y [<-|[]]; apply Qle_refl|exists x; split; [now left|reflexivity]]|]. cbn [greatest fold_left]. fold (greatest (Qmax x a) l). destruct (IH (Qmax x a)) as [H1 (y & Y & E)]. split.
  - intros z [<-|[<-|Z0]]; [eapply Qle_trans; [apply Q.le_max_l|apply H1; now left]|eapply Qle_trans; [apply Q.le_max_r|apply H1; now left]|apply H1; now right].
  - destruct Y as [<-|Y]; [|exists y; split; [now right; right|exact E]]. destruct (Q.max_spec x a) as [[_ M]|[_ M]]; [exists a; split; [now right; left|now rewrite E]|exists x; split; [now left|now rewrite E]].
Qed.
Lemma least_spec : forall l x, (forall y, In y (x :: l) -> least x l <= y) /\ exists y, In y (x :: l) /\ least x l == y.
Proof.
  induction l as [|a l IH]; intros x; [split; [intros y [<-|[]]; apply Qle_refl|exists x; split; [now left|reflexivity]]|]. cbn [least fold_left]. fold (least (Qmin x a) l). destruct (IH (Qmin x a)) as [H1 (y & Y & E)]. split.
  - intros z [<-|[<-|Z0]]; [eapply Qle_trans; [apply H1; now left|apply Q.le_min_l]|eapply Qle_trans; [apply H1; now left|apply Q.le_min_r]|apply H1; now right].
  - destruct Y as [<-|Y]; [|exists y; split; [now right; right|exact E]]. destruct (Q.min_spec x a) as [[_ M]|[_ M]]; [exists x; split; [now left|now rewrite E]|exists a; split; [now right; left|now rewrite E]].
Qed.
(** All images lie in the box, and each of its sides has one. *)
Theorem C231_box : forall r rs, let '(n, s, e, w) := box r rs in
  (forall x, In x (r :: rs) -> s <= r_cell x "latitude [deg]"%string <= n /\ w <= r_cell x "longitude [deg]"%string <= e) /\
  exists a b c d, In a (r :: rs) /\ In b (r :: rs) /\ In c (r :: rs) /\ In d (r :: rs) /\ n == r_cell a "latitude [deg]"%string /\ s == r_cell b "latitude [deg]"%string /\ e == r_cell c "longitude [deg]"%string /\ w == r_cell d "longitude [deg]"%string.
Proof.
  intros r rs. unfold box. set (f := fun r => r_cell r LAT). set (g := fun r => r_cell r LON).
  destruct (greatest_spec (map f rs) (f r)) as [N1 (n & N2 & N3)]. destruct (least_spec (map f rs) (f r)) as [S1 (s & S2 & S3)]. destruct (greatest_spec (map g rs) (g r)) as [E1 (e & E2 & E3)]. destruct (least_spec (map g rs) (g r)) as [W1 (w & W2 & W3)].
  split.
  - intros x X. apply (in_map f) in X as F. apply (in_map g) in X as G. split; split; [now apply S1|now apply N1|now apply W1|now apply E1].
  - change (f r :: map f rs) with (map f (r :: rs)) in N2, S2. change (g r :: map g rs) with (map g (r :: rs)) in E2, W2. apply in_map_iff in N2 as (a & A1 & A2). apply in_map_iff in S2 as (b & B1 & B2). apply in_map_iff in E2 as (c & C1 & C2). apply in_map_iff in W2 as (d & D1 & D2).
    exists a, b, c, d. repeat (split; [assumption|]). subst. repeat split; assumption.
Qed.
Print Assumptions C231_box.

(** ** Statistics *)
From Coq Require Import Lra Psatz.
Open Scope R_scope.
Definition bottom_images (start stop : option R) (thr : R) (i : image) : Prop :=
  (forall s, start = Some s -> s <= i_t i) /\ (forall e, stop = Some e -> i_t i <= e) /\ i_alt i < thr.
Lemma Rleb_iff : forall a b, Rleb a b = true <-> a <= b.
Proof. intros a b. unfold Rleb. destruct (Rle_dec a b); split; intros; try discriminate; tauto. Qed.
Lemma Rltb_iff : forall a b, Rltb a b = true <-> a < b.
Proof. intros a b. unfold Rltb. destruct (Rlt_dec a b); split; intros; try discriminate; tauto. Qed.
Lemma window_spec : forall start stop l, window start stop l = filter (fun i => ((match start with Some s => Rleb s (i_t i) | None => true end) && (match stop with Some e => Rleb (i_t i) e | None => true end))%bool) l.
Proof.
  assert (ALL : forall l : list image, filter (fun _ => true) l = l) by (induction l as [|x l IH]; [reflexivity|cbn; now rewrite IH]).
  assert (FF : forall (f g : image -> bool) l, filter g (filter f l) = filter (fun x => (f x && g x)%bool) l) by (induction l as [|x l IH]; [reflexivity|cbn; destruct (f x); cbn; [destruct (g x); now rewrite IH|exact IH]]).
  intros [s|] [e|] l; unfold window.
  - apply FF.
  - apply filter_ext. intros a. now rewrite Bool.andb_true_r.
  - reflexivity.
  - cbn. symmetry. apply ALL.
Qed.
Lemma bottom_spec : forall start stop thr l i, In i (bottom thr (window start stop l)) <-> In i l /\ bottom_images start stop thr i.
Proof.
  intros start stop thr l i. unfold bottom. rewrite filter_In, window_spec, filter_In, Bool.andb_true_iff, Rltb_iff. unfold bottom_images. split.
  - intros [[I [A B]] C]. split; [exact I|]. split; [intros s ->; now apply Rleb_iff|]. split; [intros e ->; now apply Rleb_iff|exact C].
  - intros (I & A & B & C). split; [split; [exact I|]|exact C]. split; [destruct start; [apply Rleb_iff; now apply A|reflexivity]|destruct stop; [apply Rleb_iff; now apply B|reflexivity]].
Qed.
Lemma latest_spec : forall l x, (forall y, In y (x :: l) -> y <= latest x l) /\ In (latest x l) (x :: l).
Proof.
  induction l as [|a l IH]; intros x; [split; [intros y [<-|[]]; apply Rle_refl|now left]|]. cbn [latest fold_left]. fold (latest (Rmax x a) l). destruct (IH (Rmax x a)) as [H1 H2]. split.
  - pose proof (H1 _ (or_introl eq_refl)). pose proof (Rmax_l x a). pose proof (Rmax_r x a). intros z [<-|[<-|Z0]]; [lra|lra|apply H1; now right].
  - destruct H2 as [E|H2]; [|now right; right]. rewrite <- E. unfold Rmax. destruct (Rle_dec x a); [right; now left|now left].
Qed.
Lemma earliest_spec : forall l x, (forall y, In y (x :: l) -> earliest x l <= y) /\ In (earliest x l) (x :: l).
Proof.
  induction l as [|a l IH]; intros x; [split; [intros y [<-|[]]; apply Rle_refl|now left]|]. cbn [earliest fold_left]. fold (earliest (Rmin x a) l). destruct (IH (Rmin x a)) as [H1 H2]. split.
  - pose proof (H1 _ (or_introl eq_refl)). pose proof (Rmin_l x a). pose proof (Rmin_r x a). intros z [<-|[<-|Z0]]; [lra|lra|apply H1; now right].
  - destruct H2 as [E|H2]; [|now right; right]. rewrite <- E. unfold Rmin. destruct (Rle_dec x a); [now left|right; now left].
Qed.
(** Statistics are given if and only if there is an image below the threshold in the time window; their number, the bottom time between the first and the last of
    them, and the images in this time, which are at least as many *)
Theorem C231_bottom : forall start stop thr alpha l, match acquisition start stop thr alpha l with
  | None => forall i, In i l -> ~ bottom_images start stop thr i
  | Some s => exists b, (forall i, In i b <-> In i l /\ bottom_images start stop thr i) /\ b <> [] /\ s_count s = length b /\ (s_count s <= s_images s <= length l)%nat /\
      exists first last, In first b /\ In last b /\ (forall i, In i b -> i_t first <= i_t i <= i_t last) /\ s_time s = i_t last - i_t first
  end.
Proof.
  intros start stop thr alpha l. unfold acquisition. destruct (bottom thr (window start stop l)) as [|i b] eqn:E.
  - intros i I B. assert (In i (bottom thr (window start stop l))) as K by now apply bottom_spec. rewrite E in K. destruct K.
  - exists (i :: b). split; [intros x; rewrite <- E; apply bottom_spec|]. split; [discriminate|]. split; [reflexivity|].
    destruct (latest_spec (map i_t b) (i_t i)) as [L1 L2]. destruct (earliest_spec (map i_t b) (i_t i)) as [F1 F2]. cbn [s_count s_images s_time]. split.
    + set (g := fun j => (Rleb _ (i_t j) && Rleb (i_t j) _)%bool). split.
      * rewrite <- E. unfold bottom. assert (IMP : forall j, In j (window start stop l) -> Rltb (i_alt j) thr = true -> g j = true).
        { intros j J H. assert (In j (i :: b)) as K by (rewrite <- E; unfold bottom; now apply filter_In). apply (in_map i_t) in K. unfold g. apply Bool.andb_true_iff. rewrite !Rleb_iff. split; [now apply F1|now apply L1]. }
        clear - IMP. induction (window start stop l) as [|x w IH]; [apply Nat.le_refl|]. cbn [filter]. destruct (Rltb (i_alt x) thr) eqn:A.
        -- rewrite (IMP x (or_introl eq_refl) A). cbn [length]. apply le_n_S, IH. intros j J. apply IMP. now right.
        -- destruct (g x); cbn [length]; [apply Nat.le_le_succ_r|]; apply IH; intros j J; apply IMP; now right.
      * assert (FL : forall (f : image -> bool) w, (length (filter f w) <= length w)%nat) by (intros f w; induction w as [|x w IH]; [apply Nat.le_refl|cbn; destruct (f x); cbn; lia]). rewrite window_spec. eapply Nat.le_trans; apply FL.
    + change (i_t i :: map i_t b) with (map i_t (i :: b)) in L2, F2, L1, F1. apply in_map_iff in L2 as (y & Y1 & Y2). apply in_map_iff in F2 as (x & X1 & X2). exists x, y. split; [exact X2|]. split; [exact Y2|]. rewrite X1, Y1. split; [|reflexivity].
      intros z Z0. apply (in_map i_t) in Z0. split; [now apply F1|now apply L1].
Qed.
Print Assumptions C231_bottom.
Definition apart (a b : image) : R := sqrt ((i_n b - i_n a) ^ 2 + (i_e b - i_e a) ^ 2).
Lemma triangle : forall a b c, apart a c <= apart a b + apart b c.
Proof.
  intros a b c. unfold apart. set (x := i_n b - i_n a). set (y := i_e b - i_e a). set (u := i_n c - i_n b). set (v := i_e c - i_e b). replace (i_n c - i_n a) with (x + u) by (unfold x, u; ring). replace (i_e c - i_e a) with (y + v) by (unfold y, v; ring).
  assert (P : 0 <= x ^ 2 + y ^ 2) by nra. assert (Q : 0 <= u ^ 2 + v ^ 2) by nra. pose proof (sqrt_pos (x ^ 2 + y ^ 2)) as S1. pose proof (sqrt_pos (u ^ 2 + v ^ 2)) as S2. pose proof (sqrt_sqrt _ P) as R1. pose proof (sqrt_sqrt _ Q) as R2.
  set (r := sqrt (x ^ 2 + y ^ 2)) in *. set (s := sqrt (u ^ 2 + v ^ 2)) in *. assert (CS : x * u + y * v <= r * s).
  { apply Rsqr_incr_0_var; [|now apply Rmult_le_pos]. unfold Rsqr. replace (r * s * (r * s)) with ((x ^ 2 + y ^ 2) * (u ^ 2 + v ^ 2)) by (rewrite <- R1, <- R2; ring). pose proof (Rle_0_sqr (x * v - y * u)) as H. unfold Rsqr in H. nra. }
  apply Rsqr_incr_0_var; [|lra]. unfold Rsqr. rewrite sqrt_sqrt by (pose proof (pow2_ge_0 (x + u)); pose proof (pow2_ge_0 (y + v)); lra). replace ((x + u) ^ 2 + (y + v) ^ 2) with ((x ^ 2 + y ^ 2) + (u ^ 2 + v ^ 2) + 2 * (x * u + y * v)) by ring. replace ((r + s) * (r + s)) with (r * r + s * s + 2 * (r * s)) by ring. rewrite R1, R2. lra.
Qed.
Lemma travelled_ge : forall l a z, In z (a :: l) -> apart a z <= travelled (a :: l).
Proof.
  induction l as [|b l IH]; intros a z Z0.
  - destruct Z0 as [<-|[]]. cbn. unfold apart. replace ((i_n a - i_n a) ^ 2 + (i_e a - i_e a) ^ 2) with 0 by ring. rewrite sqrt_0. lra.
  - change (travelled (a :: b :: l)) with (step a b + travelled (b :: l)). change (step a b) with (apart a b). destruct Z0 as [<-|Z0].
    + pose proof (IH b b (or_introl eq_refl)) as H. unfold apart in *. replace ((i_n a - i_n a) ^ 2 + (i_e a - i_e a) ^ 2) with 0 by ring. rewrite sqrt_0. pose proof (sqrt_pos ((i_n b - i_n b) ^ 2 + (i_e b - i_e b) ^ 2)). pose proof (sqrt_pos ((i_n b - i_n a) ^ 2 + (i_e b - i_e a) ^ 2)). lra.
    + pose proof (triangle a b z). pose proof (IH b z Z0). lra.
Qed.
(** The distance is at least the straight one from the first image at the bottom to any other; at a constant altitude the area is the distance times the width seen
    at this altitude. *)
Theorem C231_distance : forall start stop thr alpha l s, acquisition start stop thr alpha l = Some s ->
  (exists i b, bottom thr (window start stop l) = i :: b /\ forall j, In j (i :: b) -> sqrt ((i_n j - i_n i) ^ 2 + (i_e j - i_e i) ^ 2) <= s_distance s) /\
  forall a, (forall i, In i l -> bottom_images start stop thr i -> i_alt i = a) -> s_altitude s = a /\ s_area s = s_distance s * (2 * (a * tan (alpha / 2 * (PI / 180)))).
Proof.
  intros start stop thr alpha l s H. unfold acquisition in H. destruct (bottom thr (window start stop l)) as [|i b] eqn:E; [discriminate|]. apply (f_equal (fun o => match o with Some x => x | None => s end)) in H. cbv beta iota in H. subst s. cbn [s_distance s_altitude s_area]. split.
  - exists i, b. split; [reflexivity|]. intros j J. now apply (travelled_ge b i j).
  - intros a A. assert (A' : forall j, In j (i :: b) -> i_alt j = a) by (intros j J; rewrite <- E in J; apply bottom_spec in J as [J1 J2]; now apply A). replace (alpha / 2 * PI / 180) with (alpha / 2 * (PI / 180)) by field. set (t := tan _). clearbody t. clear - A'. split.
    + assert (M : forall w, (forall j, In j w -> i_alt j = a) -> fold_right Rplus 0 (map i_alt w) = INR (length w) * a). { induction w as [|x w IH]; intros K; [cbn; ring|]. cbn [map fold_right]. change (length (x :: w)) with (S (length w)). rewrite S_INR, IH by (intros j J; apply K; now right). rewrite (K x (or_introl eq_refl)). ring. }
      rewrite (M (i :: b) A'). field. change (length (i :: b)) with (S (length b)). apply not_0_INR. discriminate.
    + revert i A'. induction b as [|c b IH]; intros i A'; [cbn; ring|]. change (covered t (i :: c :: b)) with (step i c * i_alt c * t * 2 + covered t (c :: b)). change (travelled (i :: c :: b)) with (step i c + travelled (c :: b)). rewrite IH by (intros j J; apply A'; now right). rewrite (A' c) by (right; now left). ring.
Qed.
Print Assumptions C231_distance.
(** The time printed adds up. *)
Theorem C231_clock : forall t, 0 <= t -> let '(h, m, s) := clock t in t = 3600 * IZR h + 60 * IZR m + s /\ (0 <= h)%Z /\ (0 <= m < 60)%Z /\ 0 <= s < 60.
Proof.
  intros t T. unfold clock, divmod60. set (q := Int_part (t / 60)). destruct (base_Int_part (t / 60)) as [B1 B2]. fold q in B1, B2.
  assert (Q0 : (0 <= q)%Z). { apply Z.lt_succ_r. apply lt_IZR. rewrite succ_IZR. lra. }
  pose proof (Z.div_mod q 60 ltac:(lia)) as D. apply (f_equal IZR) in D. rewrite plus_IZR, mult_IZR in D. split; [lra|]. split; [now apply Z.div_pos|]. split; [now apply Z.mod_pos_bound|lra].
Qed.
Print Assumptions C231_clock.
Example clock_example : let '(h, m, s) := clock 3725 in h = 1%Z /\ m = 2%Z /\ s = 5.
Proof.
  pose proof (C231_clock 3725 ltac:(lra)) as H. destruct (clock 3725) as [[h m] s]. destruct H as (E & H0 & M & S).
  assert (h = 1%Z) as ->. { assert (h < 2)%Z. { apply lt_IZR. assert (0 <= IZR m) by (apply (IZR_le 0); lia). lra. } assert (0 < h)%Z; [|lia]. apply lt_IZR. assert (IZR m <= 59) by (apply IZR_le; lia). lra. }
  assert (m = 2%Z) as ->. { assert (1 < m)%Z by (apply lt_IZR; lra). assert (m < 3)%Z by (apply lt_IZR; lra). lia. }
  repeat split. lra.
Qed.

(** ** What does not hold *)
Definition txt (s : string) : text := map (fun c => N.of_nat (nat_of_ascii c)) (list_ascii_of_string s).
Definition by_time (l : list row) : list row := SortQ.qsort (fun r => r_cell r "timestamp [s]"%string) l.
Lemma by_time_sorts : sorts by_time.
Proof. intros l. split; [apply SortQ.qsort_perm|apply SortQ.qsort_sorted]. Qed.
Definition at_time (p : string) (t : Q) : row := mkrow (txt p) (fun h => if String.eqb h "timestamp [s]" then t else 0%Q).
Example simplify_example : simplify by_time true false false false (Some [at_time "cam/b.tif" 2; at_time "cam/a.tif" 1; at_time "cam/c.tif" 0])%Q (Some [txt "a.png"; txt "b.png"; txt "notes.txt"]) =
  Written [(txt "a.png", [0; 0]); (txt "b.png", [0; 0])]%Q.
Proof. vm_compute. reflexivity. Qed.
(** One image gets two rows when two folders of the table have a file of this name. *)
Theorem C232_twice_refuted : exists rows names res, (exists ext, kind names ext) /\ length names = 1%nat /\ NoDup (map r_path rows) /\ simplify by_time true false false false (Some rows) (Some names) = Written res /\ length res = 2%nat.
Proof.
  exists [at_time "port/a.tif" 1; at_time "starboard/a.tif" 2], [txt "a.png"]. eexists. split.
  { exists png. apply kind_png with (txt "a.png") []; reflexivity. }
  split; [reflexivity|]. split; [|split; [vm_compute; reflexivity|reflexivity]]. constructor; [|repeat constructor; intros []]. intros [K|[]]. vm_compute in K. discriminate.
Qed.
Print Assumptions C232_twice_refuted.
(** A folder with pictures of both kinds, or with capital extensions, gives nothing. *)
Theorem C232_kinds_refuted : exists rows names names', (forall r, In r rows -> In (stem (r_path r) ++ png) names) /\ (forall r, In r rows -> In (stem (r_path r) ++ txt ".PNG") names') /\
  simplify by_time false false false false (Some rows) (Some names) = Message /\ simplify by_time false false false false (Some rows) (Some names') = Message.
Proof.
  exists [at_time "cam/a.tif" 1], [txt "a.png"; txt "map.jpg"], [txt "a.PNG"]. split; [intros r [<-|[]]; now left|]. split; [intros r [<-|[]]; now left|]. split; reflexivity.
Qed.
Print Assumptions C232_kinds_refuted.
(** Minutes rounded to three decimals can be 60. *)
Theorem C232_sixty_refuted : exists deg : Q, (0 <= deg)%Q /\ let '(d, m) := deg_min deg in d = 0%Z /\ forall k : Z, (Qabs (1000 * m - inject_Z k) <= 1 # 2)%Q -> k = 60000%Z.
Proof.
  exists (599997 # 600000)%Q. split; [discriminate|]. change (deg_min (599997 # 600000)) with (0%Z, (inject_Z 1 * ((599997 # 600000) * inject_Z 1 - inject_Z 0) * 60)%Q). split; [reflexivity|]. intros k K. apply Qabs_Qle_condition in K as [K1 K2].
  change (inject_Z 1) with 1%Q in *. change (inject_Z 0) with 0%Q in *. assert (59999 < k)%Z by (rewrite Zlt_Qlt; change (inject_Z 59999) with (59999 # 1)%Q; Lqa.lra). assert (k < 60001)%Z by (rewrite Zlt_Qlt; change (inject_Z 60001) with (60001 # 1)%Q; Lqa.lra). lia.
Qed.
Print Assumptions C232_sixty_refuted.
(** Across the antimeridian the box goes round the globe. *)
Definition at_place (lon : Q) : row := mkrow [] (fun h => if String.eqb h "longitude [deg]" then lon else 0%Q).
Theorem C232_antimeridian_refuted : exists r r', (r_cell r' "longitude [deg]" + 360 - r_cell r "longitude [deg]" <= 1)%Q /\ let '(n, s, e, w) := box r [r'] in (359 <= e - w)%Q.
Proof. exists (at_place (359 # 2)), (at_place (- (359 # 2))). vm_compute. split; discriminate. Qed.
Print Assumptions C232_antimeridian_refuted.
(** Distance travelled between images that are both at the bottom, one directly after the other *)
Fixpoint near_bottom (thr : R) (l : list image) : R :=
  match l with a :: ((b :: _) as r) => (if (Rltb (i_alt a) thr && Rltb (i_alt b) thr)%bool then apart a b else 0) + near_bottom thr r | _ => 0 end.
Lemma Rltb_true : forall a b, a < b -> Rltb a b = true. Proof. intros. now apply Rltb_iff. Qed.
Lemma Rltb_false : forall a b, b <= a -> Rltb a b = false. Proof. intros a b H. unfold Rltb. destruct (Rlt_dec a b); [lra|reflexivity]. Qed.
(** The way between two stays at the bottom counts as travelled there. *)
Theorem C232_excursion_refuted : exists l s, near_bottom 6 l = 0 /\ acquisition None None 6 70 l = Some s /\ s_distance s = 100 /\ s_time s = 100.
Proof.
  exists [mkimage 0 0 0 2; mkimage 50 50 0 80; mkimage 100 100 0 2]. eexists. split; [|split; [|split]].
  - cbn [near_bottom i_alt]. rewrite (Rltb_false 80 6) by lra. rewrite Bool.andb_false_r. cbn [andb]. ring.
  - unfold acquisition, window, bottom. cbn [filter i_alt]. rewrite (Rltb_false 80 6), (Rltb_true 2 6) by lra. reflexivity.
  - cbn [s_distance travelled]. unfold step. cbn [i_n i_e]. replace ((100 - 0) ^ 2 + (0 - 0) ^ 2) with (100 * 100) by ring. rewrite sqrt_square by lra. ring.
  - cbn. rewrite Rmax_right, Rmin_left by lra. ring.
Qed.
Print Assumptions C232_excursion_refuted.
(** The distance depends on the order of the rows although they have times. *)
Theorem C232_order_refuted : exists l l' s s', Permutation l l' /\ acquisition None None 6 70 l = Some s /\ acquisition None None 6 70 l' = Some s' /\ s_distance s < s_distance s'.
Proof.
  set (a := mkimage 0 0 0 2). set (b := mkimage 1 1 0 2). set (c := mkimage 2 2 0 2). exists [a; b; c], [a; c; b]. do 2 eexists.
  assert (K : forall x y, In x [a; b; c] -> In y [a; b; c] -> step x y = Rabs (i_n y - i_n x)). { intros x y X Y. unfold step. replace (i_e y - i_e x) with 0 by (destruct X as [<-|[<-|[<-|[]]]], Y as [<-|[<-|[<-|[]]]]; cbn; ring). replace ((i_n y - i_n x) ^ 2 + 0 ^ 2) with (Rsqr (i_n y - i_n x)) by (unfold Rsqr; ring). apply sqrt_Rsqr_abs. }
  split; [repeat constructor|]. unfold acquisition, window, bottom. cbn [filter i_alt a b c]. rewrite (Rltb_true 2 6) by lra. split; [reflexivity|]. split; [reflexivity|]. cbn [s_distance travelled]. fold a b c. rewrite !K by (cbn; tauto). cbn [i_n a b c].
  replace (1 - 0) with 1 by ring. replace (2 - 1) with 1 by ring. replace (2 - 0) with 2 by ring. replace (1 - 2) with (-(1)) by ring. rewrite Rabs_Ropp, Rabs_R1, (Rabs_right 2) by lra. lra.
Qed.
Print Assumptions C232_order_refuted.
