(** C291-C294: the images over a brightness, and a debayered folder. *)
From Coq Require Import Ascii String Permutation.
From Verif Require Import PyBase FolderModel.
Open Scope Q_scope.

(** * Specification *)
(** A name with an extension. *)
Definition named {A} (e : string) (f : text * A) : Prop := exists s, fst f = (s ++ txt e)%list.
(** [chosen] has the elements of [l] with [P], in their order. *)
Inductive selects {A} (P : A -> Prop) : list A -> list A -> Prop :=
| sel_nil : selects P [] []
| sel_take : forall a l c, P a -> selects P l c -> selects P (a :: l) (a :: c)
| sel_skip : forall a l c, ~ P a -> selects P l c -> selects P (a :: l) c.
(** A pixel of a picture with channels. *)
Definition pixel_of (f : text * option picture) (px : list Q) : Prop := exists rows row, snd f = Some (Coloured rows) /\ In row rows /\ In px row.
(** A pixel whose channels together are over the threshold times their number. *)
Definition over (threshold : Z) (f : text * option picture) : Prop :=
  exists px, pixel_of f px /\ inject_Z threshold * inject_Z (Z.of_nat (length px)) < fold_right Qplus 0 px.
Definition image_file (f : text * option picture) : Prop := named ".jpg" f \/ named ".png" f.
Definition plain (t : text) : Prop := forall c, In c [","%char; """"%char; "010"%char; "013"%char] -> ~ In c t.

(** * Lemmas *)
Lemma starts_iff : forall p s, starts p s = true <-> exists r, s = (p ++ r)%list.
Proof.
  induction p as [|a p IH]; intros s; cbn [starts]; [split; [exists s; reflexivity|reflexivity]|]. destruct s as [|b s].
  - split; [discriminate|intros (r & H); discriminate].
  - rewrite andb_true_iff, Ascii.eqb_eq, IH. split; [intros [-> (r & ->)]; exists r; reflexivity|intros (r & H); injection H as -> ->; split; [reflexivity|exists r; reflexivity]].
Qed.
Lemma ends_iff : forall e s, ends e s = true <-> exists r, s = (r ++ e)%list.
Proof.
  intros e s. unfold ends. rewrite starts_iff. split; intros (r & H).
  - exists (rev r). rewrite <- (rev_involutive s), H, rev_app_distr, rev_involutive. reflexivity.
  - exists (rev r). rewrite H, rev_app_distr. reflexivity.
Qed.
Lemma filter_selects : forall {A} (P : A -> Prop) f l, (forall a, In a l -> (f a = true <-> P a)) -> selects P l (filter f l).
Proof.
  intros A P f l. induction l as [|a l IH]; intros H; [constructor|]. cbn [filter]. assert (IH' : selects P l (filter f l)) by (apply IH; intros; apply H; now right).
  destruct (f a) eqn:E; [apply sel_take|apply sel_skip]; try exact IH'; [apply H; [now left|exact E]|]. intros K. apply (H a (or_introl eq_refl)) in K. congruence.
Qed.
Lemma largest_le : forall l m, largest l = Some m -> In m l /\ forall x, In x l -> x <= m.
Proof.
  intros [|x l] m H; [discriminate|]. cbn [largest] in H. injection H as <-. revert x. induction l as [|y l IH]; intros x; cbn [fold_left].
  - split; [now left|]. intros z [ -> |[]]. apply Qle_refl.
  - destruct (Qle_bool x y) eqn:E.
    + apply Qle_bool_iff in E. destruct (IH y) as [I M]. split; [destruct I as [I|I]; [right; now left|right; now right]|]. intros z [ -> |[ -> |Z]]; [|apply M; now left|apply M; now right].
      eapply Qle_trans; [exact E|]. apply M. now left.
    + assert (L : y <= x). { apply Qnot_lt_le. intros L. apply Qlt_le_weak, Qle_bool_iff in L. congruence. }
      destruct (IH x) as [I M]. split; [destruct I as [I|I]; [now left|right; now right]|]. intros z [ -> |[ -> |Z]]; [apply M; now left| |apply M; now right].
      eapply Qle_trans; [exact L|]. apply M. now left.
Qed.
Lemma largest_some : forall l, l <> [] -> exists m, largest l = Some m.
Proof. intros [|x l] H; [congruence|]. eexists. reflexivity. Qed.
Lemma mean_lt : forall (t : Z) px, px <> [] -> (inject_Z t < mean px <-> inject_Z t * inject_Z (Z.of_nat (length px)) < fold_right Qplus 0 px).
Proof.
  intros t px H. unfold mean. assert (L : 0 < inject_Z (Z.of_nat (length px))). { destruct px; [congruence|]. change 0 with (inject_Z 0). rewrite <- Zlt_Qlt. cbn [length]. lia. }
  split; intros K.
  - apply (Qmult_lt_r _ _ (inject_Z (Z.of_nat (length px))) L) in K. rewrite (Qmult_comm (_ / _)), Qmult_div_r in K; [exact K|]. intros E. rewrite E in L. discriminate.
  - apply Qlt_shift_div_l; assumption.
Qed.
Lemma each_map : forall {A B} (f : A -> option B) l, (forall a, In a l -> f a <> None) -> exists bs, each f l = Some bs /\ Forall2 (fun a b => f a = Some b) l bs.
Proof.
  intros A B f l. induction l as [|a l IH]; intros H; [exists []; split; constructor|]. destruct IH as (bs & E & F); [intros; apply H; now right|]. destruct (f a) as [b|] eqn:Ef; [|exfalso; apply (H a); [now left|exact Ef]].
  exists (b :: bs). cbn [each]. rewrite Ef, E. split; [reflexivity|]. now constructor.
Qed.
Lemma each_none : forall {A B} (f : A -> option B) l, each f l = None <-> exists a, In a l /\ f a = None.
Proof.
  intros A B f l. induction l as [|a l IH]; cbn [each]; [split; [discriminate|intros (x & [] & _)]|]. destruct (f a) as [b|] eqn:E.
  - destruct (each f l) as [bs|]; split; try discriminate.
    + intros (x & [ -> |I] & N); [congruence|]. exfalso. assert (K : Some bs = None) by (apply IH; exists x; tauto). discriminate.
    + intros _. destruct (proj1 IH eq_refl) as (x & I & N). exists x. split; [now right|exact N].
    + reflexivity.
  - split; [intros _; exists a; split; [now left|exact E]|reflexivity].
Qed.
Lemma quoted_plain : forall t, plain t -> quoted t = t.
Proof.
  intros t H. unfold quoted. destruct (existsb _ t) eqn:E; [exfalso|reflexivity]. apply existsb_exists in E. destruct E as (c & I & K). apply existsb_exists in K. destruct K as (d & D & E).
  apply Ascii.eqb_eq in E. subst d. exact (H c D I).
Qed.
Lemma glob_iff : forall {A} e (files : list (text * A)) f, In f (glob (txt e) files) <-> In f files /\ named (String "." e) f.
Proof. intros A e files f. unfold glob. rewrite filter_In, ends_iff. reflexivity. Qed.
Lemma brightness_none : forall f, brightness (snd f) = None <-> ~ exists px, pixel_of f px.
Proof.
  intros [n p]. cbn [snd]. split.
  - intros H (px & rows & row & E & R & P). cbn [snd] in E. subst p. cbn [brightness] in H. destruct (map mean (concat rows)) as [|m l] eqn:M; [|discriminate].
    apply map_eq_nil in M. assert (In px (concat rows)) as K by (apply in_concat; exists row; tauto). now rewrite M in K.
  - intros H. destruct p as [[rows|rows]|]; try reflexivity. cbn [brightness]. destruct (concat rows) as [|px l] eqn:E; [reflexivity|]. exfalso. apply H.
    assert (In px (concat rows)) as K by (rewrite E; now left). apply in_concat in K. destruct K as (row & R & P). exists px, rows, row. tauto.
Qed.
Lemma brightness_over : forall t f b, (forall px, pixel_of f px -> px <> []) -> brightness (snd f) = Some b -> (inject_Z t < b <-> over t f).
Proof.
  intros t [n p] b C H. destruct p as [[rows|rows]|]; try discriminate. cbn [snd brightness] in H. destruct (largest_le _ _ H) as [I M]. unfold over. split.
  - intros L. apply in_map_iff in I. destruct I as (px & <- & I). apply in_concat in I. destruct I as (row & R & P). assert (X : pixel_of (n, Some (Coloured rows)) px) by (exists rows, row; tauto).
    exists px. split; [exact X|]. apply mean_lt; [now apply C|exact L].
  - intros (px & X & L). pose proof (C px X) as N. destruct X as (rows' & row & E & R & P). cbn [snd] in E. injection E as <-. apply mean_lt in L; [|exact N]. eapply Qlt_le_trans; [exact L|]. apply M. apply in_map, in_concat. exists row. tauto.
Qed.

(** * C291: the images over a brightness *)
(** A folder whose .jpg and .png files all are pictures with channels: the list has those with a pixel over the threshold, the .jpg files first. *)
Theorem C291_listed : forall prefix threshold files, (forall f, In f files -> image_file f -> (exists px, pixel_of f px) /\ forall px, pixel_of f px -> px <> []) ->
  (forall f, In f files -> image_file f -> plain (prefix ++ fst f)) ->
  exists jpgs pngs chosen, selects (named ".jpg") files jpgs /\ selects (named ".png") files pngs /\ selects (over threshold) (jpgs ++ pngs) chosen /\
  bright_images prefix threshold files = Some (map (fun f => prefix ++ fst f)%list chosen).
Proof.
  intros prefix threshold files R PL. set (js := glob (txt "jpg") files). set (ps := glob (txt "png") files).
  set (f0 := fun f : text * option picture => match brightness (snd f) with Some b => negb (Qle_bool b (inject_Z threshold)) | None => false end).
  assert (AL : forall f, In f (js ++ ps) -> In f files /\ image_file f). { intros f I. apply in_app_iff in I. unfold js, ps in I. rewrite !glob_iff in I. unfold image_file. tauto. }
  exists js, ps, (filter f0 (js ++ ps)). split; [|split; [|split]].
  - apply filter_selects. intros f _. rewrite ends_iff. reflexivity.
  - apply filter_selects. intros f _. rewrite ends_iff. reflexivity.
  - apply filter_selects. intros f I. destruct (AL f I) as [I1 I2]. destruct (R f I1 I2) as [[px X] C]. unfold f0. destruct (brightness (snd f)) as [b|] eqn:B; [|exfalso; apply (proj1 (brightness_none f) B); now exists px].
    rewrite <- (brightness_over threshold f b C B). rewrite negb_true_iff. split; [intros E; apply Qnot_le_lt; intros K; apply Qle_bool_iff in K; congruence|].
    intros L. apply not_true_iff_false. intros K. apply Qle_bool_iff in K. now apply Qle_not_lt in K.
  - unfold bright_images, compute_max_brightness. fold js ps.
    assert (AL' : forall f, In f (js ++ ps) -> brightness (snd f) <> None /\ plain (prefix ++ fst f)).
    { intros f I. destruct (AL f I) as [I1 I2]. split; [|now apply PL]. intros B. apply (proj1 (brightness_none f) B). now apply R. }
    clear AL. generalize dependent (js ++ ps)%list. intros l AL. 
    match goal with |- context [each ?f l] => destruct (each_map f l) as (bs & E & F) end.
    { intros f I. destruct (AL f I) as [B _]. cbv beta. intros K. apply B. destruct (brightness (snd f)); [discriminate|reflexivity]. }
    rewrite E. cbn [option_map]. apply f_equal. unfold find_images. clear E. assert (HF : forall f, f0 f = match brightness (snd f) with Some b => negb (Qle_bool b (inject_Z threshold)) | None => false end) by reflexivity. clearbody f0. induction F as [|f [n b] l bs H F IH]; [reflexivity|]. cbn [filter snd fst]. destruct (AL f (or_introl eq_refl)) as [_ P].
    rewrite (HF f). destruct (brightness (snd f)) as [b'|]; [|discriminate]. cbn [option_map] in H. injection H as <- <-. assert (IH' := IH (fun g G => AL g (or_intror G))).
    destruct (negb _); [|exact IH']. cbn [map fst]. rewrite IH', quoted_plain by exact P. reflexivity.
Qed.
(** The list is not written exactly if one of those files has no pixel with channels. *)
Theorem C291_stops : forall prefix threshold files, bright_images prefix threshold files = None <-> exists f, In f files /\ image_file f /\ ~ exists px, pixel_of f px.
Proof.
  intros prefix threshold files. unfold bright_images, compute_max_brightness.
  assert (K : forall A B (g : A -> B) o, option_map g o = None <-> o = None) by (intros A B g [a|]; split; intros; try discriminate; reflexivity).
  rewrite K, each_none. split; intros (f & I & H).
  - exists f. rewrite K, brightness_none in H. apply in_app_iff in I. rewrite !glob_iff in I. unfold image_file. tauto.
  - exists f. rewrite K, brightness_none. split; [|tauto]. apply in_app_iff. rewrite !glob_iff. unfold image_file in H. tauto.
Qed.
(** Whatever is listed is listed as well under a lower threshold. *)
Theorem C291_lower : forall prefix t t' files l l', (t' <= t)%Z -> bright_images prefix t files = Some l -> bright_images prefix t' files = Some l' -> incl l l'.
Proof.
  intros prefix t t' files l l' L. unfold bright_images. destruct (compute_max_brightness prefix files) as [df|]; [|discriminate]. cbn [option_map]. intros E E'. injection E as <-. injection E' as <-.
  intros x X. unfold find_images in *. apply in_map_iff in X. destruct X as (r & <- & X). apply in_map_iff. exists r. split; [reflexivity|]. apply filter_In in X. destruct X as [I X]. apply filter_In. split; [exact I|].
  apply negb_true_iff, not_true_iff_false. apply negb_true_iff, not_true_iff_false in X. intros K. apply X. apply Qle_bool_iff in K. apply Qle_bool_iff. eapply Qle_trans; [exact K|]. now rewrite <- Zle_Qle.
Qed.
Print Assumptions C291_listed. Print Assumptions C291_stops. Print Assumptions C291_lower.

(** Not vacuous: a dark picture, one with a bright pixel and a text file. *)
Definition dark : picture := Coloured [[[10; 20; 30]; [250; 0; 0]]].
Definition lit : picture := Coloured [[[10; 20; 30]]; [[201; 200; 200]]].
Example C291_example : bright_images (txt "f/") 200 [(txt "b.png", Some lit); (txt "a.jpg", Some dark); (txt "notes.txt", None); (txt "c.jpg", Some lit)] = Some [txt "f/c.jpg"; txt "f/b.png"] /\
  over 200 (txt "b.png", Some lit) /\ ~ over 200 (txt "a.jpg", Some dark) /\ plain (txt "f/c.jpg").
Proof.
  split; [vm_compute; reflexivity|]. split; [|split].
  - exists [201; 200; 200]. split; [exists [[[10; 20; 30]]; [[201; 200; 200]]], [[201; 200; 200]]; cbn; tauto|reflexivity].
  - intros (px & (rows & row & E & R & P) & L). injection E as <-. cbn in R. destruct R as [ <- |[]]. cbn in P. destruct P as [ <- |[ <- |[]]]; vm_compute in L; discriminate.
  - intros c I J. cbn in I, J. intuition congruence.
Qed.

(** * C292: the claims without the conditions *)
(** "A white pixel is bright": not if its fourth channel says that it is transparent. *)
Theorem C292_transparent_refuted : exists files, files = [(txt "a.png", Some (Coloured [[[255; 255; 255; 0]]]))] /\ bright_images (txt "f/") 200 files = Some [].
Proof. eexists. split; [reflexivity|]. vm_compute. reflexivity. Qed.
(** "Pictures are listed whatever the case of their extension": .JPG files are not looked at. *)
Theorem C292_case_refuted : exists files, files = [(txt "a.JPG", Some lit)] /\ bright_images (txt "f/") 200 files = Some [] /\ over 200 (txt "a.JPG", Some lit).
Proof.
  eexists. split; [reflexivity|]. split; [vm_compute; reflexivity|]. exists [201; 200; 200]. split; [exists [[[10; 20; 30]]; [[201; 200; 200]]], [[201; 200; 200]]; cbn; tauto|reflexivity].
Qed.
(** "Every bright picture is found": one picture without colours and no list is written. *)
Theorem C292_gray_refuted : exists good gray, bright_images (txt "f/") 200 [good] = Some [txt "f/a.png"] /\ bright_images (txt "f/") 200 [good; gray] = None /\ snd gray = Some (Gray [[1]]).
Proof. exists (txt "a.png", Some lit), (txt "b.png", Some (Gray [[1]])). split; [vm_compute; reflexivity|]. split; vm_compute; reflexivity. Qed.
(** "The lines are paths": one with a comma is between quotes. *)
Theorem C292_comma_refuted : exists name, bright_images (txt "f/") 200 [(name, Some lit)] = Some [txt """f/a,b.png"""] /\ name = txt "a,b.png".
Proof. eexists. split; [|reflexivity]. vm_compute. reflexivity. Qed.
Print Assumptions C292_transparent_refuted. Print Assumptions C292_case_refuted. Print Assumptions C292_gray_refuted. Print Assumptions C292_comma_refuted.

(** * C293: a debayered folder *)
(** The colours of a pattern of four letters, and the letters OpenCV gives to the conversion: those of the second row, second and third columns. *)
Inductive pattern_of : text -> code -> Prop :=
| pat : forall a b c d k (up : bool), In ([a; b; c; d], k) [(txt "rggb", BG2BGR); (txt "grbg", GB2BGR); (txt "bggr", RG2BGR); (txt "gbrg", GR2BGR)] ->
    pattern_of (map (fun x => if up then ascii_of_N (N_of_ascii x - 32) else x) [a; b; c; d]) k.
Definition letters (k : code) : text := match k with BG2BGR => txt "bg" | GB2BGR => txt "gb" | RG2BGR => txt "rg" | GR2BGR => txt "gr" end.

Lemma text_eqb_iff : forall a b, text_eqb a b = true <-> a = b.
Proof.
  induction a as [|x a IH]; intros [|y b]; cbn [text_eqb]; try (split; [discriminate|discriminate]); [tauto|]. rewrite andb_true_iff, Ascii.eqb_eq, IH. split; [intros [ -> -> ]; reflexivity|intros H; injection H as -> ->; tauto].
Qed.
Lemma last_point_app : forall s e, ~ In "."%char e -> last_point (s ++ "."%char :: e) = Some (length s).
Proof.
  intros s e N. assert (Z : last_point e = None). { induction e as [|c e IH]; [reflexivity|]. cbn [last_point]. rewrite IH by (intros K; apply N; now right). destruct (Ascii.eqb c ".") eqn:E; [apply Ascii.eqb_eq in E; exfalso; apply N; now left|reflexivity]. }
  induction s as [|c s IH]; cbn [app last_point length]; [now rewrite Z|now rewrite IH].
Qed.
Lemma stem_of : forall s e, s <> [] -> e <> [] -> ~ In "."%char e -> stem (s ++ "."%char :: e) = s.
Proof.
  intros s e S0 E0 N. unfold stem. rewrite last_point_app by exact N. rewrite app_length. cbn [length].
  replace (Nat.ltb 0 (length s)) with true by (symmetry; apply Nat.ltb_lt; destruct s; [congruence|cbn; lia]).
  replace (Nat.ltb (S (length s)) (length s + S (length e))) with true by (symmetry; apply Nat.ltb_lt; destruct e; [congruence|cbn; lia]). cbn [andb].
  rewrite firstn_app, Nat.sub_diag, firstn_all. cbn. apply app_nil_r.
Qed.
Lemma stem_unique : forall s e s' e', ~ In "."%char e -> ~ In "."%char e' -> (s ++ "."%char :: e = s' ++ "."%char :: e')%list -> s = s' /\ e = e'.
Proof.
  intros s e s' e' N N' H. assert (L : length s = length s'). { pose proof (last_point_app s e N) as A. rewrite H, last_point_app in A by exact N'. congruence. }
  revert s' L H. induction s as [|c s IH]; intros [|c' s'] L H; try discriminate; cbn [app] in H; [injection H as ->; tauto|]. injection H as -> H. cbn [length] in L. destruct (IH s' ltac:(lia) H) as [ -> -> ]. tauto.
Qed.
(** The letters of the pattern say which conversion. *)
Theorem C293_codes : (forall p k, pattern_of p k <-> action_of p = Convert k) /\ (forall a b c d k, action_of [a; b; c; d] = Convert k -> map ascii_of_N (map (fun x => N.lor x 32) (map N_of_ascii [d; c])) = letters k) /\
  (forall p, action_of p = Nothing <-> p = txt "mono" \/ p = txt "MONO").
Proof.
  assert (IS : forall p l, existsb (fun s => text_eqb p (txt s)) l = true <-> In p (map txt l)).
  { intros p l. rewrite existsb_exists, in_map_iff. split; intros (s & A & B); exists s; [apply text_eqb_iff in B; subst; tauto|split; [exact B|]; apply text_eqb_iff; congruence]. }
  assert (AC : forall p a, action_of p = a -> match a with Convert k => In (p, k) [(txt "rggb", BG2BGR); (txt "RGGB", BG2BGR); (txt "grbg", GB2BGR); (txt "GRBG", GB2BGR); (txt "bggr", RG2BGR); (txt "BGGR", RG2BGR); (txt "gbrg", GR2BGR); (txt "GBRG", GR2BGR)]
    | Nothing => p = txt "mono" \/ p = txt "MONO" | Unsupported => True end).
  { intros p a <-. unfold action_of. cbv zeta. repeat match goal with |- context [existsb ?f ?l] => let E := fresh in destruct (existsb f l) eqn:E; [apply IS in E; cbn [map In] in E; destruct E as [ <- |[ <- |[]]]; cbn [In]; tauto|] end. exact I. }
  split; [|split].
  - intros p k. split.
    + intros [a b c d k' up H]. cbn [In] in H. destruct H as [H|[H|[H|[H|[]]]]]; apply pair_equal_spec in H; destruct H as [E <-]; rewrite <- E; destruct up; reflexivity.
    + intros H. apply AC in H. cbn [In] in H. repeat (destruct H as [H|H]; [apply pair_equal_spec in H; destruct H as [ <- <- ]|]); [..|destruct H].
      * apply (pat "r" "g" "g" "b" BG2BGR false). cbn. tauto.
      * apply (pat "r" "g" "g" "b" BG2BGR true). cbn. tauto.
      * apply (pat "g" "r" "b" "g" GB2BGR false). cbn. tauto.
      * apply (pat "g" "r" "b" "g" GB2BGR true). cbn. tauto.
      * apply (pat "b" "g" "g" "r" RG2BGR false). cbn. tauto.
      * apply (pat "b" "g" "g" "r" RG2BGR true). cbn. tauto.
      * apply (pat "g" "b" "r" "g" GR2BGR false). cbn. tauto.
      * apply (pat "g" "b" "r" "g" GR2BGR true). cbn. tauto.
  - intros a b c d k H. apply AC in H. cbn [In] in H. repeat (destruct H as [H|H]; [apply pair_equal_spec in H; destruct H as [E <-]; injection E as <- <- <- <-; reflexivity|]). destruct H.
  - intros p. split; [intros H; apply (AC p _ H)|intros [ -> | -> ]; reflexivity].
Qed.

Section Debayer.
  Variable image : Type.
  Variable convert : code -> image -> option image.
  Notation run := (debayer_all image convert).
  (** Images of one extension: in whatever order they are worked on, each gives its .png file in the other folder, and no other file changes. *)
  Theorem C293_folder : forall pattern k source target fs e stems order, pattern_of pattern k -> e <> [] -> ~ In "."%char e -> NoDup stems -> ~ In [] stems ->
    Permutation order (map (fun s => s ++ "."%char :: e)%list stems) -> (forall s, In s stems -> exists i o, fs (source, s ++ "."%char :: e)%list = Some i /\ convert k i = Some o) ->
    exists fs', run pattern source target fs order = Some fs' /\
    (forall s i, In s stems -> fs (source, s ++ "."%char :: e)%list = Some i -> fs' (target, s ++ txt ".png")%list = convert k i) /\
    (forall p, (forall s, In s stems -> p <> (target, s ++ txt ".png")%list) -> fs' p = fs p).
  Proof.
    intros pattern k source target fs e stems order P E0 EP N NE PE C. apply (proj1 (proj1 C293_codes pattern k)) in P.
    apply Permutation_map_inv in PE. destruct PE as (ss & -> & PE).
    assert (N' : NoDup ss) by (eapply Permutation_NoDup; [exact PE|exact N]).
    assert (G : exists fs', run pattern source target fs (map (fun s => s ++ "."%char :: e)%list ss) = Some fs' /\
      (forall s i, In s ss -> fs (source, s ++ "."%char :: e)%list = Some i -> fs' (target, s ++ txt ".png")%list = convert k i) /\
      (forall p, (forall s, In s ss -> p <> (target, s ++ txt ".png")%list) -> fs' p = fs p)).
    { assert (C' : forall s, In s ss -> s <> [] /\ exists i o, fs (source, s ++ "."%char :: e)%list = Some i /\ convert k i = Some o).
      { intros s I. apply (Permutation_in _ (Permutation_sym PE)) in I. split; [intros ->; contradiction|now apply C]. }
      clear - P E0 EP N' C'. revert fs C'. induction ss as [|s ss IH]; intros fs C; [exists fs; split; [reflexivity|split; [intros ? ? []|reflexivity]]|].
      inversion N' as [|? ? S1 S2]; subst. destruct (C s (or_introl eq_refl)) as (S0 & i & o & F & O). cbn [map debayer_all]. unfold debayer at 1. rewrite P, F, O, stem_of by assumption.
      set (fs1 := write image fs target (s ++ txt ".png") o).
      assert (W : forall p, p <> (target, s ++ txt ".png")%list -> fs1 p = fs p).
      { intros [a b] H. unfold fs1, write. cbn [fst snd]. destruct (text_eqb a target && text_eqb b (s ++ txt ".png"))%bool eqn:Q; [|reflexivity]. apply andb_true_iff in Q. rewrite !text_eqb_iff in Q. destruct Q as [ -> -> ]. congruence. }
      assert (W0 : fs1 (target, s ++ txt ".png")%list = Some o). { unfold fs1, write. cbn [fst snd]. rewrite (proj2 (text_eqb_iff target target) eq_refl), (proj2 (text_eqb_iff (s ++ txt ".png") (s ++ txt ".png")) eq_refl). reflexivity. }
      assert (R : forall s', In s' ss -> fs1 (source, s' ++ "."%char :: e)%list = fs (source, s' ++ "."%char :: e)%list).
      { intros s' I. apply W. intros K. apply pair_equal_spec in K. destruct K as [_ K]. change (txt ".png") with ("."%char :: txt "png") in K. apply stem_unique in K; [|exact EP|cbn; intuition congruence]. destruct K as [ -> _ ]. contradiction. }
      destruct (IH S2 fs1) as (fs' & E & A & B). { intros s' I. rewrite (R s' I). apply C. now right. }
      exists fs'. split; [exact E|]. split.
      - intros s' i' [ <- |I] F'.
        + rewrite B; [rewrite W0; congruence|]. intros s' I K. apply pair_equal_spec in K. destruct K as [_ K]. apply app_inv_tail in K. subst. contradiction.
        + rewrite <- (R s' I) in F'. now apply A.
      - intros p H. rewrite B by (intros s' I; apply H; now right). apply W, H. now left. }
    destruct G as (fs' & E & A & B). exists fs'. split; [exact E|]. split.
    - intros s i I. apply A. now apply (Permutation_in _ PE).
    - intros p H. apply B. intros s I. apply H. now apply (Permutation_in _ (Permutation_sym PE)).
  Qed.
  (** Of a monochrome camera nothing is written; any other pattern is an error unless there are no images; and so is an image that cannot be read or converted. *)
  Theorem C293_others : forall pattern source target fs order,
    (action_of pattern = Nothing -> run pattern source target fs order = Some fs) /\
    (action_of pattern = Unsupported -> (run pattern source target fs order = None <-> order <> [])) /\
    (forall k n rest, pattern_of pattern k -> order = n :: rest -> (fs (source, n) = None \/ exists i, fs (source, n) = Some i /\ convert k i = None) -> run pattern source target fs order = None).
  Proof.
    intros pattern source target fs order. split; [|split].
    - intros H. induction order as [|n order IH]; [reflexivity|]. cbn [debayer_all]. unfold debayer at 1. rewrite H. exact IH.
    - intros H. destruct order as [|n order]; [split; [discriminate|congruence]|]. cbn [debayer_all]. unfold debayer at 1. rewrite H. split; [discriminate|reflexivity].
    - intros k n rest P -> H. apply (proj1 (proj1 C293_codes pattern k)) in P. cbn [debayer_all]. unfold debayer at 1. rewrite P. destruct H as [ -> |(i & -> & -> )]; reflexivity.
  Qed.
End Debayer.
Print Assumptions C293_codes. Print Assumptions C293_folder. Print Assumptions C293_others.

(** Not vacuous: two raw images, numbers standing for them; converting adds ten to a raw one (under ten). *)
Definition conv (k : code) (i : nat) : option nat := if Nat.ltb i 10 then Some (i + 10)%nat else None.
Definition disk (l : list (string * string * nat)) : files nat := fun p => option_map snd (find (fun f => text_eqb (txt (fst (fst f))) (fst p) && text_eqb (txt (snd (fst f))) (snd p))%bool l).
Example C293_example : exists fs', debayer_all nat conv (txt "RGGB") (txt "in") (txt "out") (disk [("in", "a.b.tif", 1%nat); ("in", "c.tif", 2%nat)]%string) [txt "c.tif"; txt "a.b.tif"] = Some fs' /\
  fs' (txt "out", txt "a.b.png") = Some 11%nat /\ fs' (txt "out", txt "c.png") = Some 12%nat /\ fs' (txt "in", txt "c.tif") = Some 2%nat /\ pattern_of (txt "RGGB") BG2BGR.
Proof. eexists. split; [reflexivity|]. split; [reflexivity|]. split; [reflexivity|]. split; [reflexivity|]. apply (proj1 C293_codes). reflexivity. Qed.

(** * C294: the claims without the conditions *)
(** "Every image has its .png file in the end": not of a monochrome camera. *)
Theorem C294_mono_refuted : exists fs, fs (txt "in", txt "a.tif") = Some 1%nat /\ fs (txt "out", txt "a.png") = None /\ debayer_all nat conv (txt "mono") (txt "in") (txt "out") fs [txt "a.tif"] = Some fs.
Proof. exists (disk [("in", "a.tif", 1%nat)]%string). split; [reflexivity|]. split; reflexivity. Qed.
(** "The case of a pattern does not matter": Rggb is an error. *)
Theorem C294_case_refuted : exists fs, debayer_all nat conv (txt "Rggb") (txt "in") (txt "out") fs [txt "a.tif"] = None /\ debayer_all nat conv (txt "rggb") (txt "in") (txt "out") fs [txt "a.tif"] <> None.
Proof. exists (disk [("in", "a.tif", 1%nat)]%string). split; [reflexivity|]. vm_compute. discriminate. Qed.
(** "The images read are kept": with one folder for both, .png images are replaced, and then a second run is an error. *)
Theorem C294_same_folder_refuted : exists fs fs', fs (txt "in", txt "a.png") = Some 1%nat /\ debayer_all nat conv (txt "rggb") (txt "in") (txt "in") fs [txt "a.png"] = Some fs' /\ fs' (txt "in", txt "a.png") = Some 11%nat /\
  debayer_all nat conv (txt "rggb") (txt "in") (txt "in") fs' [txt "a.png"] = None.
Proof. exists (disk [("in", "a.png", 1%nat)]%string). eexists. split; [reflexivity|]. split; [reflexivity|]. split; reflexivity. Qed.
(** "The order of the images does not matter": it does for a name that is only the extension. *)
Theorem C294_hidden_refuted : exists fs a b, let order := [txt ".png"; txt ".png.png"] in
  debayer_all nat conv (txt "rggb") (txt "in") (txt "out") fs order = Some a /\ debayer_all nat conv (txt "rggb") (txt "in") (txt "out") fs (rev order) = Some b /\
  a (txt "out", txt ".png.png") = Some 12%nat /\ b (txt "out", txt ".png.png") = Some 11%nat.
Proof. exists (disk [("in", ".png", 1%nat); ("in", ".png.png", 2%nat)]%string). do 2 eexists. split; [reflexivity|]. split; [reflexivity|]. split; reflexivity. Qed.
Print Assumptions C294_mono_refuted. Print Assumptions C294_case_refuted. Print Assumptions C294_same_folder_refuted. Print Assumptions C294_hidden_refuted.
