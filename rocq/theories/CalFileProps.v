(** C245/C246: calibration files. *)
From Coq Require Import Ascii String Lia Qround NArith Nnat.
From Verif Require Import PyBase NmeaModel NmeaProofs LatlonModel LatlonProps BagModel BagProps CorrModel CalFileModel.
Open Scope Q_scope.
Open Scope list_scope.

(** * Numbers *)
Lemma millionths_near : forall x, Qabs (inject_Z (millionths x) - Qabs x * 1000000) <= 1 # 2.
Proof.
  intros x; unfold millionths. set (y := Qabs x * 1000000).
  assert (H1 := Qfloor_le y). assert (H2 := Qlt_floor y). rewrite inject_Z_plus in H2. change (inject_Z 1) with 1 in H2.
  apply Qabs_Qle_condition.
  destruct (Qltb (y - inject_Z (Qfloor y)) (1 # 2)) eqn:A; [apply Qltb_lt in A; split; lra|].
  assert (A' : ~ (y - inject_Z (Qfloor y) < 1 # 2)) by (intros X; apply Qltb_lt in X; congruence). apply Qnot_lt_le in A'.
  destruct (Qltb (1 # 2) (y - inject_Z (Qfloor y))) eqn:B; [apply Qltb_lt in B|].
  - rewrite inject_Z_plus; change (inject_Z 1) with 1. split; lra.
  - assert (B' : ~ ((1 # 2) < y - inject_Z (Qfloor y))) by (intros X; apply Qltb_lt in X; congruence). apply Qnot_lt_le in B'.
    destruct (Z.even (Qfloor y)); [split; lra|]. rewrite inject_Z_plus; change (inject_Z 1) with 1. split; lra.
Qed.
Lemma millionths_nonneg : forall x, (0 <= millionths x)%Z.
Proof.
  intros x; unfold millionths. assert (0 <= Qfloor (Qabs x * 1000000))%Z.
  { change 0%Z with (Qfloor 0). apply Qfloor_resp_le. assert (0 <= Qabs x) by apply Qabs_nonneg. lra. }
  repeat match goal with |- context[if ?b then _ else _] => destruct b end; lia.
Qed.
(** A number with six decimals is written exactly. *)
Lemma millionths_exact : forall x n, Qabs x == inject_Z n / 1000000 -> millionths x = n.
Proof.
  intros x n H; unfold millionths.
  assert (E : Qabs x * 1000000 == inject_Z n) by (rewrite H; field).
  assert (F : Qfloor (Qabs x * 1000000) = n) by (rewrite (Qfloor_comp _ _ E); apply Qfloor_Z).
  rewrite F. assert (A : Qltb (Qabs x * 1000000 - inject_Z n) (1 # 2) = true) by (apply Qltb_lt; lra). rewrite A; reflexivity.
Qed.
Definition rounded (x : Q) : Q := (if Qltb x 0 then - 1 else 1) * (inject_Z (millionths x) / 1000000).

Lemma six_digits : forall n, (n < 1000000)%N -> exists ds, skipn 1 (show (1000000 + n)%N) = spelled ds /\ all_digits ds /\ place_value ds = Z.of_N n /\ length ds = 6%nat.
Proof.
  intros n H. destruct (show_spec (1000000 + n)) as (ds & S & A & V & _).
  assert (B := place_value_bound ds A).
  assert (Lo : (7 <= length ds)%nat).
  { destruct (le_lt_dec 7 (length ds)) as [|X]; [assumption|]. assert (10 ^ Z.of_nat (length ds) <= 10 ^ 6)%Z by (apply Z.pow_le_mono_r; lia). lia. }
  destruct ds as [|x ds]; [cbn in Lo; lia|]. rewrite S. exists ds. cbn [spelled map skipn].
  assert (A' : all_digits ds) by (intros e I; apply A; now right).
  assert (0 <= x <= 9)%Z by (apply A; now left).
  assert (B' := place_value_bound ds A'). cbn [place_value length] in *.
  assert (x <> 0 -> length ds = 6%nat /\ x = 1)%Z.
  { intros X. assert (length ds < 7)%nat.
    { destruct (le_lt_dec 7 (length ds)) as [Y|]; [|assumption]. assert (10 ^ 7 <= 10 ^ Z.of_nat (length ds))%Z by (apply Z.pow_le_mono_r; lia). nia. }
    assert (L : length ds = 6%nat) by lia. rewrite L in V, B'. change (10 ^ Z.of_nat 6)%Z with 1000000%Z in V, B'. split; [exact L|nia]. }
  assert (x <> 0)%Z.
  { intros ->. (* no leading zero *)
    assert (HS : hd_error (show (1000000 + n)) <> Some 48%N).
    { clear - H. unfold show.
      assert (G : forall fuel m acc, (0 < m)%N -> (m < 2 ^ N.of_nat fuel)%N -> hd_error (show_digits fuel m acc) <> Some 48%N).
      { induction fuel as [|fuel IH]; intros m acc P B; [cbn in B; lia|]. cbn [show_digits].
        destruct (m / 10 =? 0)%N eqn:E.
        - apply N.eqb_eq in E. cbn [hd_error]. intros F. assert (F' : (48 + m mod 10 = 48)%N) by congruence. pose proof (N.div_mod m 10 ltac:(lia)). lia.
        - apply N.eqb_neq in E. apply IH; [apply N.neq_0_lt_0; exact E|]. rewrite Nat2N.inj_succ, N.pow_succ_r' in B.
          assert (m / 10 <= m / 2)%N by (apply N.div_le_compat_l; lia). assert (m / 2 < 2 ^ N.of_nat fuel)%N by (apply N.div_lt_upper_bound; lia). lia. }
      apply G; [lia|]. rewrite Nat2N.inj_succ, N2Nat.id. apply N.log2_spec. lia. }
    rewrite S in HS. apply HS. reflexivity. }
  destruct H1 as [L ->]; [assumption|].
  split; [reflexivity|split; [exact A'|split; [|exact L]]]. rewrite L in V. change (10 ^ Z.of_nat 6)%Z with 1000000%Z in V. lia.
Qed.

Definition no_space (s : text) : Prop := ~ In space s.
Lemma ltrim_spaces : forall n s, ltrim (repeat space n ++ s) = ltrim s.
Proof. induction n; intros s; [reflexivity|]. cbn. apply IHn. Qed.
Lemma ltrim_id : forall s, no_space s -> ltrim s = s.
Proof. intros [|c s] H; [reflexivity|]. cbn. destruct (c =? space)%N eqn:E; [apply N.eqb_eq in E; subst; destruct H; now left|reflexivity]. Qed.
Lemma trim_id : forall s, no_space s -> trim s = s.
Proof. intros s H; unfold trim. rewrite (ltrim_id s H), ltrim_id, rev_involutive; [reflexivity|]. intros I; apply in_rev in I; contradiction. Qed.
Lemma trim_padded : forall n s, no_space s -> trim (repeat space n ++ s) = s.
Proof. intros n s H; unfold trim; rewrite ltrim_spaces. apply trim_id; exact H. Qed.
Lemma spelled_plain : forall ds c, all_digits ds -> In c (spelled ds) -> (48 <= c <= 57)%N.
Proof. intros ds c A I; apply in_map_iff in I; destruct I as (e & <- & I). specialize (A e I). lia. Qed.

Lemma percent8f_text : forall x, exists n whole frac, percent8f x = repeat space n ++ (if Qltb x 0 then [45%N] else []) ++ spelled whole ++ 46%N :: spelled frac /\
  all_digits whole /\ all_digits frac /\ whole <> [] /\ length frac = 6%nat /\
  inject_Z (place_value whole) + inject_Z (place_value frac) / inject_Z (10 ^ Z.of_nat (length frac)) == inject_Z (millionths x) / 1000000.
Proof.
  intros x; unfold percent8f. set (m := Z.to_N (millionths x)).
  destruct (show_spec (m / 1000000)) as (w & Sw & Aw & Vw & Nw).
  destruct (six_digits (m mod 1000000)) as (f & Sf & Af & Vf & Lf); [apply N.mod_lt; lia|].
  rewrite Sw, Sf. eexists _, w, f. split; [reflexivity|]. split; [exact Aw|split; [exact Af|split; [exact Nw|split; [exact Lf|]]]].
  rewrite Vw, Vf, Lf. change (inject_Z (10 ^ Z.of_nat 6)) with 1000000.
  assert (E : (millionths x = 1000000 * Z.of_N (m / 1000000) + Z.of_N (m mod 1000000))%Z).
  { pose proof (N.div_mod m 1000000 ltac:(lia)). pose proof (millionths_nonneg x). unfold m in *. lia. }
  rewrite E, inject_Z_plus, inject_Z_mult. change (inject_Z 1000000) with 1000000. field.
Qed.
Lemma percent8f_plain : forall x c, In c (percent8f x) -> c = space \/ c = 45%N \/ c = 46%N \/ (48 <= c <= 57)%N.
Proof.
  intros x c; destruct (percent8f_text x) as (n & w & f & -> & Aw & Af & _). rewrite !in_app_iff; cbn [In].
  intros [I|[I|[I|[I|I]]]].
  - apply repeat_spec in I; auto.
  - destruct (Qltb x 0); [destruct I as [I|[]]; right; left; symmetry; exact I|destruct I].
  - right; right; right; exact (spelled_plain _ _ Aw I).
  - right; right; left; symmetry; exact I.
  - right; right; right; exact (spelled_plain _ _ Af I).
Qed.
Lemma number_blank : forall s, number (space :: s) = number s. Proof. reflexivity. Qed.
(** "%8f" is read as the number rounded to six decimals. *)
Lemma number_percent8f : forall x, exists q, number (percent8f x) = Some q /\ q == rounded x.
Proof.
  intros x; destruct (percent8f_text x) as (n & w & f & -> & Aw & Af & Nw & Lf & V).
  destruct (C30_decimal w f Aw Af Nw) as [_ (v & D & E)].
  assert (NS : no_space ((if Qltb x 0 then [45%N] else []) ++ spelled w ++ 46%N :: spelled f)).
  { intros I; rewrite !in_app_iff in I; cbn [In] in I. destruct I as [I|[I|[I|I]]]; try discriminate.
    - destruct (Qltb x 0); [destruct I as [I|[]]; discriminate|destruct I].
    - apply spelled_plain in I; [unfold space in I; lia|exact Aw].
    - apply spelled_plain in I; [unfold space in I; lia|exact Af]. }
  unfold number. rewrite trim_padded by exact NS. unfold rounded.
  destruct (Qltb x 0); cbn [app].
  - rewrite D. eexists; split; [reflexivity|]. rewrite E, V. field.
  - exists v; split; [|rewrite E, V; field].
    destruct w as [|e w]; [congruence|]. assert (He : (0 <= e <= 9)%Z) by (apply Aw; now left).
    cbn [spelled map app]. cbn [spelled map app] in D. set (c := Z.to_N (48 + e)) in *.
    assert (Hc : (48 <= c <= 57)%N) by (unfold c; lia). clearbody c.
    destruct c as [|p]; [exact D|]. do 6 (destruct p as [p|p|]; try exact D; try lia).
Qed.
Lemma rounded_near : forall x, Qabs (rounded x - x) <= 1 # 2000000.
Proof.
  intros x; unfold rounded. assert (H := millionths_near x). apply Qabs_Qle_condition in H; apply Qabs_Qle_condition.
  destruct (Qltb x 0) eqn:E.
  - apply Qltb_lt in E. rewrite (Qabs_neg x) in H by lra. destruct H; split.
    + assert (inject_Z (millionths x) / 1000000 * 1000000 == inject_Z (millionths x)) by field. lra.
    + assert (inject_Z (millionths x) / 1000000 * 1000000 == inject_Z (millionths x)) by field. lra.
  - assert (E' : ~ x < 0) by (intros X; apply Qltb_lt in X; congruence). apply Qnot_lt_le in E'.
    rewrite (Qabs_pos x) in H by lra. assert (inject_Z (millionths x) / 1000000 * 1000000 == inject_Z (millionths x)) by field. destruct H; split; lra.
Qed.
Lemma rounded_exact : forall x q, q == rounded x -> rounded q == q.
Proof.
  intros x q H; unfold rounded at 1. assert (P := millionths_nonneg x).
  assert (P' : 0 <= inject_Z (millionths x) / 1000000).
  { apply Qle_shift_div_l; [lra|]. rewrite Qmult_0_l. change 0 with (inject_Z 0). rewrite <- Zle_Qle. exact P. }
  assert (M : millionths q = millionths x).
  { apply millionths_exact. rewrite H; unfold rounded. destruct (Qltb x 0).
    - rewrite Qabs_Qmult. rewrite (Qabs_pos (inject_Z (millionths x) / 1000000)) by exact P'. change (Qabs (-1)) with 1. ring.
    - rewrite Qmult_1_l. apply Qabs_pos; exact P'. }
  rewrite M. transitivity (rounded x); [|symmetry; exact H]. unfold rounded. destruct (Qltb x 0) eqn:Ex.
  - destruct (Qltb q 0) eqn:E; [reflexivity|].
    assert (E' : ~ q < 0) by (intros X; apply Qltb_lt in X; congruence). apply Qnot_lt_le in E'.
    rewrite H in E'; unfold rounded in E'. rewrite Ex in E'. assert (Z0 : inject_Z (millionths x) / 1000000 == 0) by lra. rewrite Z0; reflexivity.
  - destruct (Qltb q 0) eqn:E; [|reflexivity]. apply Qltb_lt in E. rewrite H in E; unfold rounded in E. rewrite Ex in E. lra.
Qed.
Lemma rounded_six : forall n, rounded (inject_Z n / 1000000) == inject_Z n / 1000000.
Proof.
  intros n; unfold rounded.
  assert (C : inject_Z n / 1000000 * 1000000 == inject_Z n) by field.
  assert (M : millionths (inject_Z n / 1000000) = Z.abs n).
  { apply millionths_exact. destruct (Z_lt_le_dec n 0) as [L|L].
    - rewrite Qabs_neg, Z.abs_neq, inject_Z_opp by (try lia; rewrite Zlt_Qlt in L; change (inject_Z 0) with 0 in L; lra). field.
    - rewrite Qabs_pos, Z.abs_eq by (try lia; rewrite Zle_Qle in L; change (inject_Z 0) with 0 in L; lra). reflexivity. }
  rewrite M. destruct (Qltb (inject_Z n / 1000000) 0) eqn:E.
  - apply Qltb_lt in E. assert (n < 0)%Z by (rewrite Zlt_Qlt; change (inject_Z 0) with 0; lra). rewrite Z.abs_neq, inject_Z_opp by lia. field.
  - assert (E' : ~ inject_Z n / 1000000 < 0) by (intros X; apply Qltb_lt in X; congruence). apply Qnot_lt_le in E'.
    assert (0 <= n)%Z by (rewrite Zle_Qle; change (inject_Z 0) with 0; lra). rewrite Z.abs_eq by lia. ring.
Qed.

(** * Lines *)
Lemma existsb_none : forall c s, ~ In c s -> existsb (N.eqb c) s = false.
Proof. intros c s H; destruct (existsb (N.eqb c) s) eqn:E; [|reflexivity]. apply existsb_exists in E; destruct E as (x & I & X). apply N.eqb_eq in X; subst; contradiction. Qed.
Lemma cut_first : forall c a b, ~ In c a -> cut_at c (a ++ c :: b) = Some (a, b).
Proof.
  induction a as [|x a IH]; intros b H; cbn; [rewrite N.eqb_refl; reflexivity|].
  destruct (x =? c)%N eqn:E; [apply N.eqb_eq in E; subst; destruct H; now left|].
  rewrite IH by (intros I; apply H; now right). reflexivity.
Qed.
Definition first_ok (s : text) : Prop := match s with c :: _ => c <> space | [] => False end.
Lemma indent_line : forall t s, first_ok s -> indent_of (repeat space t ++ s) = t /\ ltrim (repeat space t ++ s) = s.
Proof.
  induction t as [|t IH]; intros s F; cbn [repeat app].
  - destruct s as [|c s]; [destruct F|]. cbn in *. apply N.eqb_neq in F. rewrite F. auto.
  - cbn. destruct (IH s F) as [-> ->]. auto.
Qed.
Lemma parse_line_ok : forall t key value, first_ok key -> ~ In 58%N key ->
  (exists s, trim value = 34%N :: s) \/ ~ In 58%N (trim value) -> parse_line (line t key value) = Some (t, key, trim value).
Proof.
  intros t key value F C V; unfold parse_line, line.
  assert (F' : first_ok (key ++ [58%N] ++ value)) by (destruct key; [destruct F|exact F]).
  destruct (indent_line t _ F') as [-> ->]. cbn [app]. rewrite cut_first by exact C. cbn [bind fst snd].
  destruct V as [[s ->]|V]; [reflexivity|]. rewrite existsb_none by exact V. rewrite Bool.orb_true_r. reflexivity.
Qed.
Definition good (s : text) (e : entry) : Prop := parse_line s = Some e /\ s <> [] /\ ~ In 10%N s.
Lemma good_line : forall t key value e, first_ok key -> ~ In 58%N key -> ~ In 10%N key -> ~ In 10%N value ->
  (exists s, trim value = 34%N :: s) \/ ~ In 58%N (trim value) -> e = (t, key, trim value) -> good (line t key value) e.
Proof.
  intros t key value e F C N1 N2 V ->; split; [apply parse_line_ok; assumption|split].
  - unfold line; destruct t; [destruct key; [destruct F|discriminate]|discriminate].
  - unfold line; rewrite !in_app_iff; cbn [In]. intros [I|[I|[[I|[]]|I]]]; try contradiction; [|discriminate].
    apply repeat_spec in I; discriminate.
Qed.
Lemma split_file : forall lines, (forall s, In s lines -> ~ In 10%N s) -> split 10 (file_of lines) = lines ++ [[]].
Proof.
  induction lines as [|s lines IH]; intros H; [reflexivity|]. unfold file_of in *; cbn [flat_map]. rewrite <- app_assoc; cbn [app].
  rewrite split_app by (apply H; now left). cbn [app]. f_equal. apply IH. intros x I; apply H; now right.
Qed.
Lemma opened_file : forall lines es, Forall2 good lines es -> opened (file_of (header :: lines)) = Some es.
Proof.
  intros lines es G; unfold opened. rewrite split_file.
  - cbn [app]. rewrite text_eqb_refl. induction G as [|s e lines es (P & N & _) G IH]; [reflexivity|]. cbn [app].
    destruct s as [|c s]; [congruence|]. cbn [parse_lines]. rewrite P, IH. reflexivity.
  - intros s [<-|I]; [vm_compute; intuition discriminate|]. apply (in_split s) in I. destruct I as (a & b & ->).
    apply Forall2_app_inv_l in G. destruct G as (x & y & _ & G & _). inversion G as [|? ? ? ? (_ & _ & N) _]; exact N.
Qed.

(** Numbers of rows and columns, and data. *)
Lemma int_of_show : forall n, int_of (show n) = Some n.
Proof.
  intros n; destruct (show_spec n) as (ds & S & A & V & N). unfold int_of. rewrite S.
  destruct (spelled ds) as [|c r] eqn:E; [destruct ds; [congruence|discriminate]|]. rewrite <- E, digits_value by exact A. cbn. rewrite V, N2Z.id. reflexivity.
Qed.
Lemma show_plain : forall n c, In c (show n) -> (48 <= c <= 57)%N.
Proof. intros n c I; destruct (show_spec n) as (ds & S & A & _). rewrite S in I. exact (spelled_plain _ _ A I). Qed.
Lemma trim_blank : forall s, no_space s -> trim (space :: s) = s.
Proof. intros s H; exact (trim_padded 1 s H). Qed.
Lemma show_nospace : forall n, no_space (show n).
Proof. intros n I; apply show_plain in I. unfold space in I; lia. Qed.
Lemma joined_plain : forall l c, In c (joined (map percent8f l)) -> c = space \/ c = 44%N \/ c = 45%N \/ c = 46%N \/ (48 <= c <= 57)%N.
Proof.
  induction l as [|x l IH]; intros c; cbn [map joined]; [intros []|].
  assert (P := percent8f_plain x c). destruct l as [|y l]; cbn [map] in *; [intros I; specialize (P I); tauto|].
  rewrite !in_app_iff. cbn [In]. intros [I|[[<-|[<-|[]]]|I]]; [specialize (P I); tauto|auto|auto|apply IH; exact I].
Qed.
Lemma data_trim : forall l, trim (data_text l) = 91%N :: joined (map percent8f l) ++ [93%N].
Proof.
  intros l; unfold data_text, trim. change (txt " [") with [space; 91%N]. change (txt "]") with [93%N]. cbn [app ltrim]. change (91 =? space)%N with false. cbv iota.
  change (91%N :: joined (map percent8f l) ++ [93%N]) with ((91%N :: joined (map percent8f l)) ++ [93%N]) at 1.
  change (space =? space)%N with true. cbv iota. rewrite rev_app_distr. cbn [rev app ltrim]. change (93 =? space)%N with false. cbv iota.
  change (93%N :: rev (joined (map percent8f l)) ++ [91%N]) with ([93%N] ++ rev (joined (map percent8f l)) ++ [91%N]).
  rewrite !rev_app_distr, rev_involutive. reflexivity.
Qed.
Definition written (data l : list Q) : Prop := Forall2 (fun q x => q == rounded x) l data.
Lemma numbers_joined : forall data, data <> [] -> exists l, numbers (split 44 (joined (map percent8f data))) = Some l /\ written data l.
Proof.
  assert (NC : forall x, ~ In 44%N (percent8f x)) by (intros x I; apply percent8f_plain in I; unfold space in I; lia).
  induction data as [|x data IH]; intros N; [congruence|]. destruct (number_percent8f x) as (q & Q1 & Q2). cbn [map joined].
  destruct data as [|y data]; cbn [map].
  - rewrite split_none by apply NC. cbn [numbers]. rewrite Q1. exists [q]; split; [reflexivity|repeat constructor; exact Q2].
  - destruct IH as (l & L1 & L2); [discriminate|]. cbn [map] in L1. cbn [app]. rewrite split_app by apply NC. cbn [numbers]. rewrite Q1. cbn [bind].
    destruct (split_nonempty 44 (joined (percent8f y :: map percent8f data))) as (w & ws & S).
    cbn [split]. change (space =? 44)%N with false. cbv iota. rewrite S in *. cbn [numbers] in *. rewrite number_blank.
    rewrite L1. exists (q :: l); split; [reflexivity|constructor; assumption].
Qed.
Lemma data_ok : forall data, data <> [] -> exists l, data_of (trim (data_text data)) = Some l /\ written data l.
Proof.
  intros data N; rewrite data_trim. cbn [data_of]. rewrite rev_app_distr. cbn [rev app]. rewrite rev_involutive. apply numbers_joined; exact N.
Qed.

(** Entries of a matrix *)
Definition mat_es (t : nat) (key : string) (r c : nat) (data : list Q) : list entry :=
  [ (t, txt key, txt "!!opencv-matrix"); ((t + 2)%nat, txt "rows", show (N.of_nat r)); ((t + 2)%nat, txt "cols", show (N.of_nat c)); ((t + 2)%nat, txt "dt", txt "d");
    ((t + 2)%nat, txt "data", trim (data_text data)) ].
Definition key_ok (key : string) : Prop := first_ok (txt key) /\ ~ In 58%N (txt key) /\ ~ In 10%N (txt key).
Lemma data_plain : forall data c, In c (data_text data) -> c <> 10%N /\ c <> 58%N.
Proof.
  intros data c; unfold data_text. rewrite !in_app_iff. intros [I|[I|I]].
  - vm_compute in I. split; intros ->; intuition discriminate.
  - apply joined_plain in I. unfold space in I. lia.
  - vm_compute in I. split; intros ->; intuition discriminate.
Qed.
Ltac plain_in := let I := fresh in intros I; vm_compute in I; repeat (destruct I as [I|I]; [discriminate I|]); destruct I.
Lemma good_num : forall t key n, key_ok key -> good (line t (txt key) (num n)) (t, txt key, show (N.of_nat n)).
Proof.
  intros t key n (A & B & C). assert (T : trim (num n) = show (N.of_nat n)) by (apply trim_blank, show_nospace).
  apply good_line; try assumption; [|right|rewrite T; reflexivity].
  - intros [I|I]; [discriminate|]. apply show_plain in I; lia.
  - rewrite T. intros I; apply show_plain in I; lia.
Qed.
Lemma good_mat : forall t key r c data, key_ok key -> Forall2 good (mat_lines t key r c data) (mat_es t key r c data).
Proof.
  intros t key r c data (A & B & C). unfold mat_lines, mat_es.
  constructor; [apply good_line; try assumption; [plain_in|right; plain_in|reflexivity]|].
  constructor; [apply good_num; repeat split; [discriminate|plain_in|plain_in]|].
  constructor; [apply good_num; repeat split; [discriminate|plain_in|plain_in]|].
  constructor; [apply good_line; [discriminate|plain_in|plain_in|plain_in|right; plain_in|reflexivity]|].
  constructor; [|constructor].
  apply good_line; [discriminate|plain_in|plain_in| |right|reflexivity].
  - intros I; apply data_plain in I; tauto.
  - rewrite data_trim. intros I. apply (data_plain data 58%N); [|reflexivity]. unfold data_text. right. exact I.
Qed.
Lemma mat_ok : forall es key v m r c data, node es key = Some (v, [ (m, txt "rows", show (N.of_nat r)); (m, txt "cols", show (N.of_nat c)); (m, txt "dt", txt "d");
    (m, txt "data", trim (data_text data)) ]) -> length data = (r * c)%nat -> data <> [] ->
  exists l, mat_of es key = Some (mkmat r c l) /\ written data l.
Proof.
  intros es key v m r c data N L D. destruct (data_ok data D) as (l & L1 & L2). exists l; split; [|exact L2].
  unfold mat_of. rewrite N. cbn [bind snd].
  unfold node. cbn [get]. rewrite !Nat.eqb_refl. cbn [andb].
  change (text_eqb (txt "rows") (txt "rows")) with true. change (text_eqb (txt "rows") (txt "cols")) with false. change (text_eqb (txt "cols") (txt "cols")) with true.
  change (text_eqb (txt "rows") (txt "dt")) with false. change (text_eqb (txt "cols") (txt "dt")) with false. change (text_eqb (txt "dt") (txt "dt")) with true.
  change (text_eqb (txt "rows") (txt "data")) with false. change (text_eqb (txt "cols") (txt "data")) with false. change (text_eqb (txt "dt") (txt "data")) with false.
  change (text_eqb (txt "data") (txt "data")) with true. cbn [bind fst]. rewrite !int_of_show. cbn [bind fst]. change (text_eqb (txt "d") (txt "d")) with true. cbn [negb bind fst].
  rewrite L1. cbn [bind]. rewrite !Nat2N.id.
  assert (Len : length l = (r * c)%nat) by (rewrite <- L; clear -L2; induction L2; cbn; congruence).
  rewrite Len, Nat.eqb_refl. reflexivity.
Qed.

(** * Cameras *)
(** What a file needs of the camera: a matrix of the given size; a name made of a letter and of other characters than blanks, colons, line ends. *)
Definition shape (r c : nat) (m : matrix) : Prop := rows m = r /\ cols m = c /\ length (entries m) = (r * c)%nat.
Definition name_ok (s : text) : Prop := (exists c r, s = c :: r /\ letter c = true) /\ ~ In space s /\ ~ In 58%N s /\ ~ In 10%N s.
Definition text_ok (s : text) : Prop := ~ In 10%N s /\ ~ In 58%N s /\ ~ In space s.
Definition quote_ok (s : text) : Prop := ~ In 10%N s /\ ~ In 34%N s.
Definition meta_ok (m : metadata) : Prop := quote_ok (date m) /\ quote_ok (user m) /\ quote_ok (host m) /\ quote_ok (version m).
(** The same size and numbers that differ by half a millionth at most. *)
Definition close (r c : nat) (m' m : matrix) : Prop := shape r c m' /\ Forall2 (fun q x => Qabs (q - x) <= 1 # 2000000) (entries m') (entries m).
(** The same size and the same numbers. *)
Definition equal (m' m : matrix) : Prop := rows m' = rows m /\ cols m' = cols m /\ Forall2 Qeq (entries m') (entries m).

Lemma written_close : forall r c data l, length data = (r * c)%nat -> written data l -> forall m, entries m = data -> close r c (mkmat r c l) m.
Proof.
  intros r c data l L W m <-. split; [split; [|split]; cbn; try reflexivity; rewrite <- L; clear -W; induction W; cbn; congruence|].
  cbn [entries]. unfold written in W. clear L. induction W as [|q x l data E W IH]; constructor; [rewrite E; apply rounded_near|exact IH].
Qed.
Lemma written_again : forall data l l', written data l -> written l l' -> Forall2 Qeq l' l.
Proof.
  intros data l l' W; revert l'; induction W as [|q x l data E W IH]; intros l' W'; inversion W' as [|q' ? l'' ? E' W'']; subst; constructor; [|apply IH; assumption].
  rewrite E'. exact (rounded_exact _ _ E).
Qed.
Lemma nth_all : forall (l : list Q) f, (forall i, f i = i) -> map (fun i => nth (f i) l 0) (seq 0 (length l)) = l.
Proof.
  intros l f F. rewrite (map_ext _ (fun i => nth i l 0)) by (intros i; rewrite F; reflexivity). clear.
  induction l as [|x l IH]; cbn; [reflexivity|]. f_equal. rewrite <- seq_shift, map_map. exact IH.
Qed.
Lemma column_all : forall m n, shape n 1 m -> first_column m = entries m.
Proof. intros m n (R & C & L); unfold first_column. rewrite R, C. replace n with (length (entries m)) by lia. apply nth_all with (f := fun i => (i * 1)%nat). intros; lia. Qed.
Lemma row_all : forall m n, shape 1 n m -> first_row m = entries m.
Proof. intros m n (R & C & L); unfold first_row. rewrite C. replace n with (length (entries m)) by lia. apply nth_all with (f := fun i => i). reflexivity. Qed.

Definition camera_es (t : nat) (ds : list Q) (c : camera) : list entry :=
  [ (t, txt "image_width", show (width c)); (t, txt "image_height", show (height c)); (t, txt "camera_name", cam c) ]
  ++ mat_es t "camera_matrix" 3 3 (entries (K c)) ++ [ (t, txt "distortion_model", trim (model_of (d c))) ]
  ++ mat_es t "distortion_coefficients" 1 5 ds ++ mat_es t "rectification_matrix" 3 3 (entries (rect c)) ++ mat_es t "projection_matrix" 3 4 (entries (proj c)).
Ltac key := repeat split; [discriminate|plain_in|plain_in].
Lemma good_count : forall t key n, key_ok key -> good (line t (txt key) (space :: show n)) (t, txt key, show n).
Proof. intros t key n H. assert (X := good_num t key (N.to_nat n) H). unfold num in X. rewrite N2Nat.id in X. exact X. Qed.
Lemma good_text : forall t key s, key_ok key -> text_ok s -> good (line t (txt key) (space :: s)) (t, txt key, s).
Proof.
  intros t key s (A & B & C) (N & D & S). assert (T : trim (space :: s) = s) by (apply trim_blank; exact S).
  apply good_line; try assumption; [|right|]; rewrite ?T; try assumption; [|reflexivity]. intros [I|I]; [discriminate|contradiction].
Qed.
Lemma good_camera : forall t ds c, name_ok (cam c) -> length (entries (K c)) = 9%nat -> length (entries (rect c)) = 9%nat -> length (entries (proj c)) = 12%nat ->
  exists l, camera_lines t ds c = Some l /\ Forall2 good l (camera_es t ds c).
Proof.
  intros t ds c (_ & N1 & N2 & N3) LK LR LP. eexists; split.
  - unfold camera_lines, flat. rewrite LK, LR, LP. cbn [Nat.eqb bind]. reflexivity.
  - unfold camera_es. apply Forall2_app; [constructor; [apply good_count; key|constructor; [apply good_count; key|constructor; [|constructor]]]; apply good_text; [key|repeat split; assumption]|].
    apply Forall2_app; [apply good_mat; key|]. apply Forall2_app; [|apply Forall2_app; [apply good_mat; key|apply Forall2_app; apply good_mat; key]].
    constructor; [|constructor]. unfold model_of. destruct (5 <? length (entries (d c)))%nat; (apply good_line; [discriminate|plain_in|plain_in|plain_in|right; plain_in|reflexivity]).
Qed.
(** The camera read back: [mono] with other lines after it, [nested] alone. *)
Lemma read_camera : forall t ds c rest, (t = 0%nat /\ (exists k v r, rest = (0%nat, k, v) :: r)) \/ (t = 2%nat /\ rest = []) ->
  name_ok (cam c) -> length (entries (K c)) = 9%nat -> length ds = 5%nat -> length (entries (rect c)) = 9%nat -> length (entries (proj c)) = 12%nat ->
  exists k dd r p, camera_of (camera_es t ds c ++ rest) = Some (mkcam (width c) (height c) (cam c) (mkmat 3 3 k) (mkmat 1 5 dd) (mkmat 3 3 r) (mkmat 3 4 p))
    /\ written (entries (K c)) k /\ written ds dd /\ written (entries (rect c)) r /\ written (entries (proj c)) p.
Proof.
  intros t ds c rest T (N & _) LK LD LR LP. set (es := camera_es t ds c ++ rest).
  assert (ME : forall key r cc data, node es key = Some (txt "!!opencv-matrix", [((t + 2)%nat, txt "rows", show (N.of_nat r)); ((t + 2)%nat, txt "cols", show (N.of_nat cc));
     ((t + 2)%nat, txt "dt", txt "d"); ((t + 2)%nat, txt "data", trim (data_text data))]) -> length data = (r * cc)%nat -> (0 < r * cc)%nat ->
     exists l, mat_of es key = Some (mkmat r cc l) /\ written data l).
  { intros key r cc data H1 H2 H3. eapply mat_ok; [exact H1|exact H2|]. intros ->; cbn in H2; lia. }
  assert (SH : (exists v, node es "camera_name" = Some (cam c, v)) /\ (exists v, node es "image_width" = Some (show (width c), v)) /\ (exists v, node es "image_height" = Some (show (height c), v))
    /\ (exists l, mat_of es "camera_matrix" = Some (mkmat 3 3 l) /\ written (entries (K c)) l) /\ (exists l, mat_of es "distortion_coefficients" = Some (mkmat 1 5 l) /\ written ds l)
    /\ (exists l, mat_of es "rectification_matrix" = Some (mkmat 3 3 l) /\ written (entries (rect c)) l) /\ (exists l, mat_of es "projection_matrix" = Some (mkmat 3 4 l) /\ written (entries (proj c)) l)).
  { unfold es, camera_es in *. unfold mat_es in *.
    generalize dependent (show (width c)). generalize dependent (show (height c)). generalize dependent (trim (model_of (d c))). intros x1 x2 x3 ES ME.
    destruct T as [[-> (k & v & r & ->)]|[-> ->]];
      (split; [eexists; reflexivity|split; [eexists; reflexivity|split; [eexists; reflexivity|split; [|split; [|split] ] ] ] ];
       (apply ME; [reflexivity|assumption|lia])). }
  destruct SH as ((v1 & H1) & (v2 & H2) & (v3 & H3) & (k & H4 & W4) & (dd & H5 & W5) & (r & H6 & W6) & (p & H7 & W7)).
  exists k, dd, r, p. split; [|auto]. unfold camera_of. rewrite H1; cbn [bind fst].
  destruct N as (x & y & E & Lx). assert (NM : name_of (cam c) = Some (cam c)) by (rewrite E; cbn; rewrite Lx; reflexivity). rewrite NM; cbn [bind fst].
  rewrite H2; cbn [bind fst]. rewrite int_of_show; cbn [bind fst]. rewrite H3; cbn [bind fst]. rewrite int_of_show; cbn [bind fst]. rewrite H4, H5, H6, H7. reflexivity.
Qed.

Definition meta_es (m : metadata) (images error : text) : list entry :=
  [ (0%nat, txt "date", trim (quoted (date m))); (0%nat, txt "user", trim (quoted (user m))); (0%nat, txt "host", trim (quoted (host m))); (0%nat, txt "version", trim (quoted (version m)));
    (0%nat, txt "number_of_images", images); (0%nat, txt "avg_reprojection_error", error) ].
Lemma trim_quoted : forall s, trim (quoted s) = 34%N :: s ++ [34%N].
Proof.
  intros s; unfold quoted, trim. cbn [app ltrim]. change (34 =? space)%N with false. change (space =? space)%N with true. cbv iota.
  replace (34%N :: s ++ [34%N; space]) with (((34%N :: s) ++ [34%N]) ++ [space]) by (rewrite <- app_assoc; reflexivity).
  rewrite rev_app_distr. cbn [rev app ltrim]. change (space =? space)%N with true. cbv iota.
  replace (34%N :: s ++ [34%N]) with ((34%N :: s) ++ [34%N]) by reflexivity.
  rewrite rev_app_distr at 1. cbn [rev app]. cbn [ltrim]. change (34 =? space)%N with false. cbv iota.
  change (34%N :: rev s ++ [34%N]) with ([34%N] ++ rev s ++ [34%N]). rewrite !rev_app_distr, rev_involutive. reflexivity.
Qed.
Lemma good_quoted : forall key s, key_ok key -> quote_ok s -> good (line 0 (txt key) (quoted s)) (0%nat, txt key, trim (quoted s)).
Proof.
  intros key s (A & B & C) (N & _). apply good_line; try assumption; [|left; rewrite trim_quoted; eexists; reflexivity|reflexivity].
  unfold quoted. rewrite !in_app_iff. cbn [In]. intros [[I|[I|[] ] ]|[I|[I|[I|[] ] ] ] ]; try discriminate; contradiction.
Qed.
Lemma good_meta : forall m images error, meta_ok m -> text_ok images -> text_ok error ->
  Forall2 good (meta_lines m ++ result_lines images error) (meta_es m images error).
Proof.
  intros m images error (A & B & C & D) E F. unfold meta_lines, result_lines, meta_es. cbn [app].
  repeat (constructor; [first [apply good_quoted; [key|assumption] | apply good_text; [key|assumption] ]|]). constructor.
Qed.

(** The file of one camera. *)
Lemma mono_file : forall c ds stdev m images error, name_ok (cam c) -> shape 3 3 (K c) -> shape 5 1 (d c) -> shape 3 3 (rect c) -> shape 3 4 (proj c) ->
  ds = entries (d c) -> (9 <= length stdev)%nat -> meta_ok m -> text_ok images -> text_ok error ->
  exists t k dd r p, mono_yaml c stdev m images error = Some t
    /\ read_mono t = Some (mkcam (width c) (height c) (cam c) (mkmat 3 3 k) (mkmat 1 5 dd) (mkmat 3 3 r) (mkmat 3 4 p))
    /\ written (entries (K c)) k /\ written ds dd /\ written (entries (rect c)) r /\ written (entries (proj c)) p.
Proof.
  intros c ds stdev m images error N (_ & _ & LK) SD (_ & _ & LR) (_ & _ & LP) -> LS M I E.
  destruct (good_camera 0 (first_column (d c)) c N LK LR LP) as (l & L1 & L2).
  assert (G : Forall2 good (l ++ mat_lines 0 "stdev_intrinsics" 1 9 (firstn 9 stdev) ++ meta_lines m ++ result_lines images error)
    (camera_es 0 (first_column (d c)) c ++ mat_es 0 "stdev_intrinsics" 1 9 (firstn 9 stdev) ++ meta_es m images error)).
  { apply Forall2_app; [exact L2|]. apply Forall2_app; [apply good_mat; key|apply good_meta; assumption]. }
  rewrite (column_all _ _ SD) in *. destruct SD as (SD1 & SD2 & LD).
  destruct (read_camera 0 (entries (d c)) c (mat_es 0 "stdev_intrinsics" 1 9 (firstn 9 stdev) ++ meta_es m images error)) as (k & dd & r & p & C & W); try assumption.
  { left; split; [reflexivity|]. unfold mat_es. cbn [app]. do 3 eexists; reflexivity. }
  exists (file_of ([header] ++ l ++ mat_lines 0 "stdev_intrinsics" 1 9 (firstn 9 stdev) ++ meta_lines m ++ result_lines images error)), k, dd, r, p.
  split; [|split; [|exact W] ].
  - unfold mono_yaml. replace (length stdev <? 9)%nat with false by (symmetry; apply Nat.ltb_ge; exact LS). rewrite (column_all _ 5) by (repeat split; assumption). rewrite L1. reflexivity.
  - unfold read_mono. cbn [app]. rewrite (opened_file _ _ G). exact C.
Qed.

(** The file of two cameras. *)
Definition ext_es (e : extrinsic) : list entry :=
  mat_es 2 "rotation_matrix" 3 3 (entries (rot e)) ++ mat_es 2 "translation_vector" 3 1 (entries (trans e)) ++ mat_es 2 "fundamental_matrix" 3 3 (entries (fund e))
  ++ mat_es 2 "essential_matrix" 3 3 (entries (ess e)).
Lemma below_all : forall es rest, Forall (fun e : entry => (0 <? fst (fst e))%nat = true) es -> below 0 (es ++ rest) = es ++ below 0 rest.
Proof. induction es as [|[[n k] v] es IH]; intros rest F; [reflexivity|]. inversion F as [|? ? F1 F2]; subst. cbn [app below]. cbn [fst] in F1. rewrite F1, IH by exact F2. reflexivity. Qed.
Lemma get_past : forall es key rest, Forall (fun e : entry => (0 <? fst (fst e))%nat = true) es -> get 0 key (es ++ rest) = get 0 key rest.
Proof.
  induction es as [|[[n k] v] es IH]; intros key rest F; [reflexivity|]. inversion F as [|? ? F1 F2]; subst. cbn [app get]. cbn [fst] in F1.
  destruct n; [discriminate|]. cbn [Nat.eqb andb]. apply IH; exact F2.
Qed.
Lemma camera_deep : forall ds c, Forall (fun e : entry => (0 <? fst (fst e))%nat = true) (camera_es 2 ds c).
Proof. intros; unfold camera_es, mat_es; cbn [app]. repeat constructor. Qed.
Lemma ext_deep : forall e, Forall (fun e : entry => (0 <? fst (fst e))%nat = true) (ext_es e).
Proof. intros; unfold ext_es, mat_es; cbn [app]. repeat constructor. Qed.
Lemma stereo_file : forall a b e m images error, name_ok (cam a) -> shape 3 3 (K a) -> shape 1 5 (d a) -> shape 3 3 (rect a) -> shape 3 4 (proj a) ->
  name_ok (cam b) -> shape 3 3 (K b) -> shape 1 5 (d b) -> shape 3 3 (rect b) -> shape 3 4 (proj b) ->
  shape 3 3 (rot e) -> shape 3 1 (trans e) -> shape 3 3 (fund e) -> shape 3 3 (ess e) -> meta_ok m -> text_ok images -> text_ok error ->
  exists t ka da ra pa kb db rb pb rm tv fm em, stereo_yaml a b e m images error = Some t
    /\ read_stereo t = Some (mkcam (width a) (height a) (cam a) (mkmat 3 3 ka) (mkmat 1 5 da) (mkmat 3 3 ra) (mkmat 3 4 pa),
                             mkcam (width b) (height b) (cam b) (mkmat 3 3 kb) (mkmat 1 5 db) (mkmat 3 3 rb) (mkmat 3 4 pb),
                             mkext (mkmat 3 3 rm) (mkmat 3 1 tv) (mkmat 3 3 fm) (mkmat 3 3 em))
    /\ (written (entries (K a)) ka /\ written (entries (d a)) da /\ written (entries (rect a)) ra /\ written (entries (proj a)) pa)
    /\ (written (entries (K b)) kb /\ written (entries (d b)) db /\ written (entries (rect b)) rb /\ written (entries (proj b)) pb)
    /\ (written (entries (rot e)) rm /\ written (entries (trans e)) tv /\ written (entries (fund e)) fm /\ written (entries (ess e)) em).
Proof.
  intros a b e m images error NA (_ & _ & KA) DA (_ & _ & RA) (_ & _ & PA) NB (_ & _ & KB) DB (_ & _ & RB) (_ & _ & PB) (_ & _ & LR) (_ & _ & LT) (_ & _ & LF) (_ & _ & LE) M I E.
  destruct (good_camera 2 (first_row (d a)) a NA KA RA PA) as (la & A1 & A2). destruct (good_camera 2 (first_row (d b)) b NB KB RB PB) as (lb & B1 & B2).
  set (lx := mat_lines 2 "rotation_matrix" 3 3 (entries (rot e)) ++ mat_lines 2 "translation_vector" 3 1 (entries (trans e)) ++ mat_lines 2 "fundamental_matrix" 3 3 (entries (fund e))
    ++ mat_lines 2 "essential_matrix" 3 3 (entries (ess e)) ++ meta_lines m ++ result_lines images error).
  assert (ND : forall key, key_ok key -> good (line 0 (txt key) []) (0%nat, txt key, [])).
  { intros k (X & Y & Z). apply good_line; try assumption; [intros []|right; intros []|reflexivity]. }
  assert (G : Forall2 good ([line 0 (txt "left") []] ++ la ++ [line 0 (txt "right") []] ++ lb ++ [line 0 (txt "extrinsics") []] ++ lx)
    ([(0%nat, txt "left", [])] ++ camera_es 2 (first_row (d a)) a ++ [(0%nat, txt "right", [])] ++ camera_es 2 (first_row (d b)) b ++ [(0%nat, txt "extrinsics", [])] ++ ext_es e ++ meta_es m images error)).
  { apply Forall2_app; [constructor; [apply ND; key|constructor]|]. apply Forall2_app; [exact A2|]. apply Forall2_app; [constructor; [apply ND; key|constructor]|]. apply Forall2_app; [exact B2|].
    apply Forall2_app; [constructor; [apply ND; key|constructor]|]. unfold lx, ext_es. rewrite <- !app_assoc.
    repeat (apply Forall2_app; [apply good_mat; key|]). apply good_meta; assumption. }
  rewrite (row_all _ _ DA), (row_all _ _ DB) in *. destruct DA as (DA1 & DA2 & DA). destruct DB as (DB1 & DB2 & DB).
  destruct (read_camera 2 (entries (d a)) a []) as (ka & da & ra & pa & CA & WA); try assumption; [right; split; reflexivity|].
  destruct (read_camera 2 (entries (d b)) b []) as (kb & db & rb & pb & CB & WB); try assumption; [right; split; reflexivity|].
  rewrite app_nil_r in CA, CB.
  assert (X : exists rm tv fm em, mat_of (ext_es e) "rotation_matrix" = Some (mkmat 3 3 rm) /\ mat_of (ext_es e) "translation_vector" = Some (mkmat 3 1 tv)
    /\ mat_of (ext_es e) "fundamental_matrix" = Some (mkmat 3 3 fm) /\ mat_of (ext_es e) "essential_matrix" = Some (mkmat 3 3 em)
    /\ (written (entries (rot e)) rm /\ written (entries (trans e)) tv /\ written (entries (fund e)) fm /\ written (entries (ess e)) em)).
  { assert (ME : forall key r cc data, node (ext_es e) key = Some (txt "!!opencv-matrix", [(4%nat, txt "rows", show (N.of_nat r)); (4%nat, txt "cols", show (N.of_nat cc));
     (4%nat, txt "dt", txt "d"); (4%nat, txt "data", trim (data_text data))]) -> length data = (r * cc)%nat -> (0 < r * cc)%nat ->
     exists l, mat_of (ext_es e) key = Some (mkmat r cc l) /\ written data l).
    { intros key r cc data H1 H2 H3. eapply mat_ok; [exact H1|exact H2|]. intros ->; cbn in H2; lia. }
    destruct (ME "rotation_matrix"%string 3%nat 3%nat (entries (rot e)) eq_refl LR ltac:(lia)) as (rm & R1 & R2).
    destruct (ME "translation_vector"%string 3%nat 1%nat (entries (trans e)) eq_refl LT ltac:(lia)) as (tv & T1 & T2).
    destruct (ME "fundamental_matrix"%string 3%nat 3%nat (entries (fund e)) eq_refl LF ltac:(lia)) as (fm & F1 & F2).
    destruct (ME "essential_matrix"%string 3%nat 3%nat (entries (ess e)) eq_refl LE ltac:(lia)) as (em & E1 & E2).
    exists rm, tv, fm, em. auto 10. }
  destruct X as (rm & tv & fm & em & X1 & X2 & X3 & X4 & WX).
  exists (file_of ([header; line 0 (txt "left") []] ++ la ++ [line 0 (txt "right") []] ++ lb ++ [line 0 (txt "extrinsics") []] ++ lx)), ka, da, ra, pa, kb, db, rb, pb, rm, tv, fm, em.
  split; [|split; [|auto] ].
  - unfold stereo_yaml. rewrite (row_all _ 5), (row_all _ 5) by (repeat split; assumption). rewrite A1, B1. unfold flat. rewrite LR, LT, LF, LE. reflexivity.
  - unfold read_stereo. change ([header; line 0 (txt "left") []] ++ la ++ [line 0 (txt "right") []] ++ lb ++ [line 0 (txt "extrinsics") []] ++ lx)
      with (header :: [line 0 (txt "left") []] ++ la ++ [line 0 (txt "right") []] ++ lb ++ [line 0 (txt "extrinsics") []] ++ lx). rewrite (opened_file _ _ G).
    assert (DA' := camera_deep (entries (d a)) a). assert (DB' := camera_deep (entries (d b)) b). assert (DE' := ext_deep e).
    assert (L : node ([(0%nat, txt "left", [])] ++ camera_es 2 (entries (d a)) a ++ [(0%nat, txt "right", [])] ++ camera_es 2 (entries (d b)) b ++ [(0%nat, txt "extrinsics", [])] ++ ext_es e ++ meta_es m images error) "left"
      = Some ([], camera_es 2 (entries (d a)) a)).
    { unfold node. cbn [app get]. change (text_eqb (txt "left") (txt "left")) with true. cbn [Nat.eqb andb]. rewrite below_all by exact DA'. cbn [below Nat.ltb Nat.leb]. rewrite app_nil_r. reflexivity. }
    assert (R : node ([(0%nat, txt "left", [])] ++ camera_es 2 (entries (d a)) a ++ [(0%nat, txt "right", [])] ++ camera_es 2 (entries (d b)) b ++ [(0%nat, txt "extrinsics", [])] ++ ext_es e ++ meta_es m images error) "right"
      = Some ([], camera_es 2 (entries (d b)) b)).
    { unfold node. cbn [app get]. change (text_eqb (txt "left") (txt "right")) with false. cbn [Nat.eqb andb]. rewrite get_past by exact DA'. cbn [get]. change (text_eqb (txt "right") (txt "right")) with true.
      cbn [Nat.eqb andb]. rewrite below_all by exact DB'. cbn [below Nat.ltb Nat.leb]. rewrite app_nil_r. reflexivity. }
    assert (Z : node ([(0%nat, txt "left", [])] ++ camera_es 2 (entries (d a)) a ++ [(0%nat, txt "right", [])] ++ camera_es 2 (entries (d b)) b ++ [(0%nat, txt "extrinsics", [])] ++ ext_es e ++ meta_es m images error) "extrinsics"
      = Some ([], ext_es e)).
    { unfold node. cbn [app get]. change (text_eqb (txt "left") (txt "extrinsics")) with false. cbn [Nat.eqb andb]. rewrite get_past by exact DA'. cbn [get]. change (text_eqb (txt "right") (txt "extrinsics")) with false.
      cbn [Nat.eqb andb]. rewrite get_past by exact DB'. cbn [get]. change (text_eqb (txt "extrinsics") (txt "extrinsics")) with true. cbn [Nat.eqb andb]. rewrite below_all by exact DE'.
      unfold meta_es. cbn [below Nat.ltb Nat.leb]. rewrite app_nil_r. reflexivity. }
    cbn [bind]. rewrite L, R, Z. cbn [bind snd]. rewrite CA, CB. cbn [bind]. rewrite X1, X2, X3, X4. reflexivity.
Qed.

(** * C245 *)
(** A number: what is printed is read back with an error of half a millionth at most, and a number with six decimals is read back exactly. *)
Theorem C245_number : forall x, exists q, number (percent8f x) = Some q /\ Qabs (q - x) <= 1 # 2000000.
Proof. intros x; destruct (number_percent8f x) as (q & Q1 & Q2). exists q; split; [exact Q1|]. rewrite Q2. apply rounded_near. Qed.
Theorem C245_six_decimals : forall n, exists q, number (percent8f (inject_Z n / 1000000)) = Some q /\ q == inject_Z n / 1000000.
Proof.
  intros n; destruct (number_percent8f (inject_Z n / 1000000)) as (q & Q1 & Q2). exists q; split; [exact Q1|]. rewrite Q2. apply rounded_six.
Qed.
Theorem C245_mono : forall c stdev m images error, name_ok (cam c) -> shape 3 3 (K c) -> shape 5 1 (d c) -> shape 3 3 (rect c) -> shape 3 4 (proj c) ->
  (9 <= length stdev)%nat -> meta_ok m -> text_ok images -> text_ok error ->
  exists t c', mono_yaml c stdev m images error = Some t /\ read_mono t = Some c'
    /\ width c' = width c /\ height c' = height c /\ cam c' = cam c
    /\ close 3 3 (K c') (K c) /\ close 1 5 (d c') (d c) /\ close 3 3 (rect c') (rect c) /\ close 3 4 (proj c') (proj c).
Proof.
  intros c stdev m images error N SK SD SR SP L M I E. destruct (mono_file c _ stdev m images error N SK SD SR SP eq_refl L M I E) as (t & k & dd & r & p & H1 & H2 & W1 & W2 & W3 & W4).
  destruct SK as (_ & _ & SK). destruct SD as (_ & _ & SD). destruct SR as (_ & _ & SR). destruct SP as (_ & _ & SP).
  eexists t, _. split; [exact H1|]. split; [exact H2|]. cbn [width height cam K d rect proj]. repeat (split; [reflexivity|]).
  split; [exact (written_close 3 3 _ _ SK W1 _ eq_refl)|]. split; [exact (written_close 1 5 _ _ SD W2 _ eq_refl)|].
  split; [exact (written_close 3 3 _ _ SR W3 _ eq_refl)|exact (written_close 3 4 _ _ SP W4 _ eq_refl)].
Qed.
Theorem C245_stereo : forall a b e m images error, name_ok (cam a) -> shape 3 3 (K a) -> shape 1 5 (d a) -> shape 3 3 (rect a) -> shape 3 4 (proj a) ->
  name_ok (cam b) -> shape 3 3 (K b) -> shape 1 5 (d b) -> shape 3 3 (rect b) -> shape 3 4 (proj b) ->
  shape 3 3 (rot e) -> shape 3 1 (trans e) -> shape 3 3 (fund e) -> shape 3 3 (ess e) -> meta_ok m -> text_ok images -> text_ok error ->
  exists t a' b' e', stereo_yaml a b e m images error = Some t /\ read_stereo t = Some (a', b', e')
    /\ width a' = width a /\ height a' = height a /\ cam a' = cam a /\ width b' = width b /\ height b' = height b /\ cam b' = cam b
    /\ close 3 3 (K a') (K a) /\ close 1 5 (d a') (d a) /\ close 3 3 (rect a') (rect a) /\ close 3 4 (proj a') (proj a)
    /\ close 3 3 (K b') (K b) /\ close 1 5 (d b') (d b) /\ close 3 3 (rect b') (rect b) /\ close 3 4 (proj b') (proj b)
    /\ close 3 3 (rot e') (rot e) /\ close 3 1 (trans e') (trans e) /\ close 3 3 (fund e') (fund e) /\ close 3 3 (ess e') (ess e).
Proof.
  intros a b e m images error NA KA DA RA PA NB KB DB RB PB LR LT LF LE M I E.
  destruct (stereo_file a b e m images error NA KA DA RA PA NB KB DB RB PB LR LT LF LE M I E)
    as (t & ka & da & ra & pa & kb & db & rb & pb & rm & tv & fm & em & H1 & H2 & (W1 & W2 & W3 & W4) & (V1 & V2 & V3 & V4) & X1 & X2 & X3 & X4).
  eexists t, _, _, _. split; [exact H1|]. split; [exact H2|]. cbn [width height cam K d rect proj rot trans fund ess]. repeat (split; [reflexivity|]).
  repeat match goal with |- _ /\ _ => split end; (eapply written_close; [|eassumption|reflexivity]); match goal with H : shape _ _ ?m |- length (entries ?m) = _ => exact (proj2 (proj2 H)) end.
Qed.
(** The calibration of a pair starts from the files of its two cameras: their matrices and coefficients are in the third file as they are in the first two,
    whatever the rectification adds. *)
Theorem C245_chain : forall c stdev m images error, name_ok (cam c) -> shape 3 3 (K c) -> shape 5 1 (d c) -> shape 3 3 (rect c) -> shape 3 4 (proj c) ->
  (9 <= length stdev)%nat -> meta_ok m -> text_ok images -> text_ok error ->
  exists t c', mono_yaml c stdev m images error = Some t /\ read_mono t = Some c' /\
    forall r p b e m' images' error', shape 3 3 r -> shape 3 4 p -> name_ok (cam b) -> shape 3 3 (K b) -> shape 1 5 (d b) -> shape 3 3 (rect b) -> shape 3 4 (proj b) ->
      shape 3 3 (rot e) -> shape 3 1 (trans e) -> shape 3 3 (fund e) -> shape 3 3 (ess e) -> meta_ok m' -> text_ok images' -> text_ok error' ->
      (exists t' a' b' e', stereo_yaml (mkcam (width c') (height c') (cam c') (K c') (d c') r p) b e m' images' error' = Some t' /\ read_stereo t' = Some (a', b', e')
        /\ width a' = width c' /\ height a' = height c' /\ cam a' = cam c' /\ equal (K a') (K c') /\ equal (d a') (d c'))
      /\ (exists t' a' b' e', stereo_yaml b (mkcam (width c') (height c') (cam c') (K c') (d c') r p) e m' images' error' = Some t' /\ read_stereo t' = Some (b', a', e')
        /\ width a' = width c' /\ height a' = height c' /\ cam a' = cam c' /\ equal (K a') (K c') /\ equal (d a') (d c')).
Proof.
  intros c stdev m images error N SK SD SR SP L M I E. destruct (mono_file c _ stdev m images error N SK SD SR SP eq_refl L M I E) as (t & k & dd & r & p & H1 & H2 & W1 & W2 & W3 & W4).
  assert (SK' := proj1 (written_close 3 3 _ _ (proj2 (proj2 SK)) W1 _ eq_refl)). assert (SD' := proj1 (written_close 1 5 _ _ (proj2 (proj2 SD)) W2 (d c) eq_refl)).
  eexists t, _. split; [exact H1|]. split; [exact H2|]. cbn [width height cam K d rect proj].
  intros r' p' b e m' images' error' SR' SP' NB KB DB RB PB LR LT LF LE M' I' E'. split.
  - destruct (stereo_file (mkcam (width c) (height c) (cam c) (mkmat 3 3 k) (mkmat 1 5 dd) r' p') b e m' images' error')
      as (t' & ka & da & ra & pa & kb & db & rb & pb & rm & tv & fm & em & G1 & G2 & (U1 & U2 & U3 & U4) & (V1 & V2 & V3 & V4) & X1 & X2 & X3 & X4); try assumption.
    eexists t', _, _, _. split; [exact G1|]. split; [exact G2|]. cbn [width height cam K d rect proj] in *. repeat (split; [reflexivity|]).
    split; (split; [reflexivity|split; [reflexivity|] ]); cbn [entries] in *; eapply written_again; eassumption.
  - destruct (stereo_file b (mkcam (width c) (height c) (cam c) (mkmat 3 3 k) (mkmat 1 5 dd) r' p') e m' images' error')
      as (t' & kb & db & rb & pb & ka & da & ra & pa & rm & tv & fm & em & G1 & G2 & (V1 & V2 & V3 & V4) & (U1 & U2 & U3 & U4) & X1 & X2 & X3 & X4); try assumption.
    eexists t', _, _, _. split; [exact G1|]. split; [exact G2|]. cbn [width height cam K d rect proj] in *. repeat (split; [reflexivity|]).
    split; (split; [reflexivity|split; [reflexivity|] ]); cbn [entries] in *; eapply written_again; eassumption.
Qed.
(** A camera whose matrices do not have the right number of entries gives no file. *)
Theorem C245_refused : forall c stdev m images error t, mono_yaml c stdev m images error = Some t ->
  length (entries (K c)) = 9%nat /\ length (entries (rect c)) = 9%nat /\ length (entries (proj c)) = 12%nat /\ (9 <= length stdev)%nat.
Proof.
  intros c stdev m images error t; unfold mono_yaml, camera_lines, flat. destruct (length stdev <? 9)%nat eqn:L; [discriminate|]. apply Nat.ltb_ge in L.
  destruct (length (entries (K c)) =? 9)%nat eqn:A; [|discriminate]. apply Nat.eqb_eq in A. cbn [bind].
  destruct (length (entries (rect c)) =? 9)%nat eqn:B; [|discriminate]. apply Nat.eqb_eq in B. cbn [bind].
  destruct (length (entries (proj c)) =? 12)%nat eqn:C; [|discriminate]. apply Nat.eqb_eq in C. auto.
Qed.

Definition ex_K : matrix := mkmat 3 3 [12345678 # 10000; 0; 640; 0; 12345678 # 10000; 512; 0; 0; 1].
Definition ex_I : matrix := mkmat 3 3 [1; 0; 0; 0; 1; 0; 0; 0; 1].
Definition ex_P : matrix := mkmat 3 4 [1200; 0; 640; 0; 0; 1200; 512; 0; 0; 0; 1; 0].
Definition ex_d : list Q := [- (1 # 10); 1 # 20; 0; 123456789 # 1000000000; 1].
Definition ex_cam : camera := mkcam 1280 1024 (txt "Cam51707923") ex_K (mkmat 5 1 ex_d) ex_I ex_P.
Definition ex_meta : metadata := mkmeta (txt "2020-01-01") (txt "user") (txt "host") (txt "0.1").
Definition ex_stdev : list Q := [1; 2; 3; 4; 5; 6; 7; 8; 9; 10].
Definition ex_ext : extrinsic := mkext ex_I (mkmat 3 1 [- (12 # 10); 1 # 100; 0]) ex_I ex_I.
Example C245_number_example : map percent8f [1; - (1 # 10); 12345678 # 10000; 1 # 2000000; 3 # 2000000; 999999999 # 1000000000]
  = map txt ["1.000000"; "-0.100000"; "1234.567800"; "0.000000"; "0.000002"; "1.000000"]%string.
Proof. vm_compute; reflexivity. Qed.
Lemma ex_ok : name_ok (cam ex_cam) /\ meta_ok ex_meta /\ text_ok (txt "30") /\ text_ok (txt "0.25").
Proof. repeat split; try plain_in. exists 67%N, (txt "am51707923"). split; reflexivity. Qed.
Example C245_mono_example : option_map (fun c => map (map Qred) [entries (K c); entries (d c)]) (bind (mono_yaml ex_cam ex_stdev ex_meta (txt "30") (txt "0.25")) read_mono)
  = Some (map (map Qred) [entries ex_K; [- (1 # 10); 1 # 20; 0; 123457 # 1000000; 1] ]).
Proof. vm_compute; reflexivity. Qed.
Example C245_stereo_example : option_map (fun x => (cam (fst (fst x)), map Qred (entries (trans (snd x))), rows (d (fst (fst x))), cols (d (snd (fst x)))))
    (bind (bind (mono_yaml ex_cam ex_stdev ex_meta (txt "30") (txt "0.25")) read_mono) (fun c => bind (stereo_yaml c c ex_ext ex_meta (txt "30") (txt "0.25")) read_stereo))
  = Some (txt "Cam51707923", map Qred [- (12 # 10); 1 # 100; 0], 1%nat, 5%nat).
Proof. vm_compute; reflexivity. Qed.

(** * C246 *)
(** A coefficient or an entry of the fundamental matrix below half a millionth is lost: all nine can be, and the matrix read back is the null matrix. *)
Definition ex_small : extrinsic := mkext ex_I (mkmat 3 1 [1; 0; 0]) (mkmat 3 3 [1 # 10000000; 0; - (1 # 20000000); 0; 1 # 30000000; 0; 0; 0; 1 # 3000000]) ex_I.
Definition ex_row : camera := mkcam 1280 1024 (txt "Cam") ex_K (mkmat 1 5 ex_d) ex_I ex_P.
Theorem C246_small_refuted : exists a e m images error e' x, option_map snd (bind (stereo_yaml a a e m images error) read_stereo) = Some e'
  /\ In x (entries (fund e)) /\ ~ x == 0 /\ length (entries (fund e')) = 9%nat /\ Forall (fun q => q == 0) (entries (fund e')).
Proof.
  exists ex_row, ex_small, ex_meta, (txt "30"), (txt "0.25"). eexists; exists (1 # 10000000).
  split; [vm_compute; reflexivity|]. split; [now left|]. split; [discriminate|]. split; [reflexivity|]. repeat (constructor; [reflexivity|]). constructor.
Qed.
(** The calibrations with eight coefficients are written with "cols: 5": the file cannot be read. *)
Definition ex_rational : camera := mkcam 1280 1024 (txt "Cam") ex_K (mkmat 8 1 [1; 1; 1; 1; 1; 1; 1; 1]) ex_I ex_P.
Theorem C246_rational_refuted : exists c stdev m images error t, (8 <= length (entries (d c)))%nat /\ shape (rows (d c)) 1 (d c)
  /\ mono_yaml c stdev m images error = Some t /\ read_mono t = None.
Proof.
  exists ex_rational, ex_stdev, ex_meta, (txt "30"), (txt "0.25"). eexists. split; [cbn; lia|]. split; [repeat split|]. split; [vm_compute; reflexivity|vm_compute; reflexivity].
Qed.
(** MonoCamera.to_str of a camera that was read writes one coefficient: what was read cannot be written and read again. *)
Theorem C246_to_str_refuted : exists c stdev m images error c' t, bind (mono_yaml c stdev m images error) read_mono = Some c' /\ mono_to_str c' m = Some t /\ read_mono t = None.
Proof.
  exists ex_cam, ex_stdev, ex_meta, (txt "30"), (txt "0.25"). eexists; eexists. split; [vm_compute; reflexivity|]. split; [vm_compute; reflexivity|vm_compute; reflexivity].
Qed.
(** StereoCamera.to_str never writes a file that can be read, not even with the arrays that MonoCamera.to_str expects. *)
Theorem C246_stereo_to_str_refuted : exists l r e m t, shape 5 1 (d l) /\ shape 5 1 (d r) /\ stereo_to_str l r e m = Some t /\ read_stereo t = None
  /\ exists t', mono_to_str l m = Some t' /\ read_mono t' <> None.
Proof.
  exists ex_cam, ex_cam, ex_ext, ex_meta. eexists. split; [repeat split|]. split; [repeat split|]. split; [vm_compute; reflexivity|]. split; [vm_compute; reflexivity|].
  eexists. split; [vm_compute; reflexivity|vm_compute; discriminate].
Qed.
Print Assumptions C245_number.
Print Assumptions C245_six_decimals.
Print Assumptions C245_mono.
Print Assumptions C245_stereo.
Print Assumptions C245_chain.
Print Assumptions C245_refused.
Print Assumptions C246_small_refuted.
Print Assumptions C246_rational_refuted.
Print Assumptions C246_to_str_refuted.
Print Assumptions C246_stereo_to_str_refuted.
