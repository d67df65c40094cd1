(** C235, C236: images extracted from ROS bags. *)
From Coq Require Import Permutation NArith Nnat.
From Verif Require Import BagModel NmeaProofs LatlonProps.
Open Scope Q_scope.

(** ** Names *)
Lemma place_value_app a b : place_value (a ++ b) = (place_value a * 10 ^ Z.of_nat (length b) + place_value b)%Z.
Proof.
  induction a as [|x a IH]; [cbn; lia|]. cbn [app place_value]. rewrite IH, app_length, Nat2Z.inj_add, Z.pow_add_r by lia. ring.
Qed.
Lemma place_value_bound ds : all_digits ds -> (0 <= place_value ds < 10 ^ Z.of_nat (length ds))%Z.
Proof.
  induction ds as [|d ds IH]; intros A; [cbn; lia|]. cbn [place_value length]. rewrite Nat2Z.inj_succ, Z.pow_succ_r by lia.
  assert (0 <= d <= 9)%Z by (apply A; now left). assert (0 <= place_value ds < 10 ^ Z.of_nat (length ds))%Z by (apply IH; intros x I; apply A; now right). nia.
Qed.
Lemma show_digits_spec fuel : forall n acc, (0 < fuel)%nat -> (n < 2 ^ N.of_nat fuel)%N ->
  exists ds, show_digits fuel n acc = spelled ds ++ acc /\ all_digits ds /\ place_value ds = Z.of_N n /\ ds <> [].
Proof.
  induction fuel as [|fuel IH]; intros n acc F B; [lia|]. cbn [show_digits].
  assert (0 <= Z.of_N (n mod 10) <= 9)%Z as D by (pose proof (N.mod_lt n 10 ltac:(lia)); generalize dependent (n mod 10)%N; intros; lia).
  assert ((48 + n mod 10)%N :: acc = spelled [Z.of_N (n mod 10)] ++ acc) as Hd by (unfold spelled; cbn [map app]; f_equal; generalize (n mod 10)%N; intros; lia).
  assert (all_digits [Z.of_N (n mod 10)]) as Ad by (intros d [<-|[]]; exact D).
  pose proof (N.div_mod n 10 ltac:(lia)) as DM.
  destruct (n / 10 =? 0)%N eqn:E.
  - apply N.eqb_eq in E. exists [Z.of_N (n mod 10)]. split; [exact Hd|]. split; [exact Ad|]. split; [cbn [place_value length]; lia|discriminate].
  - apply N.eqb_neq in E. destruct fuel as [|fuel]. { cbn in B. assert (n / 10 = 0)%N by (apply N.div_small; lia). contradiction. }
    destruct (IH (n / 10)%N ((48 + n mod 10)%N :: acc) ltac:(lia)) as (ds & H1 & H2 & H3 & H4).
    { rewrite Nat2N.inj_succ, N.pow_succ_r' in B. assert (n / 10 <= n / 2)%N by (apply N.div_le_compat_l; lia). assert (n / 2 < 2 ^ N.of_nat (S fuel))%N by (apply N.div_lt_upper_bound; lia). lia. }
    exists (ds ++ [Z.of_N (n mod 10)]). split; [rewrite H1, Hd; unfold spelled; rewrite map_app, <- app_assoc; reflexivity|].
    split; [intros d I; apply in_app_iff in I; destruct I as [I|I]; [now apply H2|now apply Ad]|].
    split; [rewrite place_value_app, H3; cbn [place_value length]; lia|]. intros X. now apply app_eq_nil in X.
Qed.
Lemma show_spec n : exists ds, show n = spelled ds /\ all_digits ds /\ place_value ds = Z.of_N n /\ ds <> [].
Proof.
  destruct (show_digits_spec (S (N.to_nat (N.log2 n))) n [] ltac:(lia)) as (ds & H & R).
  - rewrite Nat2N.inj_succ, N2Nat.id. destruct (N.eq_dec n 0) as [->|Z0]; [cbn; lia|]. apply N.log2_spec. lia.
  - exists ds. split; [unfold show; now rewrite H, app_nil_r|exact R].
Qed.
Lemma all_digits_incl a b : incl a b -> all_digits b -> all_digits a.
Proof. intros I A d H. apply A, I, H. Qed.
Lemma spelled_app a b : spelled (a ++ b) = spelled a ++ spelled b.
Proof. apply map_app. Qed.
Lemma spelled_length a : length (spelled a) = length a.
Proof. apply map_length. Qed.
Lemma but_last_app k a b : length b = k -> but_last k (a ++ b) = a.
Proof. intros L. unfold but_last. rewrite app_length. replace (length a + length b - k)%nat with (length a) by lia. rewrite firstn_app, Nat.sub_diag, firstn_all. apply app_nil_r. Qed.
Lemma last_of_app k a b : length b = k -> last_of k (a ++ b) = b.
Proof. intros L. unfold last_of. rewrite app_length. replace (length a + length b - k)%nat with (length a) by lia. rewrite skipn_app, Nat.sub_diag, skipn_all. reflexivity. Qed.

Theorem C235_frame : forall n, (10 ^ 9 <= n)%N -> exists seconds nanoseconds, length nanoseconds = 9%nat /\ show n = seconds ++ nanoseconds /\
  frame_name n = [102; 114; 97; 109; 101]%N ++ seconds ++ [46%N] ++ nanoseconds ++ [46; 112; 110; 103]%N.
Proof.
  intros n B. exists (but_last 9 (show n)), (last_of 9 (show n)). destruct (show_spec n) as (ds & S1 & A & V & _). pose proof (place_value_bound ds A) as PB.
  assert (10 <= length ds)%nat as L. { destruct (le_lt_dec 10 (length ds)) as [|X]; [assumption|]. assert (10 ^ Z.of_nat (length ds) <= 10 ^ 9)%Z by (apply Z.pow_le_mono_r; lia). lia. }
  split; [unfold last_of; rewrite skipn_length, S1, spelled_length; lia|]. split; [symmetry; apply firstn_skipn|reflexivity].
Qed.
Print Assumptions C235_frame.
Theorem C235_name : forall n, (10 ^ 9 <= n)%N -> exists q, decimal (stamp_text (frame_name n)) = Some q /\ q == inject_Z (Z.of_N (n / 10)) / inject_Z (10 ^ 8).
Proof.
  intros n B. destruct (show_spec n) as (ds & S1 & A & V & _).
  pose proof (place_value_bound ds A) as PB.
  assert (10 <= length ds)%nat as L. { destruct (le_lt_dec 10 (length ds)) as [|X]; [assumption|]. assert (10 ^ Z.of_nat (length ds) <= 10 ^ 9)%Z by (apply Z.pow_le_mono_r; lia). lia. }
  set (k := (length ds - 9)%nat). set (w := firstn k ds). set (f := firstn 8 (skipn k ds)). set (z := skipn 8 (skipn k ds)).
  assert (ds = w ++ f ++ z) as E by (unfold w, f, z; now rewrite firstn_skipn, firstn_skipn).
  assert (length (skipn k ds) = 9%nat) as L9 by (rewrite skipn_length; unfold k; lia).
  assert (length f = 8%nat) as Lf by (unfold f; rewrite firstn_length; lia). assert (length z = 1%nat) as Lz by (unfold z; rewrite skipn_length; lia).
  assert (length w = k) as Lw by (unfold w; rewrite firstn_length; unfold k; lia).
  destruct z as [|d [|? ?]]; try discriminate. clearbody w f.
  assert (all_digits w /\ all_digits f /\ 0 <= d <= 9)%Z as (Aw & Af & Ad).
  { split; [|split].
    - apply (all_digits_incl w ds); [rewrite E; intros x I; apply in_app_iff; now left|exact A].
    - apply (all_digits_incl f ds); [rewrite E; intros x I; apply in_app_iff; right; apply in_app_iff; now left|exact A].
    - apply A. rewrite E. apply in_app_iff. right. apply in_app_iff. right. now left. }
  assert (stamp_text (frame_name n) = spelled w ++ 46%N :: spelled f) as ->.
  { unfold frame_name. rewrite S1, E, spelled_app. rewrite but_last_app, last_of_app by (rewrite spelled_length, app_length; cbn [length]; lia). rewrite spelled_app.
    unfold stamp_text. replace (str_frame ++ spelled w ++ [46%N] ++ (spelled f ++ spelled [d]) ++ str_png) with ((str_frame ++ spelled w ++ 46%N :: spelled f) ++ spelled [d] ++ str_png)
      by (rewrite <- !app_assoc; reflexivity).
    rewrite but_last_app by reflexivity. reflexivity. }
  destruct (C30_decimal w f Aw Af ltac:(destruct w; [cbn in Lw; unfold k in Lw; lia|discriminate])) as [_ (q & Hq & Vq)]. exists q. split; [exact Hq|].
  assert (place_value (w ++ f) = Z.of_N (n / 10))%Z as X.
  { rewrite app_assoc in E. rewrite E, place_value_app in V. cbn [place_value length] in V. pose proof (N.div_mod n 10 ltac:(lia)). pose proof (N.mod_lt n 10 ltac:(lia)).
    generalize dependent (n / 10)%N. generalize dependent (n mod 10)%N. intros. lia. }
  rewrite Vq, Lf, <- X, place_value_app, Lf, inject_Z_plus, inject_Z_mult. change (Z.of_nat 8) with 8%Z. field. discriminate.
Qed.
Print Assumptions C235_name.

Lemma frame_parts n : exists a b, show n = spelled (a ++ b) /\ all_digits a /\ all_digits b /\ frame_name n = str_frame ++ spelled a ++ 46%N :: spelled b ++ str_png /\ place_value (a ++ b) = Z.of_N n.
Proof.
  destruct (show_spec n) as (ds & S1 & A & V & _). set (k := (length ds - 9)%nat). exists (firstn k ds), (skipn k ds). rewrite firstn_skipn. split; [exact S1|].
  assert (forall l, (exists l', ds = l' ++ l \/ ds = l ++ l') -> all_digits l) as Sub.
  { intros l [l' [E|E]] d I; apply A; rewrite E; apply in_app_iff; auto. }
  split; [apply Sub; exists (skipn k ds); right; now rewrite firstn_skipn|]. split; [apply Sub; exists (firstn k ds); left; now rewrite firstn_skipn|].
  split; [|exact V]. unfold frame_name, but_last, last_of. rewrite S1, spelled_length. fold k. unfold spelled. rewrite firstn_map, skipn_map. reflexivity.
Qed.
Lemma app_point_inj a b c d : ~ In 46%N a -> ~ In 46%N c -> a ++ 46%N :: b = c ++ 46%N :: d -> a = c /\ b = d.
Proof.
  revert c. induction a as [|x a IH]; intros [|y c] A C E; cbn in E.
  - injection E as ->. now split.
  - injection E as <- _. exfalso. apply C. now left.
  - injection E as -> _. exfalso. apply A. now left.
  - injection E as -> E. destruct (IH c) as [-> ->]; [intros I; apply A; now right|intros I; apply C; now right|exact E|]. now split.
Qed.
Lemma spelled_inj a b : all_digits a -> all_digits b -> spelled a = spelled b -> a = b.
Proof.
  revert b. induction a as [|x a IH]; intros [|y b] A B E; try discriminate; [reflexivity|]. change (Z.to_N (48 + x) :: spelled a = Z.to_N (48 + y) :: spelled b) in E.
  assert (Z.to_N (48 + x) = Z.to_N (48 + y)) as E1 by congruence. assert (spelled a = spelled b) as E2 by congruence. clear E.
  assert (0 <= x <= 9)%Z by (apply A; now left). assert (0 <= y <= 9)%Z by (apply B; now left). f_equal; [lia|]. apply IH; [intros d I; apply A; now right|intros d I; apply B; now right|exact E2].
Qed.
Lemma frame_name_inj n n' : frame_name n = frame_name n' -> n = n'.
Proof.
  destruct (frame_parts n) as (a & b & _ & A & B & -> & V), (frame_parts n') as (a' & b' & _ & A' & B' & -> & V'). intros E. apply app_inv_head in E.
  apply app_point_inj in E as [E1 E2]; try (now apply spelled_no_point). apply app_inv_tail in E2. apply spelled_inj in E1, E2; try assumption. subst. lia.
Qed.
Lemma frame_chars n c : In c (frame_name n) -> c <> 116%N /\ c <> 95%N.
Proof.
  destruct (frame_parts n) as (a & b & _ & A & B & -> & _). assert (forall l, all_digits l -> In c (spelled l) -> c <> 116 /\ c <> 95)%N as D.
  { intros l Al I. apply in_map_iff in I as (d & <- & I). specialize (Al d I). split; intros X; apply (f_equal Z.of_N) in X; rewrite Z2N.id in X by lia; lia. }
  intros I. apply in_app_iff in I as [I|I]; [|apply in_app_iff in I as [I|[<-|I]]; [eauto|split; discriminate|apply in_app_iff in I as [I|I]; [eauto|]]];
    cbn in I; repeat (destruct I as [<-|I]; [split; discriminate|]); destruct I.
Qed.

(** ** The folder *)
Lemma NoDup_rev_snoc {A} (l : list A) x : NoDup l -> ~ In x l -> NoDup (l ++ [x]).
Proof.
  induction l as [|a l IH]; intros N1 H; cbn; [repeat constructor; intros []|]. inversion N1 as [|? ? X Y]; subst. constructor.
  - rewrite in_app_iff. intros [Z1|[Z1|[]]]; [contradiction|]. apply H. now left.
  - apply IH; [assumption|]. intros Z1. apply H. now right.
Qed.
(** The folder has a file for every stamp, with the last image of that stamp. *)
Theorem C235_extract : forall I (messages : list (N * I)),
  NoDup (map fst (extract messages)) /\
  forall name i, In (name, i) (extract messages) <->
    exists before stamp after, messages = before ++ (stamp, i) :: after /\ name = frame_name stamp /\ ~ In stamp (map fst after).
Proof.
  intros I messages. unfold extract. induction messages as [|[s j] ms [N1 H1]] using rev_ind.
  { split; [constructor|]. intros name i. split; [intros []|intros (b & s & a & E & _); destruct b; discriminate]. }
  rewrite fold_left_app. cbn [fold_left fst snd]. set (F := fold_left _ ms []) in *. clearbody F. unfold store. split.
  - rewrite map_app. cbn [map fst]. apply NoDup_rev_snoc.
    + clear H1. induction F as [|f F IH]; [constructor|]. cbn [map] in N1. inversion N1 as [|? ? X Y]; subst. cbn [filter]. destruct (negb _); [|now apply IH]. cbn [map]. constructor; [|now apply IH].
      intros Z1. apply X. apply in_map_iff in Z1 as (g & E & Z1). apply filter_In in Z1 as [Z1 _]. rewrite <- E. now apply in_map.
    + intros X. apply in_map_iff in X as (g & E & X). apply filter_In in X as [_ X]. rewrite E in X. rewrite text_eqb_refl in X. discriminate.
  - intros name i. rewrite in_app_iff, filter_In, H1. cbn [fst]. split.
    + intros [[(b & t & a & -> & -> & Na) Ne]|[E|[]]].
      * exists b, t, (a ++ [(s, j)]). split; [now rewrite <- app_assoc|]. split; [reflexivity|]. rewrite map_app, in_app_iff. intros [X|[X|[]]]; [contradiction|]. cbn in X. subst t.
        rewrite text_eqb_refl in Ne. discriminate.
      * injection E as <- <-. exists ms, s, []. split; [reflexivity|]. split; [reflexivity|]. intros [].
    + intros (b & t & a & E & -> & Na). destruct a as [|x a] using rev_ind.
      * right. left. apply app_inj_tail in E as [_ E]. injection E as <- <-. reflexivity.
      * clear IHa. left. rewrite app_comm_cons, app_assoc in E. apply app_inj_tail in E as [-> <-]. split; [exists b, t, a; split; [reflexivity|]; split; [reflexivity|]|].
        -- intros X. apply Na. rewrite map_app. apply in_app_iff. now left.
        -- apply negb_true_iff. destruct (text_eqb (frame_name t) (frame_name s)) eqn:X; [|reflexivity]. apply text_eqb_iff in X. apply frame_name_inj in X. exfalso. apply Na. rewrite map_app. apply in_app_iff. right. left. now rewrite X.
Qed.
Print Assumptions C235_extract.

(** ** The records *)
Lemma Forall2_length_ {A B} (P : A -> B -> Prop) l l' : Forall2 P l l' -> length l = length l'.
Proof. induction 1 as [|a b l l' _ _ IH]; [reflexivity|cbn; now rewrite IH]. Qed.
Definition contains (a b : text) : Prop := exists x y, b = x ++ a ++ y.
(** The files of a listing that are not left out, in the same order. *)
Inductive picked : list text -> list text -> Prop :=
| picked_nil : picked [] []
| picked_keep n l ns : ~ contains [46; 116; 120; 116]%N n -> ~ contains [46; 95]%N n -> picked l ns -> picked (n :: l) (n :: ns)
| picked_drop n l ns : contains [46; 116; 120; 116]%N n \/ contains [46; 95]%N n -> picked l ns -> picked (n :: l) ns.

Lemma begins_spec a : forall b, begins a b = true <-> exists y, b = a ++ y.
Proof.
  induction a as [|x a IH]; intros b; [split; [eexists; reflexivity|reflexivity]|]. destruct b as [|y b]; cbn [begins]; [split; [discriminate|intros [? ?]; discriminate]|].
  rewrite andb_true_iff, N.eqb_eq, IH. split; [intros [-> [z ->]]; exists z; reflexivity|intros [z E]; injection E as -> ->; split; [reflexivity|eexists; reflexivity]].
Qed.
Lemma within_spec a b : within a b = true <-> contains a b.
Proof.
  induction b as [|y b IH]; cbn [within]; rewrite orb_true_iff, begins_spec.
  - split; [intros [[z E]|X]; [exists [], z; exact E|discriminate]|]. intros (x & z & E). left. destruct x; [exists z; exact E|discriminate].
  - rewrite IH. split.
    + intros [[z E]|(x & z & ->)]; [exists [], z; exact E|exists (y :: x), z; reflexivity].
    + intros (x & z & E). destruct x as [|c x]; [left; exists z; exact E|]. right. injection E as -> ->. exists x, z. reflexivity.
Qed.
Lemma picked_files l : picked l (image_files l).
Proof.
  induction l as [|n l IH]; [constructor|]. unfold image_files in *. cbn [filter].
  destruct (within str_txt n) eqn:E1; cbn [negb andb]; [apply picked_drop; [left; now apply within_spec|exact IH]|].
  destruct (within str_dot_underscore n) eqn:E2; cbn [negb]; [apply picked_drop; [right; now apply within_spec|exact IH]|].
  apply picked_keep; [intros X; apply within_spec in X; unfold str_txt in E1; congruence|intros X; apply within_spec in X; unfold str_dot_underscore in E2; congruence|exact IH].
Qed.
Lemma nearest_spec values : forall k, match nearest values k with
  | None => values = []
  | Some (d, j) => exists i, j = (k + i)%nat /\ nth_error values i = Some d /\ (forall v, In v values -> d <= v) /\ forall i' v, (i' < i)%nat -> nth_error values i' = Some v -> d < v
  end.
Proof.
  induction values as [|v values IH]; intros k; [reflexivity|]. cbn [nearest]. specialize (IH (S k)). destruct (nearest values (S k)) as [[w j]|].
  - destruct IH as (i & -> & Hi & Hm & Hf). destruct (Qle_bool v w) eqn:E.
    + apply Qle_bool_iff in E. exists 0%nat. split; [lia|]. split; [reflexivity|]. split; [intros x [<-|I]; [apply Qle_refl|specialize (Hm x I); lra]|]. intros i' ? L. lia.
    + assert (w < v) by (destruct (Qlt_le_dec w v) as [L|L]; [exact L|apply Qle_bool_iff in L; congruence]). exists (S i). split; [lia|]. split; [exact Hi|].
      split; [intros x [<-|I]; [lra|now apply Hm]|]. intros [|i'] x L X; [cbn in X; injection X as <-; assumption|]. apply (Hf i' x); [lia|exact X].
  - subst values. exists 0%nat. split; [lia|]. split; [reflexivity|]. split; [intros x [<-|[]]; apply Qle_refl|]. intros; lia.
Qed.
Lemma Qabs_zero a b : Qabs (a - b) <= 0 -> a == b.
Proof. intros H. pose proof (Qle_Qabs (a - b)). pose proof (Qle_Qabs (- (a - b))) as H2. rewrite Qabs_opp in H2. lra. Qed.
Lemma Qabs_eq0 a b : a == b -> Qabs (a - b) == 0.
Proof. intros E. rewrite E. setoid_replace (b - b) with 0 by ring. reflexivity. Qed.
(** [r]: the record of the file [f] of [all]. *)
Definition own (all : list (text * Q)) (f : text * Q) (r : record) : Prop :=
  rec_t r = snd f /\ camera1 r = mkentry (snd f) (fst f) /\
  exists i, nth_error all i = Some (e_name (camera2 r), e_t (camera2 r)) /\ e_t (camera2 r) == snd f /\ forall j f', (j < i)%nat -> nth_error all j = Some f' -> ~ snd f' == snd f.
Lemma pairs_of_spec tol all : 0 <= tol -> forall files, incl files all -> exists out, pairs_of tol all files = Some out /\ Forall2 (own all) files out.
Proof.
  intros T. induction files as [|[n t] files IH]; intros I; [exists []; split; [reflexivity|constructor]|]. cbn [pairs_of].
  destruct (IH ltac:(intros x X; apply I; now right)) as (out & E & F). pose proof (nearest_spec (map (fun f => Qabs (t - snd f)) all) 0) as N0.
  destruct (nearest _ 0) as [[d k]|].
  2:{ exfalso. assert (In (n, t) all) as X by (apply I; now left). destruct all; [destruct X|discriminate]. }
  destruct N0 as (i & -> & Hi & Hm & Hf). cbn [Nat.add]. rewrite nth_error_map in Hi. destruct (nth_error all i) as [[n' t']|] eqn:Hn; [|discriminate]. change (Some (Qabs (t - t')) = Some d) in Hi. assert (Qabs (t - t') = d) as Hd by congruence.
  assert (d <= 0) as D0. { pose proof (Hm (Qabs (t - t)) ltac:(apply in_map_iff; exists (n, t); split; [reflexivity|apply I; now left])). rewrite (Qabs_eq0 t t) in H by reflexivity. exact H. }
  rewrite E. assert (Qle_bool d tol = true) as -> by (apply Qle_bool_iff; lra). eexists. split; [reflexivity|]. constructor; [|exact F].
  split; [reflexivity|]. split; [reflexivity|]. exists i. cbn [camera2 e_name e_t snd fst]. split; [exact Hn|]. split; [rewrite <- Hd in D0; apply Qabs_zero in D0; now symmetry|].
  intros j f' L Hj X. assert (d < Qabs (t - snd f')) as Y by (apply (Hf j); [exact L|rewrite nth_error_map, Hj; reflexivity]). rewrite (Qabs_eq0 t (snd f')) in Y by (now symmetry).
  pose proof (Qabs_nonneg (t - t')). rewrite Hd in H. lra.
Qed.
Lemma stamps_spec names : match stamps names with
  | None => exists n, In n names /\ decimal (stamp_text n) = None
  | Some ts => Forall2 (fun n t => decimal (stamp_text n) = Some t) names ts
  end.
Proof.
  induction names as [|n names IH]; [constructor|]. cbn [stamps]. destruct (decimal (stamp_text n)) as [q|] eqn:E.
  - destruct (stamps names) as [ts|]; [constructor; [exact E|exact IH]|]. destruct IH as (x & I & X). exists x. split; [now right|exact X].
  - exists n. split; [now left|exact E].
Qed.
Lemma nth_combine names : forall ts i n t, Forall2 (fun n t => decimal (stamp_text n) = Some t) names ts -> (nth_error (combine names ts) i = Some (n, t) <-> nth_error names i = Some n /\ decimal (stamp_text n) = Some t).
Proof.
  intros ts i n t F. revert i. induction F as [|n0 t0 names ts E F IH]; intros [|i]; cbn [nth_error combine]; try (split; [discriminate|intros [? _]; discriminate]); [|apply IH].
  split; [intros X; injection X as <- <-; split; [reflexivity|exact E]|intros [X Y]; injection X as <-; congruence].
Qed.

(** Each file has one record.  The second camera's file is the first one with the same time; a name that is no time is an error. *)
Theorem C235_records : forall listing, exists names, picked listing names /\
  match parse_extracted listing with
  | None => exists n, In n names /\ decimal (stamp_text n) = None
  | Some out => Forall2 (fun n r => decimal (stamp_text n) = Some (rec_t r) /\ camera1 r = mkentry (rec_t r) n /\
      exists i, nth_error names i = Some (e_name (camera2 r)) /\ decimal (stamp_text (e_name (camera2 r))) = Some (e_t (camera2 r)) /\ e_t (camera2 r) == rec_t r /\
        forall j n' q, (j < i)%nat -> nth_error names j = Some n' -> decimal (stamp_text n') = Some q -> ~ q == rec_t r) names out
  end.
Proof.
  intros listing. exists (image_files listing). split; [apply picked_files|]. unfold parse_extracted. set (names := image_files listing). clearbody names.
  pose proof (stamps_spec names) as S1. destruct (stamps names) as [ts|]; [|exact S1]. set (all := combine names ts).
  destruct (pairs_of_spec (5 # 100) all ltac:(discriminate) all (incl_refl all)) as (out & -> & F).
  assert (forall sub out, Forall2 (own all) sub out -> forall ns, sub = combine ns (map snd sub) /\ length ns = length sub -> Forall (fun f => decimal (stamp_text (fst f)) = Some (snd f)) sub ->
    Forall2 (fun n r => decimal (stamp_text n) = Some (rec_t r) /\ camera1 r = mkentry (rec_t r) n /\
      exists i, nth_error names i = Some (e_name (camera2 r)) /\ decimal (stamp_text (e_name (camera2 r))) = Some (e_t (camera2 r)) /\ e_t (camera2 r) == rec_t r /\
        forall j n' q, (j < i)%nat -> nth_error names j = Some n' -> decimal (stamp_text n') = Some q -> ~ q == rec_t r) ns out) as Main.
  { clear out F. intros sub out F. induction F as [|f r sub out (H1 & H2 & i & H3 & H4 & H5) F IH]; intros ns [E L] A.
    - destruct ns; [constructor|discriminate].
    - destruct ns as [|n ns]; [discriminate|]. cbn [map combine] in E. destruct f as [fn ft]. cbn [snd fst] in *. injection E as -> E. inversion A as [|? ? A1 A2]; subst. cbn [fst snd] in A1.
      constructor; [|apply IH; [split; [assumption|cbn in L; lia]|assumption]].
      apply nth_combine in H3 as [H3 H3']; [|exact S1]. split; [exact A1|]. split; [exact H2|]. exists i. split; [exact H3|]. split; [exact H3'|]. split; [exact H4|].
      intros j n' q Lj Hj Hq. apply (H5 j (n', q) Lj). apply nth_combine; [exact S1|]. split; assumption. }
  apply (Main all out F).
  - pose proof (Forall2_length_ _ _ _ S1) as L. unfold all. clear -L. revert ts L. induction names as [|n names IH]; intros [|t ts] L; try discriminate; [split; reflexivity|].
    destruct (IH ts ltac:(cbn in L; lia)) as [E L']. cbn [combine map snd length]. split; [now rewrite <- E|now rewrite L'].
  - apply Forall_forall. intros [n t] I. apply In_nth_error in I as [i Hi]. apply nth_combine in Hi as [_ H]; [exact H|exact S1].
Qed.
Print Assumptions C235_records.

Lemma no_char c a b : In c a -> ~ In c b -> ~ contains a b.
Proof. intros I N0 (x & y & ->). apply N0, in_app_iff. right. apply in_app_iff. now left. Qed.
Lemma picked_all l ns : (forall n, In n l -> exists stamp, n = frame_name stamp) -> picked l ns -> ns = l.
Proof.
  intros H P. induction P as [|n l ns _ _ _ IH|n l ns D _ _]; [reflexivity|rewrite IH; [reflexivity|intros x I; apply H; now right]|].
  exfalso. destruct (H n ltac:(now left)) as [stamp ->]. destruct D as [D|D]; revert D.
  - apply (no_char 116%N); [cbn; tauto|]. intros I. apply frame_chars in I as [I _]. now apply I.
  - apply (no_char 95%N); [cbn; tauto|]. intros I. apply frame_chars in I as [_ I]. now apply I.
Qed.
Lemma Forall2_in_l {A B} (P : A -> B -> Prop) l l' x : Forall2 P l l' -> In x l -> exists y, In y l' /\ P x y.
Proof. induction 1 as [|a b l l' H _ IH]; [intros []|]. intros [<-|I]; [exists b; split; [now left|exact H]|]. destruct (IH I) as (y & Iy & Hy). exists y. split; [now right|exact Hy]. Qed.
Lemma Forall2_in_r {A B} (P : A -> B -> Prop) l l' y : Forall2 P l l' -> In y l' -> exists x, In x l /\ P x y.
Proof. induction 1 as [|a b l l' H _ IH]; [intros []|]. intros [<-|I]; [exists a; split; [now left|exact H]|]. destruct (IH I) as (x & Ix & Hx). exists x. split; [now right|exact Hx]. Qed.

Lemma last_occurrence {K V} (x : K) (l : list (K * V)) : In x (map fst l) -> (forall a b : K, {a = b} + {a <> b}) -> exists b i a, l = b ++ (x, i) :: a /\ ~ In x (map fst a).
Proof.
  intros I D. induction l as [|[k v] l IH] using rev_ind; [destruct I|]. destruct (D k x) as [->|Ne]; [exists l, v, []; split; [reflexivity|intros []]|].
  rewrite map_app in I. apply in_app_iff in I as [I|[I|[]]]; [|contradiction]. destruct (IH I) as (b & i & a & -> & N0). exists b, i, (a ++ [(k, v)]). split; [now rewrite <- app_assoc|].
  rewrite map_app, in_app_iff. intros [Y|[Y|[]]]; [contradiction|]. now apply Ne.
Qed.
Lemma div_1e8_inj a b : inject_Z a / inject_Z (10 ^ 8) == inject_Z b / inject_Z (10 ^ 8) -> a = b.
Proof. intros E. assert (inject_Z a == inject_Z b) as X by (apply (Qmult_inj_r _ _ (/ inject_Z (10 ^ 8))); [discriminate|exact E]). exact (proj1 (inject_Z_injective a b) X). Qed.

(** From the bags to the records: stamps of at least a second, and no two of them within the same ten nanoseconds.  In whatever order the
    files are listed, each message has one record; its time is the stamp without the last digit, and both cameras' file is its image. *)
Theorem C235_roundtrip : forall I (messages : list (N * I)) listing, (forall m, In m messages -> 10 ^ 9 <= fst m)%N ->
  (forall m m', In m messages -> In m' messages -> (fst m / 10 = fst m' / 10)%N -> fst m = fst m') ->
  Permutation listing (map fst (extract messages)) ->
  exists out, parse_extracted listing = Some out /\ length out = length listing /\
    (forall r, In r out -> exists m, In m messages /\ camera1 r = mkentry (rec_t r) (frame_name (fst m)) /\ e_name (camera2 r) = frame_name (fst m) /\ e_t (camera2 r) == rec_t r /\
      rec_t r == inject_Z (Z.of_N (fst m / 10)) / inject_Z (10 ^ 8)) /\
    (forall m, In m messages -> exists r, In r out /\ e_name (camera1 r) = frame_name (fst m)).
Proof.
  intros I messages listing B Dist P. destruct (C235_extract I messages) as [_ X].
  assert (forall n, In n listing -> exists m, In m messages /\ n = frame_name (fst m)) as Src.
  { intros n In1. apply (Permutation_in _ P) in In1. apply in_map_iff in In1 as ([n' i] & <- & In1). apply X in In1 as (b & s & a & -> & -> & _). exists (s, i). split; [apply in_app_iff; right; now left|reflexivity]. }
  assert (forall m, In m messages -> In (frame_name (fst m)) listing) as Dst.
  { intros m Im. apply (Permutation_in _ (Permutation_sym P)). clear -X Im. unfold extract in *.
    destruct (last_occurrence (fst m) messages (in_map fst _ _ Im) N.eq_dec) as (b & i & a & E & N0).
    apply in_map_iff. exists (frame_name (fst m), i). split; [reflexivity|]. apply X. exists b, (fst m), a. repeat split; assumption. }
  destruct (C235_records listing) as (names & Pk & H). assert (names = listing) as ->.
  { apply (picked_all listing); [|exact Pk]. intros n In1. destruct (Src n In1) as (m & _ & ->). eexists. reflexivity. }
  destruct (parse_extracted listing) as [out|].
  2:{ exfalso. destruct H as (n & In1 & D). destruct (Src n In1) as (m & Im & ->). destruct (C235_name (fst m) (B m Im)) as (q & E & _). congruence. }
  exists out. split; [reflexivity|]. split; [symmetry; exact (Forall2_length_ _ _ _ H)|]. split.
  - intros r Ir. destruct (Forall2_in_r _ _ _ _ H Ir) as (n & In1 & H1 & H2 & i & H3 & H4 & H5 & _). destruct (Src n In1) as (m & Im & ->). exists m. split; [exact Im|]. split; [exact H2|].
    destruct (C235_name (fst m) (B m Im)) as (q & E & Vq). rewrite E in H1. assert (q = rec_t r) as Hq by congruence. rewrite Hq in Vq. split; [|split; [exact H5|exact Vq]].
    apply nth_error_In in H3. destruct (Src _ H3) as (m' & Im' & E'). rewrite E'. f_equal. apply Dist; [assumption|assumption|].
    rewrite E' in H4. destruct (C235_name (fst m') (B m' Im')) as (q' & E2 & Vq'). rewrite E2 in H4. assert (q' = e_t (camera2 r)) as Hq' by congruence. rewrite Hq', H5, Vq in Vq'. apply div_1e8_inj in Vq'. lia.
  - intros m Im. destruct (Forall2_in_l _ _ _ _ H (Dst m Im)) as (r & Ir & _ & H2 & _). exists r. split; [exact Ir|]. rewrite H2. reflexivity.
Qed.
Print Assumptions C235_roundtrip.

(** Two lines for each image, of the same time. *)
Theorem C235_acfr : forall listing, match parse_extracted listing, parse_extracted_acfr listing with
  | None, None => True
  | Some out, Some lines => length lines = (2 * length out)%nat /\ forall i r, nth_error out i = Some r -> nth_error lines (2 * i) = Some (camera1 r) /\ nth_error lines (2 * i + 1) = Some (camera2 r)
  | _, _ => False
  end.
Proof.
  intros listing. unfold parse_extracted_acfr. destruct (parse_extracted listing) as [out|]; [|exact Logic.I]. cbn [option_map]. induction out as [|r out [L IH]]; [split; [reflexivity|intros [|i]; discriminate]|].
  cbn [flat_map app length]. split; [rewrite L; lia|]. intros [|i] x H; [injection H as <-; split; reflexivity|]. replace (2 * S i)%nat with (S (S (2 * i))) by lia. cbn [nth_error Nat.add]. now apply IH.
Qed.
Print Assumptions C235_acfr.

(** ** Pairs of GoPro images *)
Theorem C235_gopro : forall l r rows, parse_gopro l r rows = map (fun x => mkrecord (g_epoch x) (mkentry (g_epoch x) (g_left x)) (mkentry (g_epoch x) (g_right x))) (filter (fun x => l (g_left x) && r (g_right x)) rows) /\
  (forall x, In x rows -> (l (g_left x) = true /\ r (g_right x) = true <-> exists y, In y (parse_gopro l r rows) /\ rec_t y = g_epoch x /\ e_name (camera1 y) = g_left x /\ e_name (camera2 y) = g_right x)).
Proof.
  intros l r rows. assert (parse_gopro l r rows = map (fun x => mkrecord (g_epoch x) (mkentry (g_epoch x) (g_left x)) (mkentry (g_epoch x) (g_right x))) (filter (fun x => l (g_left x) && r (g_right x)) rows)) as E.
  { induction rows as [|x rows IH]; [reflexivity|]. cbn [parse_gopro filter]. rewrite IH. destruct (l (g_left x)), (r (g_right x)); reflexivity. }
  split; [exact E|]. intros x I. rewrite E. split.
  - intros [H1 H2]. eexists. split; [apply in_map, filter_In; split; [exact I|now rewrite H1, H2]|repeat split].
  - intros (y & Iy & _ & H2 & H3). apply in_map_iff in Iy as (z & <- & Iz). apply filter_In in Iz as [_ B]. cbn in H2, H3. rewrite H2, H3 in B. now apply andb_true_iff in B.
Qed.
Print Assumptions C235_gopro.

(** ** Examples *)
Lemma none_some {A} (x : A) : None = Some x -> False.
Proof. discriminate. Qed.
(* 1631723390.279656550 s *)
Definition ex_stamp : N := 1631723390279656550.
Example C235_ex_name : show ex_stamp = [49; 54; 51; 49; 55; 50; 51; 51; 57; 48; 50; 55; 57; 54; 53; 54; 53; 53; 48]%N /\
  stamp_text (frame_name ex_stamp) = [49; 54; 51; 49; 55; 50; 51; 51; 57; 48; 46; 50; 55; 57; 54; 53; 54; 53; 53]%N /\
  option_map Qred (decimal (stamp_text (frame_name ex_stamp))) = Some (Qred (163172339027965655 # 100000000)).
Proof. repeat split; vm_compute; reflexivity. Qed.
(** Three messages, two with the same stamp; the listing is in another order and has a file of times. *)
Example C235_ex : map snd (extract [(ex_stamp, 1%nat); (ex_stamp + 500000000, 2%nat); (ex_stamp, 3%nat)]%N) = [2%nat; 3%nat] /\
  (forall out, parse_extracted [frame_name (ex_stamp + 500000000); str_txt; frame_name ex_stamp] = Some out ->
    map (fun r => (e_name (camera1 r), e_name (camera2 r))) out = [(frame_name (ex_stamp + 500000000), frame_name (ex_stamp + 500000000)); (frame_name ex_stamp, frame_name ex_stamp)]) /\
  parse_extracted [frame_name (ex_stamp + 500000000); str_txt; frame_name ex_stamp] <> None.
Proof.
  split; [vm_compute; reflexivity|]. assert (option_map (map (fun r => (e_name (camera1 r), e_name (camera2 r)))) (parse_extracted [frame_name (ex_stamp + 500000000); str_txt; frame_name ex_stamp]) =
    Some [(frame_name (ex_stamp + 500000000), frame_name (ex_stamp + 500000000)); (frame_name ex_stamp, frame_name ex_stamp)]) as E by (vm_compute; reflexivity).
  split; [intros out H; rewrite H in E; cbn [option_map] in E; congruence|]. intros H. rewrite H in E. clear H. change (None = Some [(frame_name (ex_stamp + 500000000), frame_name (ex_stamp + 500000000)); (frame_name ex_stamp, frame_name ex_stamp)]) in E. exact (none_some _ E).
Qed.

(** ** C236 *)
(** The images of the two cameras are within 50 ms of each other in pairs; none is paired with one of the other camera. *)
Theorem C236_stereo_refuted : exists camera_1 camera_2 out, length camera_1 = 2%nat /\ length camera_2 = 2%nat /\ parse_extracted (map frame_name (camera_1 ++ camera_2)) = Some out /\
  forall i a b, nth_error camera_1 i = Some a -> nth_error camera_2 i = Some b -> (b = a + 1000000)%N /\
    ~ exists r, In r out /\ e_name (camera1 r) = frame_name a /\ e_name (camera2 r) = frame_name b.
Proof.
  destruct (parse_extracted (map frame_name ([ex_stamp; ex_stamp + 500000000] ++ [ex_stamp + 1000000; ex_stamp + 501000000])%N)) as [out|] eqn:E; [|vm_compute in E; discriminate].
  exists [ex_stamp; ex_stamp + 500000000]%N, [ex_stamp + 1000000; ex_stamp + 501000000]%N, out. split; [reflexivity|]. split; [reflexivity|]. split; [exact E|].
  assert (Forall (fun r => e_name (camera2 r) = e_name (camera1 r)) out) as F. { vm_compute in E. injection E as <-. repeat constructor. }
  rewrite Forall_forall in F. intros i a b Ha Hb. assert (b = a + 1000000)%N as X by (destruct i as [|[|i]]; cbn in Ha, Hb; [injection Ha as <-; injection Hb as <-; reflexivity|injection Ha as <-; injection Hb as <-; reflexivity|destruct i; discriminate]).
  split; [exact X|]. intros (r & I & H1 & H2). rewrite (F r I), H1 in H2. apply frame_name_inj in H2. lia.
Qed.
Print Assumptions C236_stereo_refuted.
(** The time is not the stamp. *)
Theorem C236_exact_refuted : exists n q, (10 ^ 9 <= n)%N /\ decimal (stamp_text (frame_name n)) = Some q /\ ~ q == inject_Z (Z.of_N n) / inject_Z (10 ^ 9).
Proof. exists 1631723390279656559%N. eexists. split; [discriminate|]. split; [vm_compute; reflexivity|]. vm_compute. discriminate. Qed.
Print Assumptions C236_exact_refuted.
(** Clocks that start at zero: half a tenth of a second is read as half a second. *)
Theorem C236_start_refuted : exists n q, decimal (stamp_text (frame_name n)) = Some q /\ inject_Z (Z.of_N n) / inject_Z (10 ^ 9) == 5 # 100 /\ q == 5 # 10.
Proof. exists 50000000%N. eexists. split; [vm_compute; reflexivity|]. split; vm_compute; reflexivity. Qed.
Print Assumptions C236_start_refuted.
(** Two images within ten nanoseconds: the second one's record has the first one's file for the second camera. *)
Theorem C236_close_refuted : exists n n' out r, n <> n' /\ parse_extracted [frame_name n; frame_name n'] = Some out /\ In r out /\ e_name (camera1 r) = frame_name n' /\ e_name (camera2 r) = frame_name n.
Proof.
  exists ex_stamp, (ex_stamp + 5)%N. eexists. eexists. split; [discriminate|]. split; [vm_compute; reflexivity|]. split; [right; left; reflexivity|]. split; vm_compute; reflexivity.
Qed.
Print Assumptions C236_close_refuted.
(** Any other file in the folder ("a.csv") is an error. *)
Theorem C236_other_refuted : exists n other, decimal (stamp_text (frame_name n)) <> None /\ parse_extracted [frame_name n; other] = None.
Proof. exists ex_stamp, [97; 46; 99; 115; 118]%N. split; vm_compute; [discriminate|reflexivity]. Qed.
Print Assumptions C236_other_refuted.
Example C235_frame_example : frame_name 1234567890123456789 = [102; 114; 97; 109; 101; 49; 50; 51; 52; 53; 54; 55; 56; 57; 48; 46; 49; 50; 51; 52; 53; 54; 55; 56; 57; 46; 112; 110; 103]%N.
Proof. vm_compute. reflexivity. Qed.
