(** C211, C212: the laser calibration from image pairs to the sampled cloud. *)
From Coq Require Import Qround Permutation Ascii String.
From Verif Require Import PyBase TimeModel InterpSpec NtnuProps LaserCalModel.
Open Scope Q_scope.

(** ** Pairing of detections *)
(** Columns increase and are whole numbers, as findLaserInImage returns them. *)
Definition whole_columns (l : list peak) : Prop := forall p, In p l -> exists n, col p == inject_Z n.
Lemma increasing_tail : forall (l : list peak) a, increasing col (a :: l) -> increasing col l.
Proof. intros l a I i j x y L A B. apply (I (S i) (S j)); [lia|exact A|exact B]. Qed.
Lemma increasing_head : forall (l : list peak) a b, increasing col (a :: l) -> In b l -> col a < col b.
Proof. intros l a b I H. apply In_nth_error in H. destruct H as (k & K). apply (I 0%nat (S k)); [lia|reflexivity|exact K]. Qed.
Lemma skip_spec : forall c l, exists passed, l = (passed ++ skip c l)%list /\ (forall q, In q passed -> col q < c) /\ match skip c l with [] => True | q :: _ => c <= col q end.
Proof.
  intros c. induction l as [|q l (passed & E & P & H)]; [exists []; split; [reflexivity|]; split; [intros q []|exact I]|]. cbn [skip]. destruct (Qle_bool c (col q)) eqn:L.
  - apply Qle_bool_iff in L. exists []. split; [reflexivity|]. split; [intros x []|exact L].
  - exists (q :: passed). split; [cbn; now rewrite <- E|]. split; [|exact H]. intros x [<-|X]; [|now apply P]. apply Qnot_le_lt. intros K. apply Qle_bool_iff in K. congruence.
Qed.
Lemma increasing_suffix : forall (a l : list peak), increasing col (a ++ l) -> increasing col l.
Proof. induction a as [|x a IH]; intros l I; [exact I|]. apply IH. now apply increasing_tail with x. Qed.
Lemma whole_close : forall a b x y, col a == inject_Z x -> col b == inject_Z y -> Qltb (Qabs (col b - col a)) 1 = true <-> col b == col a.
Proof.
  intros a b x y A B. rewrite Qltb_lt. rewrite A, B. split.
  - intros H. apply Qabs_Qlt_condition in H. destruct H as [H1 H2]. assert (K : (-1 < y - x < 1)%Z); [|now replace y with x by lia].
    split; rewrite Zlt_Qlt; unfold Z.sub; rewrite inject_Z_plus, inject_Z_opp; [change (inject_Z (-1)) with (-(1))|change (inject_Z 1) with 1]; lra.
  - intros E. setoid_replace (inject_Z y - inject_Z x) with 0 by (rewrite E; ring). reflexivity.
Qed.
(** The pairs are the detections of the two images in the same column, every such pair once, in order. *)
Theorem C211_pairs : forall pk1 pk2, whole_columns pk1 -> whole_columns pk2 -> increasing col pk1 -> increasing col pk2 ->
  reported (fun p => exists q, In q pk2 /\ col q == col p) (fun p pq => fst pq = p /\ In (snd pq) pk2 /\ col (snd pq) == col p) pk1 (pairs pk1 pk2).
Proof.
  intros pk1 pk2 W1 W2 I1 I2.
  assert (G : forall pk1 rest gone, pk2 = (gone ++ rest)%list -> (forall p q, In p pk1 -> In q gone -> col q < col p) -> whole_columns pk1 -> increasing col pk1 ->
    reported (fun p => exists q, In q pk2 /\ col q == col p) (fun p pq => fst pq = p /\ In (snd pq) pk2 /\ col (snd pq) == col p) pk1 (pairs pk1 rest)).
  { clear pk1 W1 I1. induction pk1 as [|p pk1 IH]; intros rest gone E Gn W1 I1; [constructor|]. cbn [pairs]. destruct (skip_spec (col p) rest) as (passed & Er & P & H).
    set (rest' := skip (col p) rest) in *.
    assert (E' : pk2 = ((gone ++ passed) ++ rest')%list) by (rewrite <- app_assoc, <- Er; exact E).
    assert (Gone : forall x q, In x (p :: pk1) -> In q (gone ++ passed) -> col q < col x).
    { intros x q X Q. apply in_app_or in Q. destruct Q as [Q|Q]; [now apply Gn|]. specialize (P q Q). destruct X as [<-|X]; [exact P|]. pose proof (increasing_head _ _ _ I1 X). lra. }
    assert (R : reported (fun p => exists q, In q pk2 /\ col q == col p) (fun p pq => fst pq = p /\ In (snd pq) pk2 /\ col (snd pq) == col p) pk1 (pairs pk1 rest')).
    { apply (IH rest' (gone ++ passed)%list E'); [intros x q X Q; apply Gone; [now right|exact Q]|intros x X; apply W1; now right|now apply increasing_tail with p]. }
    destruct (W1 p (or_introl eq_refl)) as (n & N).
    destruct rest' as [|q rest2] eqn:Er'.
    - apply rep_skip; [|exact R]. intros (q & Q & K). rewrite E', app_nil_r in Q. specialize (Gone p q (or_introl eq_refl) Q). lra.
    - assert (Iq : In q pk2) by (rewrite E'; apply in_or_app; right; now left). destruct (W2 q Iq) as (m & M). pose proof (whole_close p q n m N M) as Cl.
      destruct (Qltb (Qabs (col q - col p)) 1).
      + apply rep_use; [exists q; split; [exact Iq|now apply Cl]|split; [reflexivity|split; [exact Iq|now apply Cl]]|exact R].
      + apply rep_skip; [|exact R]. intros (q' & Q' & K). rewrite E' in Q'. apply in_app_or in Q'. destruct Q' as [Q'|[<-|Q']].
        * specialize (Gone p q' (or_introl eq_refl) Q'). lra.
        * apply Cl in K. discriminate.
        * rewrite E' in I2. apply increasing_suffix in I2. pose proof (increasing_head _ _ _ I2 Q'). lra. }
  apply (G pk1 pk2 []); auto. intros p q _ [].
Qed.
Print Assumptions C211_pairs.
(** The cloud has the triangulated point of every pair not behind the camera; the counts are those of kept and dropped pairs. *)
Theorem C211_cloud : forall tri unrec pk1 pk2, let '(cloud, count, inversed) := cloud_of tri unrec pk1 pk2 in
  cloud = map unrec (filter (fun p => Qle_bool 0 (snd p)) (map (fun pq => tri (fst pq) (snd pq)) (pairs pk1 pk2))) /\
  count = length cloud /\ (count + inversed = length (pairs pk1 pk2))%nat.
Proof.
  intros tri unrec pk1 pk2. unfold cloud_of.
  assert (G : forall l cl c i, let '(cloud, count, inversed) := fold_left (fun s pq => let '(cloud, count, inversed) := s in let p := tri (fst pq) (snd pq) in
      if Qltb (snd p) 0 then (cloud, count, S inversed) else ((cloud ++ [unrec p])%list, S count, inversed)) l (cl, c, i) in
    cloud = (cl ++ map unrec (filter (fun p => Qle_bool 0 (snd p)) (map (fun pq => tri (fst pq) (snd pq)) l)))%list /\ (count + length cl = c + length cloud)%nat /\ (count + inversed = c + i + length l)%nat).
  { induction l as [|pq l IH]; intros cl c i; cbn [fold_left map filter]; [rewrite app_nil_r; cbn; repeat split; lia|]. set (p := tri _ _).
    destruct (Qltb (snd p) 0) eqn:E.
    - specialize (IH cl c (S i)). destruct (fold_left _ l (cl, c, S i)) as [[cloud count] inv]. apply Qltb_lt in E.
      replace (Qle_bool 0 (snd p)) with false by (symmetry; apply Bool.not_true_iff_false; intros K; apply Qle_bool_iff in K; lra). destruct IH as (A & B & C). cbn [length]. repeat split; [exact A|lia|lia].
    - specialize (IH (cl ++ [unrec p])%list (S c) i). destruct (fold_left _ l (_, S c, i)) as [[cloud count] inv].
      replace (Qle_bool 0 (snd p)) with true by (symmetry; apply Qle_bool_iff, Qnot_lt_le; intros K; apply Qltb_lt in K; congruence).
      destruct IH as (A & B & C). cbn [map length]. rewrite <- app_assoc in A. cbn [app] in A. rewrite app_length in B. cbn [length] in B. repeat split; [exact A|lia|lia]. }
  specialize (G (pairs pk1 pk2) [] 0%nat 0%nat). destruct (fold_left _ _ _) as [[cloud count] inv]. destruct G as (A & B & C). cbn [app length] in *. repeat split; [exact A|lia|lia].
Qed.
Print Assumptions C211_cloud.

(** ** Stratified sampling *)
(** The layers between min_z and max_z, of equal height. *)
Definition layer (s : strata) (i : nat) (p : point) : bool :=
  let h := (max_z s - min_z s) / inject_Z (Z.of_nat (bins s)) in
  (Qle_bool (min_z s + inject_Z (Z.of_nat i) * h) (snd p) && Qltb (snd p) (min_z s + (inject_Z (Z.of_nat i) + 1) * h))%bool.
Inductive subsequence {A} : list A -> list A -> Prop :=
| sub_nil : subsequence [] []
| sub_keep x a l : subsequence a l -> subsequence (x :: a) (x :: l)
| sub_drop x a l : subsequence a l -> subsequence a (x :: l).

Definition cnt (c : option nat) : nat := match c with Some n => n | None => 0 end.
Definition at_ (counts : list (option nat)) (i : nat) : nat := cnt (nth i counts None).
Lemma put_spec : forall s counts i, (1 <= max_points s)%nat -> (i < length counts)%nat -> exists b c', put s counts i = Some (b, c') /\ length c' = length counts /\
  b = (at_ counts i <? max_points s)%nat /\ forall j, at_ c' j = if (Nat.eqb j i && b)%bool then S (at_ counts j) else at_ counts j.
Proof.
  intros s counts i M. revert i. induction counts as [|c counts IH]; intros i L; [cbn in L; lia|]. destruct i as [|i].
  - destruct c as [n|]; cbn [put].
    + destruct (n <? max_points s)%nat eqn:E; eexists; eexists; (split; [reflexivity|]); (split; [reflexivity|]); unfold at_; cbn [nth cnt]; rewrite E; (split; [reflexivity|]); intros [|j]; reflexivity.
    + eexists. eexists. split; [reflexivity|]. split; [reflexivity|]. unfold at_. cbn [nth cnt]. assert (0 <? max_points s = true)%nat as -> by (apply Nat.ltb_lt; lia). split; [reflexivity|]. intros [|j]; reflexivity.
  - cbn in L. destruct (IH i ltac:(lia)) as (b & c' & E & Lc & B & J). destruct c as [n|]; cbn [put]; rewrite E; cbn [bind fst snd]; (eexists; eexists; split; [reflexivity|]; split; [cbn; lia|]; split; [exact B|]);
      (intros [|j]; [reflexivity|]; unfold at_ in *; cbn [nth Nat.eqb]; apply J).
Qed.
Lemma inject_pos : forall n, (0 < n)%nat -> 0 < inject_Z (Z.of_nat n).
Proof. intros n L. change 0 with (inject_Z 0). rewrite <- Zlt_Qlt. lia. Qed.
Lemma height_pos : forall s, (0 < bins s)%nat -> min_z s < max_z s -> 0 < (max_z s - min_z s) / inject_Z (Z.of_nat (bins s)).
Proof. intros s B Z. apply Qlt_shift_div_l; [now apply inject_pos|lra]. Qed.
Lemma layer_floor : forall s p, (0 < bins s)%nat -> min_z s < max_z s -> min_z s <= snd p -> snd p < max_z s ->
  let i := Qfloor ((snd p - min_z s) / ((max_z s - min_z s) / inject_Z (Z.of_nat (bins s)))) in
  (0 <= i < Z.of_nat (bins s))%Z /\ forall j, layer s j p = true <-> j = Z.to_nat i.
Proof.
  intros s p B Z L U i. pose proof (height_pos s B Z) as H. pose proof (inject_pos _ B) as N. unfold layer. set (h := (max_z s - min_z s) / inject_Z (Z.of_nat (bins s))) in *.
  set (x := (snd p - min_z s) / h) in *. assert (X : snd p == min_z s + x * h) by (unfold x; field; lra). pose proof (Qfloor_le x) as F1. pose proof (Qlt_floor x) as F2. fold i in F1, F2. rewrite inject_Z_plus in F2. change (inject_Z 1) with 1 in F2.
  assert (X0 : 0 <= x) by (unfold x; apply Qle_shift_div_l; lra).
  assert (XN : x < inject_Z (Z.of_nat (bins s))). { unfold x. apply Qlt_shift_div_r; [exact H|]. unfold h. setoid_replace (inject_Z (Z.of_nat (bins s)) * ((max_z s - min_z s) / inject_Z (Z.of_nat (bins s)))) with (max_z s - min_z s) by (field; lra). lra. }
  assert (I0 : (0 <= i)%Z). { change 0%Z with (Qfloor 0). now apply Qfloor_resp_le. }
  assert (IN : (i < Z.of_nat (bins s))%Z) by (rewrite Zlt_Qlt; lra). split; [lia|].
  assert (lt_mul : forall a b, a * h <= b * h <-> a <= b).
  { intros a b. split; intros K; [apply Qmult_lt_0_le_reg_r with h; assumption|apply Qmult_le_compat_r; lra]. }
  intros j. rewrite Bool.andb_true_iff, Qle_bool_iff, Qltb_lt. rewrite X. split.
  - intros [J1 J2]. assert (A1 : inject_Z (Z.of_nat j) <= x) by (apply (proj1 (lt_mul _ _)); lra). assert (A2 : x < inject_Z (Z.of_nat j) + 1). { apply Qnot_le_lt. intros K. apply (proj2 (lt_mul _ _)) in K. lra. }
    assert (Z.of_nat j <= i)%Z by (rewrite <- (Qfloor_Z (Z.of_nat j)); now apply Qfloor_resp_le). assert (i < Z.of_nat j + 1)%Z by (rewrite Zlt_Qlt, inject_Z_plus; change (inject_Z 1) with 1; lra). lia.
  - intros ->. rewrite Z2Nat.id by exact I0. split; [assert (inject_Z i * h <= x * h) by (apply (proj2 (lt_mul _ _)); exact F1); lra|].
    apply Qnot_le_lt. intros K. assert (K' : (inject_Z i + 1) * h <= x * h) by lra. apply (proj1 (lt_mul _ _)) in K'. lra.
Qed.
Lemma layer_range : forall s p i, (i < bins s)%nat -> min_z s < max_z s -> layer s i p = true -> min_z s <= snd p /\ snd p < max_z s.
Proof.
  intros s p i I Z L. assert (B : (0 < bins s)%nat) by lia. pose proof (height_pos s B Z) as H. pose proof (inject_pos _ B) as N. unfold layer in L. set (h := (max_z s - min_z s) / inject_Z (Z.of_nat (bins s))) in *.
  apply Bool.andb_true_iff in L. rewrite Qle_bool_iff, Qltb_lt in L. destruct L as [L1 L2]. split.
  - assert (0 * h <= inject_Z (Z.of_nat i) * h); [|lra]. apply Qmult_le_compat_r; [|lra]. change 0 with (inject_Z 0). rewrite <- Zle_Qle. lia.
  - assert (T : inject_Z (Z.of_nat (bins s)) * h == max_z s - min_z s) by (unfold h; field; lra).
    assert ((inject_Z (Z.of_nat i) + 1) * h <= inject_Z (Z.of_nat (bins s)) * h); [|lra]. apply Qmult_le_compat_r; [|lra]. change 1 with (inject_Z 1). rewrite <- inject_Z_plus, <- Zle_Qle. lia.
Qed.
(** No exception; the sample keeps the order of the shuffled cloud, lies between min_z and max_z and has of every layer the
    first points, at most the number allowed. *)
Theorem C211_strata : forall s cloud, (1 <= bins s)%nat -> (1 <= max_points s)%nat -> min_z s < max_z s ->
  exists out, z_stratified s cloud = Some out /\ subsequence out cloud /\ (forall p, In p out -> min_z s <= snd p /\ snd p < max_z s) /\
    forall i, (i < bins s)%nat -> filter (layer s i) out = firstn (max_points s) (filter (layer s i) cloud).
Proof.
  intros s cloud B M Z. unfold z_stratified. replace (bins s =? 0)%nat with false by (symmetry; apply Nat.eqb_neq; lia).
  assert (G : forall cloud counts, length counts = bins s -> exists out, stratify s counts cloud = Some out /\ subsequence out cloud /\ (forall p, In p out -> min_z s <= snd p /\ snd p < max_z s) /\
    forall i, (i < bins s)%nat -> filter (layer s i) out = firstn (max_points s - at_ counts i) (filter (layer s i) cloud)).
  { clear cloud. induction cloud as [|p cloud IH]; intros counts L; cbn [stratify].
    - exists []. split; [reflexivity|]. split; [constructor|]. split; [intros p []|]. intros i _. now rewrite firstn_nil.
    - destruct (Qle_bool (min_z s) (snd p) && Qltb (snd p) (max_z s))%bool eqn:R.
      + apply Bool.andb_true_iff in R. rewrite Qle_bool_iff, Qltb_lt in R. destruct R as [R1 R2]. destruct (layer_floor s p ltac:(lia) Z R1 R2) as (I & J). set (i := Qfloor _) in *.
        replace (i <? 0)%Z with false by (symmetry; apply Z.ltb_ge; lia). destruct (put_spec s counts (Z.to_nat i) M ltac:(lia)) as (b & c' & -> & Lc & Eb & At). cbn [bind fst snd].
        destruct (IH c' ltac:(congruence)) as (out & -> & Sb & In_ & F). cbn [bind].
        assert (Lay : forall j, layer s j p = Nat.eqb j (Z.to_nat i)).
        { intros j. destruct (Nat.eqb_spec j (Z.to_nat i)) as [E|E]; [apply J; exact E|]. apply Bool.not_true_iff_false. intros K. apply J in K. contradiction. }
        exists (if b then p :: out else out). split; [reflexivity|]. split; [destruct b; [now apply sub_keep|now apply sub_drop]|]. split; [intros x X; destruct b; [destruct X as [<-|X]; [now split|now apply In_]|now apply In_]|].
        intros j Lj. specialize (F j Lj). rewrite At in F. cbn [filter]. rewrite Lay. destruct (Nat.eqb_spec j (Z.to_nat i)) as [Ej|Nj]; cbn [andb] in F.
        * rewrite Ej in *; clear Ej. destruct b; [|rewrite F]; symmetry in Eb.
          -- apply Nat.ltb_lt in Eb. cbn [filter]. rewrite Lay, Nat.eqb_refl. rewrite F. replace (max_points s - at_ counts (Z.to_nat i))%nat with (S (max_points s - S (at_ counts (Z.to_nat i)))) by lia. reflexivity.
          -- apply Nat.ltb_ge in Eb. replace (max_points s - at_ counts (Z.to_nat i))%nat with 0%nat by lia. reflexivity.
        * destruct b; [cbn [filter]; rewrite Lay|]; (destruct (Nat.eqb_spec j (Z.to_nat i)) as [K|_]; [contradiction|]) || idtac; exact F.
      + destruct (IH counts L) as (out & -> & Sb & In_ & F). exists out. split; [reflexivity|]. split; [now apply sub_drop|]. split; [exact In_|]. intros j Lj. cbn [filter].
        replace (layer s j p) with false; [now apply F|]. symmetry. apply Bool.not_true_iff_false. intros K. apply (layer_range s p j Lj Z) in K. destruct K as [K1 K2]. apply Qle_bool_iff in K1. apply Qltb_lt in K2. rewrite K1, K2 in R. discriminate. }
  destruct (G cloud (repeat None (bins s)) ltac:(apply repeat_length)) as (out & E & Sb & I & F). exists out. repeat (split; [assumption|]). intros i Li. rewrite (F i Li). f_equal.
  unfold at_. rewrite nth_repeat. cbn. lia.
Qed.
Print Assumptions C211_strata.
(** So how many points of a layer are kept does not depend on the shuffling. *)
Theorem C211_shuffle : forall s cloud cloud' out out' i, (1 <= bins s)%nat -> (1 <= max_points s)%nat -> min_z s < max_z s -> Permutation cloud cloud' ->
  z_stratified s cloud = Some out -> z_stratified s cloud' = Some out' -> (i < bins s)%nat ->
  length (filter (layer s i) out) = length (filter (layer s i) out') /\ length (filter (layer s i) out) = Nat.min (max_points s) (length (filter (layer s i) cloud)).
Proof.
  intros s cloud cloud' out out' i B M Z P E E' L. destruct (C211_strata s cloud B M Z) as (o & O & _ & _ & F). destruct (C211_strata s cloud' B M Z) as (o' & O' & _ & _ & F').
  rewrite E in O. rewrite E' in O'. injection O as <-. injection O' as <-. rewrite (F i L), (F' i L), !firstn_length.
  assert (PL : length (filter (layer s i) cloud) = length (filter (layer s i) cloud')).
  { clear -P. induction P; cbn [filter]; try lia; repeat match goal with |- context [if ?c then _ else _] => destruct c end; cbn [length]; lia. }
  rewrite PL. split; reflexivity.
Qed.
Print Assumptions C211_shuffle.

(** ** Image pairs *)
Lemma text_eqb_eq : forall a b, text_eqb a b = true <-> a = b.
Proof.
  induction a as [|x a IH]; intros [|y b]; cbn [text_eqb]; split; intros H; try discriminate; auto.
  - apply Bool.andb_true_iff in H. destruct H as [H1 H2]. apply Ascii.eqb_eq in H1. apply IH in H2. congruence.
  - injection H as -> ->. rewrite Ascii.eqb_refl. now apply IH.
Qed.
(** Short names: a left name that has the word image in it is looked up without its first five characters, any other as it is. *)
Definition looked_up (l r : list ascii) : Prop :=
  ((exists a b, l = a ++ ["i"; "m"; "a"; "g"; "e"]%char ++ b) /\ r = skipn 5 l) \/ ((forall a b, l <> a ++ ["i"; "m"; "a"; "g"; "e"]%char ++ b) /\ r = l).
Lemma starts_iff : forall w s, starts w s = true <-> exists b, s = w ++ b.
Proof.
  induction w as [|x w IH]; intros s; cbn [starts]; [split; [intros _; now exists s|reflexivity]|]. destruct s as [|y s]; [split; [discriminate|intros (b & H); discriminate]|].
  rewrite Bool.andb_true_iff, IH, Ascii.eqb_eq. split; [intros [-> (b & ->)]; now exists b|]. intros (b & H). injection H as -> ->. split; [reflexivity|now exists b].
Qed.
Lemma contains_iff : forall w s, contains w s = true <-> exists a b, s = a ++ w ++ b.
Proof.
  intros w. induction s as [|y s IH]; cbn [contains]; rewrite Bool.orb_true_iff, starts_iff.
  - split; [intros [(b & H)|H]; [now exists [], b|discriminate]|]. intros (a & b & H). left. exists b. destruct a; [exact H|discriminate].
  - rewrite IH. split.
    + intros [(b & H)|(a & b & ->)]; [now exists [], b|now exists (y :: a), b].
    + intros ([|z a] & b & H); [left; now exists b|right]. injection H as -> ->. now exists a, b.
Qed.
Lemma left_key_iff : forall l r, left_key l = r <-> looked_up l r.
Proof.
  intros l r. unfold left_key, looked_up. pose proof (contains_iff (list_ascii_of_string "image") l) as C. cbn [list_ascii_of_string] in *.
  destruct (contains _ l).
  - split; [intros <-; left; split; [now apply C|reflexivity]|]. intros [[_ ->]|[H _]]; [reflexivity|]. destruct (proj1 C eq_refl) as (a & b & E). now destruct (H a b).
  - split; [intros <-; right; split; [|reflexivity]|intros [[H _]|[_ ->]]; [apply C in H; discriminate|reflexivity]].
    intros a b E. assert (false = true) by (apply C; now exists a, b). discriminate.
Qed.
Theorem C211_names : forall lefts rights l r, In (l, r) (sync_names lefts rights) <-> In l lefts /\ In r rights /\ looked_up l r.
Proof.
  intros lefts rights l r. rewrite <- left_key_iff. unfold sync_names. rewrite in_flat_map. split.
  - intros (l' & L & H). apply in_flat_map in H. destruct H as (r' & R & H). destruct (text_eqb (left_key l') r') eqn:E; [|destruct H]. destruct H as [H|[]]. injection H as -> ->. apply text_eqb_eq in E. auto.
  - intros (L & R & E). exists l. split; [exact L|]. apply in_flat_map. exists r. split; [exact R|]. apply text_eqb_eq in E. rewrite E. now left.
Qed.
Print Assumptions C211_names.
(** Time-stamped names: a left image pairs with the right image nearest in time (the first of equals) if that is within 50 ms. *)
Lemma nearest_spec : forall t rights, match nearest t rights with
  | None => rights = []
  | Some (v, k) => exists r, nth_error rights k = Some r /\ v = Qabs (t - r) /\ forall j r', nth_error rights j = Some r' -> v <= Qabs (t - r') /\ ((j < k)%nat -> v < Qabs (t - r'))
  end.
Proof.
  intros t. induction rights as [|r rights IH]; [reflexivity|]. cbn [nearest]. destruct (nearest t rights) as [[v k]|].
  - destruct IH as (x & X & -> & H). destruct (Qle_bool (Qabs (t - r)) (Qabs (t - x))) eqn:E.
    + apply Qle_bool_iff in E. exists r. split; [reflexivity|]. split; [reflexivity|]. intros [|j] r' R; [injection R as <-; split; [lra|lia]|]. destruct (H j r' R). split; [lra|lia].
    + assert (E' : Qabs (t - x) < Qabs (t - r)) by (apply Qnot_le_lt; intros K; apply Qle_bool_iff in K; congruence). exists x. split; [exact X|]. split; [reflexivity|]. intros [|j] r' R; [injection R as <-; split; [lra|intros _; exact E']|]. destruct (H j r' R) as [H1 H2]. split; [exact H1|]. intros J. apply H2. lia.
  - subst rights. exists r. split; [reflexivity|]. split; [reflexivity|]. intros [|[|j]] r' R; try discriminate. injection R as <-. split; [lra|lia].
Qed.
Definition partner (lefts rights : list Q) (i k : nat) : Prop := exists t r, nth_error lefts i = Some t /\ nth_error rights k = Some r /\ Qabs (t - r) < 1 # 20 /\
  forall j r', nth_error rights j = Some r' -> Qabs (t - r) <= Qabs (t - r') /\ ((j < k)%nat -> Qabs (t - r) < Qabs (t - r')).
Theorem C211_times : forall lefts rights, rights <> [] -> exists out, sync_times 0 lefts rights = Some out /\ (forall i k, In (i, k) out <-> partner lefts rights i k) /\
  forall a b i j, (a < b)%nat -> nth_error (map fst out) a = Some i -> nth_error (map fst out) b = Some j -> (i < j)%nat.
Proof.
  intros lefts rights N.
  assert (G : forall lefts n, exists out, sync_times n lefts rights = Some out /\ (forall i k, In (i, k) out <-> (n <= i)%nat /\ partner lefts rights (i - n) k) /\
    forall a b i j, (a < b)%nat -> nth_error (map fst out) a = Some i -> nth_error (map fst out) b = Some j -> (i < j)%nat).
  { clear lefts. induction lefts as [|t lefts IH]; intros n; cbn [sync_times].
    - exists []. split; [reflexivity|]. split; [|intros [|a] b i j _ H; discriminate]. intros i k. split; [intros []|]. intros (_ & t & r & T & _). destruct (i - n)%nat; discriminate.
    - pose proof (nearest_spec t rights) as Ns. destruct (nearest t rights) as [[v k0]|]; [|contradiction]. destruct Ns as (r & R & -> & H). cbn [bind fst snd]. destruct (IH (S n)) as (out & -> & O & Ord). cbn [bind].
      assert (First : forall k, partner (t :: lefts) rights 0 k <-> k = k0 /\ Qabs (t - r) < 1 # 20).
      { intros k. split.
        - intros (t' & r' & T & R' & C & H'). injection T as <-. assert (k = k0).
          { destruct (lt_eq_lt_dec k k0) as [[K|K]|K]; [|exact K|]; exfalso.
            - destruct (H k r' R') as [_ K1]. specialize (K1 K). destruct (H' k0 r R) as [K2 _]. lra.
            - destruct (H' k0 r R) as [_ K1]. specialize (K1 K). destruct (H k r' R') as [K2 _]. lra. }
          subst k. rewrite R in R'. injection R' as <-. now split.
        - intros (-> & C). exists t, r. repeat (split; [assumption || reflexivity|]). exact H. }
      assert (Later : forall i k, partner (t :: lefts) rights (S i) k <-> partner lefts rights i k) by (intros; reflexivity).
      assert (Rest : forall i k, In (i, k) out <-> (n < i)%nat /\ partner (t :: lefts) rights (i - n) k).
      { intros i k. rewrite O. split; intros [L P]; (split; [lia|]); [replace (i - n)%nat with (S (i - S n)) by lia; now apply Later|replace (i - n)%nat with (S (i - S n)) in P by lia; now apply Later in P]. }
      destruct (Qltb (Qabs (t - r)) (1 # 20)) eqn:C.
      + apply Qltb_lt in C. eexists. split; [reflexivity|]. split.
        * intros i k. cbn [In]. rewrite Rest. split.
          -- intros [K|[L P]]; [injection K as <- <-; split; [lia|]; rewrite Nat.sub_diag; now apply First|split; [lia|exact P]].
          -- intros [L P]. destruct (Nat.eq_dec i n) as [->|Ni]; [left; rewrite Nat.sub_diag in P; apply First in P; destruct P as [-> _]; reflexivity|right; split; [lia|exact P]].
        * intros [|a] [|b] i j L A B; try lia; cbn [map nth_error fst] in A, B.
          -- injection A as <-. apply nth_error_In in B. apply in_map_iff in B. destruct B as ((x & k) & E & B). cbn in E. subst x. apply Rest in B. lia.
          -- apply (Ord a b i j); [lia|exact A|exact B].
      + eexists. split; [reflexivity|]. split; [|exact Ord]. intros i k. rewrite Rest. split; [intros [L P]; split; [lia|exact P]|]. intros [L P]. destruct (Nat.eq_dec i n) as [->|Ni]; [|split; [lia|exact P]].
        rewrite Nat.sub_diag in P. apply First in P. destruct P as [_ P]. apply Qltb_lt in P. congruence. }
  destruct (G lefts 0%nat) as (out & E & O & Ord). exists out. split; [exact E|]. split; [|exact Ord]. intros i k. rewrite O. rewrite Nat.sub_0_r. split; [intros [_ P]; exact P|intros P; split; [lia|exact P]].
Qed.
Print Assumptions C211_times.
(** More than 500 images, all paired: 500 different pairs spread over the dive, in order. *)
Lemma selection_nth : forall m n a, (a < m)%nat -> nth_error (selection m n) a = Some (a * n / m + n / (2 * m))%nat.
Proof. intros m n a L. unfold selection. rewrite nth_error_map, (nth_error_nth' _ 0%nat) by (now rewrite seq_length). rewrite seq_nth by exact L. reflexivity. Qed.
Lemma selection_spec : forall m n, (0 < m < n)%nat -> (forall i, In i (selection m n) -> (i < n)%nat) /\
  forall a b i j, (a < b)%nat -> nth_error (selection m n) a = Some i -> nth_error (selection m n) b = Some j -> (i < j)%nat.
Proof.
  intros m n L. split.
  - intros i I. unfold selection in I. apply in_map_iff in I. destruct I as (a & <- & A). apply in_seq in A.
    assert (H1 : (a * n / m <= (m - 1) * n / m)%nat) by (apply Nat.div_le_mono; nia).
    assert (H2 : ((m - 1) * n / m + n / (2 * m) < n)%nat); [|lia].
    pose proof (Nat.mul_div_le ((m - 1) * n) m ltac:(lia)). pose proof (Nat.mul_div_le n (2 * m) ltac:(lia)). nia.
  - intros a b i j AB A B. assert (b < length (selection m n))%nat as Lb by (apply nth_error_Some; congruence). unfold selection in Lb. rewrite map_length, seq_length in Lb.
    rewrite selection_nth in A, B by lia. injection A as <-. injection B as <-. apply Nat.add_lt_mono_r.
    assert (H1 : ((a + 1) * n / m <= b * n / m)%nat) by (apply Nat.div_le_mono; nia). assert (H2 : (a * n / m + 1 <= (a + 1) * n / m)%nat); [|lia].
    rewrite <- Nat.div_add by lia. apply Nat.div_le_mono; nia.
Qed.
Lemma collect_spec : forall {A} (l : list A) idx, (forall i, In i idx -> (i < length l)%nat) -> exists out, collect l idx = Some out /\ Forall2 (fun i x => nth_error l i = Some x) idx out.
Proof.
  intros A l. induction idx as [|i idx IH]; intros H; [exists []; split; [reflexivity|constructor]|]. destruct (nth_error l i) as [x|] eqn:X; [|apply nth_error_None in X; specialize (H i (or_introl eq_refl)); lia].
  destruct (IH (fun j J => H j (or_intror J))) as (out & E & F). exists (x :: out). cbn [collect]. rewrite X. cbn [bind]. rewrite E. split; [reflexivity|now constructor].
Qed.
Theorem C211_at_most_500 : forall {A} (lefts rights : list A) synced, (500 < length lefts)%nat -> length synced = length lefts ->
  exists idx out, chosen lefts rights synced = Some out /\ length out = 500%nat /\ Forall2 (fun i x => nth_error synced i = Some x) idx out /\
    forall a b i j, (a < b)%nat -> nth_error idx a = Some i -> nth_error idx b = Some j -> (i < j)%nat.
Proof.
  intros A lefts rights synced L E. destruct (selection_spec 500 (length lefts) ltac:(lia)) as [H1 H2]. exists (selection 500 (length lefts)). unfold chosen.
  replace (500 <? length lefts)%nat with true by (symmetry; apply Nat.ltb_lt; exact L). destruct (collect_spec synced (selection 500 (length lefts))) as (out & C & F); [intros i I; rewrite E; now apply H1|].
  exists out. split; [exact C|]. split; [|split; [exact F|exact H2]]. assert (Fl : length (selection 500 (length lefts)) = length out) by (clear -F; induction F; cbn; congruence). rewrite <- Fl. unfold selection. now rewrite map_length, seq_length.
Qed.
Print Assumptions C211_at_most_500.

(** ** Cached detections *)
(** Detections read back are those written, unless an image had none. *)
Lemma all_points_some : forall l, all_points (map Some l) = Some l.
Proof. induction l as [|p l IH]; [reflexivity|]. cbn. now rewrite IH. Qed.
Theorem C211_cache : forall two t b, t <> [] -> (two = true -> b <> []) ->
  get_laser_pixels false two (Some (written two t b)) (t, b) = get_laser_pixels true two None (t, b).
Proof.
  intros two t b T B. unfold get_laser_pixels, written, read_back. cbn [top bottom fst snd]. destruct t as [|p t]; [contradiction|]. cbn [entries]. rewrite all_points_some. cbn [bind].
  destruct two; [|reflexivity]. destruct b as [|q b]; [now specialize (B eq_refl)|]. cbn [entries]. rewrite all_points_some. reflexivity.
Qed.
Print Assumptions C211_cache.

Example ex_pairs : pairs [mkpeak 5 1; mkpeak 6 3; mkpeak 7 4] [mkpeak 8 0; mkpeak 9 3; mkpeak 2 5] = [(mkpeak 6 3, mkpeak 9 3)].
Proof. reflexivity. Qed.
Example ex_strata : z_stratified (mkstrata 1 3 2 1) [(0, 0, 5 # 2); (0, 0, 1); (0, 0, 3); (1, 0, 2); (1, 0, 3 # 2)] = Some [(0, 0, 5 # 2); (0, 0, 1)].
Proof. reflexivity. Qed.
Example ex_sync : sync_times 0 [0; 1; 2] [203 # 100; 1 # 100; 1 # 25] = Some [(0, 1); (2, 0)]%nat.
Proof. reflexivity. Qed.

(** * C212 *)
(** Only synchronised pairs are processed: not for 500 images or fewer. *)
Theorem C212_synchronised_refuted : exists (lefts rights : list nat) synced out, chosen lefts rights synced = Some out /\ incl synced (combine lefts rights) /\ exists p, In p out /\ ~ In p synced.
Proof. exists [1; 2]%nat, [1; 3]%nat, [(1, 1)]%nat, [(1, 1); (2, 3)]%nat. split; [reflexivity|]. split; [intros p [<-|[]]; now left|]. exists (2, 3)%nat. split; [right; now left|]. intros [K|[]]. discriminate. Qed.
Print Assumptions C212_synchronised_refuted.
(** With more than 500 images the calibration runs: not if the last ones have no partner. *)
Theorem C212_unpaired_refuted : exists (lefts rights : list nat) synced, incl synced (combine lefts rights) /\ (500 < length lefts)%nat /\ length lefts = length rights /\ (500 <= length synced)%nat /\ chosen lefts rights synced = None.
Proof.
  exists (seq 0 1000), (seq 0 1000), (combine (seq 0 998) (seq 0 998)). split; [|split; [apply Nat.ltb_lt; vm_compute; reflexivity|split; [reflexivity|split; [apply Nat.leb_le; vm_compute; reflexivity|vm_compute; reflexivity]]]].
  intros p P. change 1000%nat with (998 + 2)%nat. rewrite seq_app. assert (G : forall (a b c d : list nat), length a = length b -> incl (combine a b) (combine (a ++ c) (b ++ d))).
  { induction a as [|x a IH]; intros [|y b] c d L q Q; try discriminate; [destruct Q|]. destruct Q as [<-|Q]; [now left|right]. apply IH; [now injection L|exact Q]. }
  apply G; [reflexivity|exact P].
Qed.
Print Assumptions C212_unpaired_refuted.
(** Every right image is used once: no, the nearest one may be shared. *)
Theorem C212_shared_refuted : exists lefts rights i j k, sync_times 0 lefts rights = Some [(i, k); (j, k)] /\ i <> j.
Proof. exists [0; 1 # 100], [0; 1], 0%nat, 1%nat, 0%nat. split; [reflexivity|discriminate]. Qed.
Print Assumptions C212_shared_refuted.
(** A second run finds what the first wrote: not when an image had no detections. *)
Theorem C212_cache_refuted : exists two t b, get_laser_pixels false two None (t, b) = Some (t, b) /\ get_laser_pixels false two (Some (written two t b)) (t, b) = None.
Proof. exists false, [], []. split; reflexivity. Qed.
Print Assumptions C212_cache_refuted.
(** ... and the second laser switched on later stays without points. *)
Theorem C212_second_laser_refuted : exists t b, b <> [] /\ get_laser_pixels false true (Some (written false t b)) (t, b) = Some (t, []).
Proof. exists [mkpeak 1 1], [mkpeak 2 2]. split; [discriminate|reflexivity]. Qed.
Print Assumptions C212_second_laser_refuted.
(** No layer has more than max_bin_elements points: one if that is zero. *)
Theorem C212_no_points_refuted : exists s cloud p, max_points s = 0%nat /\ z_stratified s cloud = Some [p].
Proof. exists (mkstrata 0 1 1 0), [(0, 0, 0)], (0, 0, 0). split; reflexivity. Qed.
Print Assumptions C212_no_points_refuted.
(** Detections less than a pixel apart are paired (fractional columns): only if the right one is not left of the other. *)
Theorem C212_fractional_refuted : exists p q, Qabs (col q - col p) < 1 /\ pairs [p] [q] = [].
Proof. exists (mkpeak 0 1), (mkpeak 0 (1 # 2)). split; reflexivity. Qed.
Print Assumptions C212_fractional_refuted.
