From Coq Require Import Permutation Sorted.
From Verif Require Import PyBase InterlaceModel InterlaceSpec.

Lemma str_le_total a b : str_le a b = false -> str_le b a = true.
Proof.
  revert b. induction a as [|x a IH]; intros [|y b]; cbn; try congruence.
  destruct (N.ltb_spec x y), (N.ltb_spec y x); try congruence; try lia. apply IH.
Qed.

Lemma str_le_trans a b c : str_le a b = true -> str_le b c = true -> str_le a c = true.
Proof.
  revert b c. induction a as [|x a IH]; intros [|y b] [|z c]; cbn; try congruence.
  destruct (N.ltb_spec x y), (N.ltb_spec y x), (N.ltb_spec y z), (N.ltb_spec z y), (N.ltb_spec x z), (N.ltb_spec z x);
    try congruence; try lia. apply IH.
Qed.

Lemma str_le_antisym a b : str_le a b = true -> str_le b a = true -> a = b.
Proof.
  revert b. induction a as [|x a IH]; intros [|y b]; cbn; try congruence.
  destruct (N.ltb_spec x y), (N.ltb_spec y x); try congruence; try lia.
  intros H1 H2. f_equal; [lia|now apply IH].
Qed.

Lemma insert_perm {A} (key : A -> list N) x l : Permutation (insert key x l) (x :: l).
Proof.
  induction l as [|y l IH]; cbn; [reflexivity|]. destruct (str_le _ _); [reflexivity|].
  rewrite IH. apply perm_swap.
Qed.

Lemma sorted_perm {A} (key : A -> list N) l : Permutation (sorted key l) l.
Proof. induction l as [|x l IH]; cbn; [reflexivity|]. rewrite insert_perm. now constructor. Qed.

(** Order of the decorated list: by text, then by index. *)
Definition before (p q : nat * list N) : Prop :=
  str_le (snd p) (snd q) = true /\ (str_le (snd q) (snd p) = true -> (fst p < fst q)%nat).

Lemma before_trans p q r : before p q -> before q r -> before p r.
Proof.
  intros [A B] [C D]. split; [eapply str_le_trans; eassumption|].
  intro E. assert (fst p < fst q)%nat by (apply B; eapply str_le_trans; eassumption).
  assert (fst q < fst r)%nat by (apply D; eapply str_le_trans; eassumption). lia.
Qed.

Lemma insert_sorted x l : StronglySorted before l -> (forall y, In y l -> (fst x < fst y)%nat) ->
  StronglySorted before (insert snd x l).
Proof.
  induction l as [|y l IH]; intros S H; cbn.
  - constructor; constructor.
  - inversion S as [|? ? S' F]; subst.
    assert (Hy : (fst x < fst y)%nat) by (apply H; now left).
    destruct (str_le (snd x) (snd y)) eqn:E.
    + constructor; [exact S|]. assert (Bxy : before x y) by (split; [exact E|now intro]).
      constructor; [exact Bxy|]. rewrite Forall_forall in *. intros z Hz.
      eapply before_trans; [exact Bxy|now apply F].
    + constructor.
      * apply IH; [exact S'|]. intros; apply H; now right.
      * rewrite Forall_forall in *. intros z Hz.
        apply (Permutation_in _ (insert_perm snd x l)) in Hz. destruct Hz as [<-|Hz]; [|now apply F].
        split; [now apply str_le_total|]. intro K. congruence.
Qed.

Lemma sorted_sorted value : forall k, StronglySorted before (sorted snd (combine (seq k (length value)) value)).
Proof.
  induction value as [|v value IH]; intro k; cbn [length seq combine sorted]; [constructor|].
  apply insert_sorted; [apply IH|]. intros [i w] Hy.
  apply (Permutation_in _ (sorted_perm snd _)) in Hy. apply in_combine_l, in_seq in Hy. cbn. lia.
Qed.

Lemma sorted_nth l : StronglySorted before l -> forall a b p q, (a < b)%nat ->
  nth_error l a = Some p -> nth_error l b = Some q -> before p q.
Proof.
  induction 1 as [|x l S IH F]; intros a b p q H Ha Hb; [destruct a; discriminate|].
  destruct b as [|b]; [lia|]. destruct a as [|a].
  - injection Ha as <-. rewrite Forall_forall in F. apply F. eapply nth_error_In; exact Hb.
  - apply (IH a b); [lia|exact Ha|exact Hb].
Qed.

Lemma combine_seq_In {A} (l : list A) : forall k i v, In (i, v) (combine (seq k (length l)) l) ->
  nth_error l (i - k) = Some v /\ (k <= i)%nat.
Proof.
  induction l as [|x l IH]; intros k i v H; [destruct H|].
  cbn in H. destruct H as [E|H].
  - injection E as -> ->. rewrite Nat.sub_diag. split; [reflexivity|lia].
  - destruct (IH (S k) i v H) as [E L]. split; [|lia]. replace (i - k)%nat with (S (i - S k)) by lia. exact E.
Qed.

Lemma map_fst_combine {A B} (l : list A) : forall m : list B, length l = length m -> map fst (combine l m) = l.
Proof. induction l as [|x l IH]; intros [|y m] H; cbn in *; try discriminate; [reflexivity|]. f_equal. apply IH. lia. Qed.

Lemma gather {A} (l : list A) idx : (forall i, In i idx -> (i < length l)%nat) ->
  map (nth_error l) idx = map Some (flat_map (fun i => match nth_error l i with Some r => [r] | None => [] end) idx).
Proof.
  induction idx as [|i idx IH]; intro H; [reflexivity|]. cbn [map flat_map].
  destruct (nth_error l i) eqn:E.
  - cbn. f_equal. apply IH. intros; apply H; now right.
  - exfalso. apply nth_error_None in E. specialize (H i (or_introl eq_refl)). lia.
Qed.

Lemma interlacer_general {C} (repr : Q -> list N) (data : list (Q * C)) :
  data <> [] -> exists out places, interlacer repr data = Some out /\
    Permutation places (seq 0 (length data)) /\ map (nth_error data) places = map Some out /\
    forall a b i j p q, (a < b)%nat -> nth_error places a = Some i -> nth_error places b = Some j ->
      nth_error data i = Some p -> nth_error data j = Some q ->
      str_le (repr (fst p)) (repr (fst q)) = true /\
      (str_le (repr (fst q)) (repr (fst p)) = true -> (i < j)%nat).
Proof.
  intro N. unfold interlacer, sort_values.
  set (value := map (fun p => repr (fst p)) data).
  remember (sorted snd (combine (seq 0 (length value)) value)) as S eqn:HS.
  assert (SP : Permutation S (combine (seq 0 (length value)) value)) by (rewrite HS; apply sorted_perm).
  assert (SS : StronglySorted before S) by (rewrite HS; apply sorted_sorted). clear HS.
  assert (Lv : length value = length data) by apply map_length.
  assert (Ne : S <> []).
  { intro E. rewrite E in SP. apply Permutation_nil in SP. destruct data; [congruence|]. discriminate SP. }
  assert (ES : List.split S = (map fst S, map snd S)).
  { clear. induction S as [|[a b] S IH]; [reflexivity|]. cbn. now rewrite IH. }
  assert (PL : Permutation (map fst S) (seq 0 (length data))).
  { rewrite SP, map_fst_combine by (now rewrite seq_length). now rewrite Lv. }
  destruct S as [|s0 S0]; [congruence|]. rewrite ES. eexists. exists (map fst (s0 :: S0)).
  split; [reflexivity|]. split; [exact PL|]. split.
  - apply gather. intros i Hi. apply (Permutation_in _ PL), in_seq in Hi. lia.
  - intros a b i j p q L Ha Hb Hp Hq.
    rewrite nth_error_map in Ha, Hb.
    destruct (nth_error (s0 :: S0) a) as [[i' v]|] eqn:Ea; [|discriminate].
    destruct (nth_error (s0 :: S0) b) as [[j' w]|] eqn:Eb; [|discriminate].
    cbn in Ha, Hb. injection Ha as ->. injection Hb as ->.
    pose proof (sorted_nth _ SS _ _ _ _ L Ea Eb) as [B1 B2]. cbn in B1, B2.
    assert (V : forall k u r, In (k, u) (s0 :: S0) -> nth_error data k = Some r -> u = repr (fst r)).
    { intros k u r Hk Hr. apply (Permutation_in _ SP) in Hk. apply combine_seq_In in Hk. destruct Hk as [Hk _].
      rewrite Nat.sub_0_r in Hk. unfold value in Hk. rewrite nth_error_map, Hr in Hk. now injection Hk. }
    rewrite (V i v p (nth_error_In _ _ Ea) Hp) in *. rewrite (V j w q (nth_error_In _ _ Eb) Hq) in *. now split.
Qed.

(** ** Text order and numeric order *)
Lemma digits_from l : forall a, fold_left (fun a d => 10 * a + Z.of_N d)%Z l a =
  (a * 10 ^ Z.of_nat (length l) + digits_value l)%Z.
Proof.
  induction l as [|d l IH]; intro a.
  - cbn. unfold digits_value. cbn. lia.
  - cbn [fold_left length]. rewrite IH.
    change (digits_value (d :: l)) with (fold_left (fun a d => 10 * a + Z.of_N d)%Z l (10 * 0 + Z.of_N d)%Z). rewrite IH.
    rewrite Nat2Z.inj_succ, Z.pow_succ_r by lia. ring.
Qed.

Lemma digits_cons d l : digits_value (d :: l) = (Z.of_N d * 10 ^ Z.of_nat (length l) + digits_value l)%Z.
Proof. unfold digits_value at 1. cbn [fold_left]. rewrite digits_from. f_equal. Qed.

Lemma digits_bound l : (forall d, In d l -> (d < 10)%N) -> (0 <= digits_value l < 10 ^ Z.of_nat (length l))%Z.
Proof.
  induction l as [|d l IH]; intro H; [cbn; lia|].
  rewrite digits_cons. cbn [length]. rewrite Nat2Z.inj_succ, Z.pow_succ_r by lia.
  assert (Hd : (d < 10)%N) by (apply H; now left).
  assert (0 <= digits_value l < 10 ^ Z.of_nat (length l))%Z by (apply IH; intros; apply H; now right).
  nia.
Qed.

(** Scaled fraction comparison: [x / 10^m <= y / 10^n]. *)
Definition frac_le (f g : list N) : Prop :=
  (digits_value f * 10 ^ Z.of_nat (length g) <= digits_value g * 10 ^ Z.of_nat (length f))%Z.

Lemma str_le_frac f : forall g, (forall d, In d f -> (d < 10)%N) -> (forall d, In d g -> (d < 10)%N) ->
  str_le (map (N.add 48) f) (map (N.add 48) g) = true -> frac_le f g.
Proof.
  unfold frac_le.
  induction f as [|x f IH]; intros [|y g] Hf Hg H; cbn [map str_le] in H; try discriminate.
  - pose proof (digits_bound (y :: g) Hg) as B. 
    change (digits_value []) with 0%Z. rewrite Z.mul_0_l. cbn [length]. change (10 ^ Z.of_nat 0)%Z with 1%Z. lia.
  - assert (Hf' : forall d, In d f -> (d < 10)%N) by (intros; apply Hf; now right).
    assert (Hg' : forall d, In d g -> (d < 10)%N) by (intros; apply Hg; now right).
    pose proof (digits_bound f Hf') as Bf. pose proof (digits_bound g Hg') as Bg.
    rewrite !digits_cons. cbn [length]. rewrite !Nat2Z.inj_succ, !Z.pow_succ_r by lia.
    set (P := (10 ^ Z.of_nat (length f))%Z) in *. set (R := (10 ^ Z.of_nat (length g))%Z) in *.
    destruct (N.ltb_spec (48 + x) (48 + y)) as [L|L].
    + assert (Z.of_N x + 1 <= Z.of_N y)%Z by lia.
      transitivity ((Z.of_N y * P) * (10 * R))%Z; [apply Z.mul_le_mono_nonneg_r; nia|].
      replace (Z.of_N y * P * (10 * R))%Z with ((Z.of_N y * R) * (10 * P))%Z by ring. apply Z.mul_le_mono_nonneg_r; lia.
    + destruct (N.ltb_spec (48 + y) (48 + x)) as [L'|L']; [discriminate|].
      assert (x = y) by lia. subst y. specialize (IH g Hf' Hg' H). fold P R in IH.
      apply Z.le_sub_0. transitivity (10 * (digits_value f * R - digits_value g * P))%Z; [|lia]. apply Z.eq_le_incl. ring.
Qed.

Lemma str_le_int i : forall j r s, (forall d, In d i -> (d < 10)%N) -> (forall d, In d j -> (d < 10)%N) ->
  length i = length j -> str_le (map (N.add 48) i ++ r) (map (N.add 48) j ++ s) = true ->
  (digits_value i < digits_value j)%Z \/ (digits_value i = digits_value j /\ str_le r s = true).
Proof.
  induction i as [|x i IH]; intros [|y j] r s Hi Hj L H; try discriminate.
  - right. split; [reflexivity|exact H].
  - cbn [map app str_le] in H.
    assert (Hi' : forall d, In d i -> (d < 10)%N) by (intros; apply Hi; now right).
    assert (Hj' : forall d, In d j -> (d < 10)%N) by (intros; apply Hj; now right).
    pose proof (digits_bound i Hi') as Bi. pose proof (digits_bound j Hj') as Bj.
    injection L as L. rewrite !digits_cons, L. rewrite L in Bi.
    set (P := (10 ^ Z.of_nat (length j))%Z) in *.
    destruct (N.ltb_spec (48 + x) (48 + y)) as [A|A].
    + left. assert (Z.of_N x + 1 <= Z.of_N y)%Z by lia. nia.
    + destruct (N.ltb_spec (48 + y) (48 + x)) as [B|B]; [discriminate|].
      assert (x = y) by lia. subst y. destruct (IH j r s Hi' Hj' L H) as [K|[K K']]; [left|right]; [|split]; try assumption; lia.
Qed.

Lemma pow10 n : Z.pos (Pos.of_nat (10 ^ n)) = (10 ^ Z.of_nat n)%Z.
Proof.
  rewrite <- positive_nat_Z, Nat2Pos.id by (apply Nat.pow_nonzero; lia).
  rewrite Nat2Z.inj_pow. reflexivity.
Qed.

Lemma decimal_le w s1 v1 s2 v2 : decimal_text w s1 v1 -> decimal_text w s2 v2 ->
  str_le s1 s2 = true -> (v1 <= v2)%Q.
Proof.
  intros (i1 & f1 & -> & L1 & D1 & E1) (i2 & f2 & -> & L2 & D2 & E2) H.
  assert (A1 : forall d, In d i1 -> (d < 10)%N) by (intros; apply D1, in_or_app; now left).
  assert (A2 : forall d, In d i2 -> (d < 10)%N) by (intros; apply D2, in_or_app; now left).
  assert (B1 : forall d, In d f1 -> (d < 10)%N) by (intros; apply D1, in_or_app; now right).
  assert (B2 : forall d, In d f2 -> (d < 10)%N) by (intros; apply D2, in_or_app; now right).
  pose proof (digits_bound f1 B1) as F1. pose proof (digits_bound f2 B2) as F2.
  rewrite E1, E2. unfold Qle, Qplus, inject_Z. cbn [Qnum Qden]. rewrite !Pos2Z.inj_mul, !pow10.
  set (P := (10 ^ Z.of_nat (length f1))%Z) in *. set (R := (10 ^ Z.of_nat (length f2))%Z) in *.
  destruct (str_le_int i1 i2 _ _ A1 A2 ltac:(congruence) H) as [K|[K K']].
  - assert (digits_value i1 + 1 <= digits_value i2)%Z by lia.
    assert (digits_value i1 * P + digits_value f1 <= digits_value i2 * P)%Z by nia.
    transitivity ((digits_value i2 * P) * R)%Z; [nia|].
    assert (0 <= digits_value f2 * P)%Z by nia. nia.
  - cbn [str_le] in K'. change (46 <? 46)%N with false in K'. cbv iota in K'.
    pose proof (str_le_frac f1 f2 B1 B2 K') as K2. unfold frac_le in K2. fold P R in K2. rewrite K. nia.
Qed.

(** A stamp of [w] digits that is at least 10^(w-1) does not start with a zero; the text of zero does. *)
Lemma decimal_head w s v : decimal_text (S w) s v -> (inject_Z (10 ^ Z.of_nat w) <= v)%Q -> exists c l, s = c :: l /\ (49 <= c)%N.
Proof.
  intros (ip & fp & -> & L & D & E) H. destruct ip as [|d ip]; [discriminate|]. cbn [map app]. exists (48 + d)%N, (map (N.add 48) ip ++ 46%N :: map (N.add 48) fp).
  split; [reflexivity|]. destruct (N.eq_dec d 0) as [->|NE]; [exfalso|lia].
  assert (A : forall x, In x ip -> (x < 10)%N) by (intros x I; apply D; right; apply in_or_app; now left).
  assert (B : forall x, In x fp -> (x < 10)%N) by (intros x I; apply D; right; apply in_or_app; now right).
  pose proof (digits_bound ip A) as BA. pose proof (digits_bound fp B) as BB. injection L as L. rewrite L in BA.
  rewrite E, digits_cons in H. unfold Qle, Qplus, inject_Z in H. cbn [Qnum Qden] in H. rewrite ?Pos2Z.inj_mul, ?pow10 in H.
  set (P := (10 ^ Z.of_nat w)%Z) in *. set (R := (10 ^ Z.of_nat (length fp))%Z) in *. cbn [Z.of_N] in H. nia.
Qed.
Lemma zero_head s v : decimal_text 1 s v -> (v == 0)%Q -> exists l, s = 48%N :: l.
Proof.
  intros (ip & fp & -> & L & D & E) H. destruct ip as [|d [|e ip]]; try discriminate. cbn [map app]. exists (46%N :: map (N.add 48) fp). f_equal.
  assert (B : forall x, In x fp -> (x < 10)%N) by (intros x I; apply D; now right).
  pose proof (digits_bound fp B) as BB. rewrite E in H. unfold digits_value in H at 1. cbn [fold_left] in H.
  unfold Qeq, Qplus, inject_Z in H. cbn [Qnum Qden] in H. rewrite ?Pos2Z.inj_mul, ?pow10 in H. set (R := (10 ^ Z.of_nat (length fp))%Z) in *.
  assert (d = 0)%N by nia. subst. reflexivity.
Qed.
