From Coq Require Import NArith Nnat.
From Verif Require Import PyBase NmeaModel NmeaSpec.
Open Scope N_scope.

Lemma text_eqb_iff a b : text_eqb a b = true <-> a = b.
Proof. unfold text_eqb. destruct list_eq_dec; split; congruence. Qed.

Lemma join_split sep s : join sep (split sep s) = s.
Proof.
  induction s as [|c s IH]; [reflexivity|]. cbn [split].
  destruct (N.eqb_spec c sep) as [->|H].
  - cbn [join]. destruct (split sep s) eqn:E; [|now rewrite IH].
    destruct s; cbn in E; [discriminate|]. destruct (_ =? _); [discriminate|]. destruct (split sep s); discriminate.
  - destruct (split sep s) as [|w ws] eqn:E.
    + cbn in IH. now rewrite <- IH.
    + destruct ws; cbn [join] in *; now rewrite <- IH.
Qed.

Lemma split_nonempty sep s : exists w ws, split sep s = w :: ws.
Proof.
  destruct s as [|c s]; cbn; [eauto|]. destruct (_ =? _); [eauto|]. destruct (split sep s); eauto.
Qed.

Lemma split_none sep s : ~ In sep s -> split sep s = [s].
Proof.
  induction s as [|c s IH]; intro H; [reflexivity|]. cbn.
  destruct (N.eqb_spec c sep) as [->|N]; [exfalso; apply H; now left|].
  rewrite IH; [reflexivity|]. intro K; apply H; now right.
Qed.

Lemma split_app sep a b : ~ In sep a -> split sep (a ++ sep :: b) = a :: split sep b.
Proof.
  induction a as [|c a IH]; intro H; cbn.
  - now rewrite N.eqb_refl.
  - destruct (N.eqb_spec c sep) as [->|N]; [exfalso; apply H; now left|].
    rewrite IH; [reflexivity|]. intro K; apply H; now right.
Qed.

Lemma lstrip_split s : exists w, white w /\ s = w ++ lstrip s /\
  match lstrip s with [] => True | c :: _ => is_space c = false end.
Proof.
  induction s as [|c s IH].
  - exists []. split; [intros c []|]. now split.
  - cbn. destruct (is_space c) eqn:E.
    + destruct IH as (w & W & Es & H). exists (c :: w). split; [intros x [<-|Hx]; auto|].
      split; [cbn; now f_equal|exact H].
    + exists []. split; [intros x []|]. split; [reflexivity|exact E].
Qed.

Lemma lstrip_white w s : white w -> lstrip (w ++ s) = lstrip s.
Proof.
  induction w as [|c w IH]; intro H; [reflexivity|]. cbn. rewrite (H c) by now left.
  apply IH. intros x Hx. apply H. now right.
Qed.

Lemma white_rev w : white w -> white (rev w).
Proof. intros H c Hc. apply H. now apply in_rev. Qed.

Definition rstrip (s : text) : text := rev (lstrip (rev s)).

Lemma lstrip_mid a c b : is_space c = false -> lstrip (a ++ c :: b) = lstrip a ++ c :: b.
Proof.
  intro H. induction a as [|x a IH]; cbn; [now rewrite H|].
  destruct (is_space x); [exact IH|reflexivity].
Qed.

Lemma strip_mid a c b : is_space c = false -> strip (a ++ c :: b) = lstrip a ++ c :: rstrip b.
Proof.
  intro H. unfold strip, rstrip. rewrite lstrip_mid by exact H.
  rewrite rev_app_distr. cbn [rev]. rewrite <- app_assoc. cbn [app].
  rewrite lstrip_mid by exact H. rewrite rev_app_distr. cbn [rev].
  rewrite rev_involutive, <- app_assoc. reflexivity.
Qed.

Lemma lstrip_id s : (forall c, In c s -> is_space c = false) -> lstrip s = s.
Proof. destruct s as [|c s]; intro H; [reflexivity|]. cbn. now rewrite (H c) by now left. Qed.

Lemma rstrip_id s : (forall c, In c s -> is_space c = false) -> rstrip s = s.
Proof.
  intro H. unfold rstrip. rewrite lstrip_id; [apply rev_involutive|]. intros c Hc. apply H. now apply in_rev.
Qed.

Lemma rstrip_app a c b : is_space c = false -> rstrip (a ++ c :: b) = a ++ c :: rstrip b.
Proof.
  intro H. unfold rstrip. rewrite rev_app_distr. cbn [rev]. rewrite <- app_assoc. cbn [app].
  rewrite lstrip_mid by exact H. rewrite rev_app_distr. cbn [rev].
  rewrite rev_involutive, <- app_assoc. reflexivity.
Qed.

Lemma lstrip_incl s c : In c (lstrip s) -> In c s.
Proof. induction s as [|x s IH]; cbn; [tauto|]. destruct (is_space x); [right; auto|tauto]. Qed.

(** ** Hexadecimal text *)
Definition hval (s : text) (v : N) : option N :=
  fold_left (fun acc c => match acc, hex_digit c with
                          | Some v, Some d => Some (16 * v + d)
                          | _, _ => None end) s (Some v).

Ltac nle := repeat match goal with |- context [?a <=? ?b] => destruct (N.leb_spec a b); try (exfalso; lia); cbn [andb] end.
Lemma hex_digit_char d : d < 16 -> hex_digit (hex_char d) = Some d.
Proof.
  intro H. unfold hex_char. destruct (N.ltb_spec d 10) as [L|L]; unfold hex_digit; nle; f_equal; lia.
Qed.

Lemma hex_loop_value fuel : forall n acc v, n < 16 ^ N.of_nat fuel -> (0 < fuel)%nat ->
  hval (hex_loop fuel n acc) 0 = Some v <-> hval acc n = Some v.
Proof.
  induction fuel as [|f IH]; intros n acc v H F; [lia|]. cbn [hex_loop].
  destruct (N.ltb_spec n 16) as [L|L].
  - unfold hval at 1. cbn [fold_left]. rewrite hex_digit_char by exact L.
    replace (16 * 0 + n) with n by lia. reflexivity.
  - assert (n mod 16 < 16) by (apply N.mod_lt; lia).
    destruct f as [|f]. { cbn in H. lia. }
    rewrite IH; [|apply N.div_lt_upper_bound; [lia|]; rewrite Nat2N.inj_succ, N.pow_succ_r' in H; exact H|lia].
    unfold hval at 1. cbn [fold_left]. rewrite hex_digit_char by assumption.
    replace (16 * (n / 16) + n mod 16) with n by (apply N.div_mod; lia). reflexivity.
Qed.

Lemma hex_value_text n : hex_value (hex_text n) = Some n.
Proof.
  unfold hex_text. change (hval (hex_loop (S (N.to_nat (N.log2 n))) n []) 0 = Some n).
  apply hex_loop_value; [|lia|reflexivity].
  destruct (N.eq_dec n 0) as [->|Z]; [reflexivity|].
  destruct (N.log2_spec n ltac:(lia)) as [_ H].
  rewrite Nat2N.inj_succ, N2Nat.id. eapply N.lt_le_trans; [exact H|]. apply N.pow_le_mono_l. lia.
Qed.

Lemma hex_value_zfill s : s <> [] -> hex_value (zfill2 s) = hex_value s.
Proof. destruct s as [|a [|b s]]; intro H; [congruence| |]; reflexivity. Qed.

Lemma hex_text_nonempty n : hex_text n <> [].
Proof. intro H. pose proof (hex_value_text n) as E. rewrite H in E. cbn in E. injection E as <-. discriminate. Qed.

Lemma hex_digit_upper c : hex_digit (if (97 <=? c) && (c <=? 122) then c - 32 else c) = hex_digit c \/
  (102 < c /\ c <= 122).
Proof.
  destruct (N.leb_spec 97 c), (N.leb_spec c 122); cbn [andb]; try (now left).
  destruct (N.leb_spec c 102); [|now right]. left. unfold hex_digit. nle. f_equal. lia.
Qed.

Lemma hex_digit_big c : 102 < c /\ c <= 122 -> hex_digit (if (97 <=? c) && (c <=? 122) then c - 32 else c) = None.
Proof.
  intros [A B]. destruct (N.leb_spec 97 c); [|exfalso; lia]. destruct (N.leb_spec c 122); [|exfalso; lia]. cbn [andb].
  unfold hex_digit. nle; reflexivity.
Qed.

Lemma hval_upper s : forall v w, hval (upper s) v = Some w -> hval s v = Some w.
Proof.
  induction s as [|c s IH]; intros v w H; [exact H|].
  unfold hval, upper in *. cbn [map fold_left] in *.
  destruct (hex_digit_upper c) as [E|E].
  - rewrite E in H. destruct (hex_digit c); [now apply IH|].
    revert H. clear. intro H. exfalso. revert H. generalize (map (fun c0 => if (97 <=? c0) && (c0 <=? 122) then c0 - 32 else c0) s).
    induction l; cbn; [discriminate|assumption].
  - rewrite (hex_digit_big c E) in H. exfalso. revert H.
    generalize (map (fun c0 => if (97 <=? c0) && (c0 <=? 122) then c0 - 32 else c0) s).
    induction l; cbn; [discriminate|assumption].
Qed.

Lemma fold_xor s : forall v, fold_left N.lxor s v = N.lxor v (xor_all s).
Proof.
  induction s as [|c s IH]; intro v; cbn; [now rewrite N.lxor_0_r|].
  rewrite IH. fold (xor_all s). now rewrite N.lxor_assoc.
Qed.

Lemma xor_all_app a b : xor_all (a ++ b) = N.lxor (xor_all a) (xor_all b).
Proof.
  induction a as [|c a IH]; [reflexivity|]. cbn [app xor_all fold_right]. fold (xor_all (a ++ b)). fold (xor_all a).
  now rewrite IH, N.lxor_assoc.
Qed.

(** ** The accepted lines *)
Lemma hd_split_comma s h r : split comma s = h :: r -> exists q, s = h ++ q /\ (q = [] \/ hd_error q = Some comma).
Proof.
  revert h r. induction s as [|c s IH]; intros h r H; cbn in H.
  - injection H as <- _. exists []. split; [reflexivity|now left].
  - destruct (N.eqb_spec c comma) as [->|N].
    + injection H as <- _. eexists. split; [reflexivity|now right].
    + destruct (split comma s) as [|w ws] eqn:E.
      { destruct (split_nonempty comma s) as (? & ? & K). congruence. }
      injection H as <- _. destruct (IH _ _ eq_refl) as (q & Eq & Hq). exists q. split; [cbn; now rewrite <- Eq|exact Hq].
Qed.

Lemma string_sum_body s : string_sum (split comma s) = xor_all (tl s).
Proof. unfold string_sum. rewrite join_split, fold_xor. apply N.lxor_0_l. Qed.

(** Acceptance in terms of the raw line. *)
Lemma accepted_inv raw : accepted raw = true ->
  exists body ck, split star (strip raw) = [body; ck] /\
    hex_value ck = Some (xor_all (tl (strip body))) /\
    zfill2 (hex_text (xor_all (tl (strip body)))) = upper ck /\
    exists h q, strip body = h ++ q /\ (h = START \/ h = HEADING) /\ (q = [] \/ hd_error q = Some comma).
Proof.
  unfold accepted. intro H. destruct (split star (strip raw)) as [|body [|ck [|x y]]] eqn:E; cbn [hd] in H;
    destruct (split_nonempty comma (strip (hd [] (split star (strip raw))))) as (h & r & Es); rewrite E in Es; cbn [hd] in Es;
    rewrite Es in H; cbn [line_is_valid] in H; try discriminate.
  exists body, ck. split; [reflexivity|].
  apply andb_prop in H. destruct H as [Hh Hc]. rewrite <- Es, string_sum_body in Hc.
  apply text_eqb_iff in Hc. split; [|split; [exact Hc|]].
  - change (hval ck 0 = Some (xor_all (tl (strip body)))). apply hval_upper.
    change (hval (upper ck) 0) with (hex_value (upper ck)). rewrite <- Hc, hex_value_zfill by apply hex_text_nonempty.
    apply hex_value_text.
  - destruct (hd_split_comma _ _ _ Es) as (q & Eq & Hq). exists h, q. split; [exact Eq|]. split; [|exact Hq].
    apply Bool.orb_prop in Hh. destruct Hh as [K|K]; apply text_eqb_iff in K; auto.
Qed.

Lemma star_not_space : is_space star = false. Proof. reflexivity. Qed.

(** The raw line around the star. *)
Lemma split_raw p rest : ~ In star p ->
  split star (strip (p ++ star :: rest)) = lstrip p :: split star (rstrip rest).
Proof.
  intro H. rewrite strip_mid by apply star_not_space. apply split_app.
  intro K. apply H. now apply lstrip_incl.
Qed.

Lemma lxor_cancel a b x y : N.lxor a (N.lxor x b) = N.lxor a (N.lxor y b) -> x = y.
Proof.
  intro H. apply (f_equal (N.lxor a)) in H. rewrite <- !N.lxor_assoc, !N.lxor_nilpotent, !N.lxor_0_l in H.
  apply (f_equal (fun z => N.lxor z b)) in H. now rewrite !N.lxor_assoc, !N.lxor_nilpotent, !N.lxor_0_r in H.
Qed.

Lemma headers_start h q s : s = h ++ q -> h = START \/ h = HEADING ->
  exists x r, s = 36 :: x :: r /\ x <> 36.
Proof. intros -> [->| ->]; cbn; eexists; eexists; split; try reflexivity; discriminate. Qed.

Lemma lstrip_space s c r : lstrip s = c :: r -> is_space c = false.
Proof. destruct (lstrip_split s) as (w & _ & _ & H). intro E. now rewrite E in H. Qed.

Lemma strip_lstrip p : strip (lstrip p) = strip p.
Proof.
  assert (I : lstrip (lstrip p) = lstrip p).
  { destruct (lstrip p) as [|c r] eqn:E; [reflexivity|]. cbn. now rewrite (lstrip_space _ _ _ E). }
  unfold strip. now rewrite I.
Qed.

(** Both lines accepted, bodies compared. *)
Lemma both_accepted p p' rest : ~ In star p -> ~ In star p' ->
  accepted (p ++ star :: rest) = true -> accepted (p' ++ star :: rest) = true ->
  xor_all (tl (strip p)) = xor_all (tl (strip p')) /\
  (exists x r, strip p = 36 :: x :: r /\ x <> 36) /\ (exists x r, strip p' = 36 :: x :: r /\ x <> 36).
Proof.
  intros S S' A A'.
  destruct (accepted_inv _ A) as (body & ck & E & V & _ & h & q & Eb & Hh & _).
  destruct (accepted_inv _ A') as (body' & ck' & E' & V' & _ & h' & q' & Eb' & Hh' & _).
  rewrite split_raw in E, E' by assumption. injection E as <- Ec. injection E' as <- Ec'.
  rewrite strip_lstrip in *.
  assert (ck = ck') by congruence. subst ck'. split; [congruence|].
  split; eapply headers_start; eassumption.
Qed.

Lemma corrupted_rejected a c b rest c' : 
  ~ In star (a ++ c :: b) -> is_space c = false -> is_space c' = false -> c <> c' ->
  accepted (a ++ c :: b ++ star :: rest) = true ->
  accepted (a ++ c' :: b ++ star :: rest) = false.
Proof.
  intros S Hc Hc' N A. destruct (accepted (a ++ c' :: b ++ star :: rest)) eqn:A'; [exfalso|reflexivity].
  destruct (N.eq_dec c' star) as [->|Nst].
  - destruct (accepted_inv _ A') as (body & ck & E & _).
    rewrite split_raw in E by (intro K; apply S, in_or_app; now left).
    injection E as _ E.
    assert (Sb : ~ In star b) by (intro K; apply S, in_or_app; right; now right).
    rewrite rstrip_app in E by apply star_not_space.
    rewrite split_app in E by exact Sb. destruct (split_nonempty star (rstrip rest)) as (w & ws & Ew).
    rewrite Ew in E. discriminate.
  - change (a ++ c :: b ++ star :: rest) with (a ++ (c :: b) ++ star :: rest) in A.
    change (a ++ c' :: b ++ star :: rest) with (a ++ (c' :: b) ++ star :: rest) in A'.
    rewrite app_assoc in A, A'.
    assert (S' : ~ In star (a ++ c' :: b)).
    { intro K. apply S. apply in_app_or in K. apply in_or_app. destruct K as [K|[K|K]]; [now left|congruence|right; now right]. }
    destruct (both_accepted _ _ _ S S' A A') as (X & (x & r & E1 & Nx) & (x' & r' & E2 & Nx')).
    rewrite !strip_mid in * by assumption.
    destruct (lstrip a) as [|z al].
    + cbn in E1, E2. congruence.
    + cbn [app tl] in X. rewrite !xor_all_app in X. cbn [xor_all fold_right] in X. fold (xor_all (rstrip b)) in X.
      apply N. eapply lxor_cancel. exact X.
Qed.

Lemma blanked_rejected a c b rest c' :
  plain (a ++ c :: b) -> c <> 0 -> is_space c' = true ->
  accepted (a ++ c :: b ++ star :: rest) = true ->
  accepted (a ++ c' :: b ++ star :: rest) = false.
Proof.
  intros P Z Hc' A. destruct (accepted (a ++ c' :: b ++ star :: rest)) eqn:A'; [exfalso|reflexivity].
  assert (Pa : forall x, In x a -> is_space x = false) by (intros x Hx; apply P, in_or_app; now left).
  assert (Pb : forall x, In x b -> is_space x = false) by (intros x Hx; apply P, in_or_app; right; now right).
  assert (Hc : is_space c = false) by (apply P, in_or_app; right; now left).
  assert (N : c <> c') by congruence.
  change (a ++ c :: b ++ star :: rest) with (a ++ (c :: b) ++ star :: rest) in A.
  change (a ++ c' :: b ++ star :: rest) with (a ++ (c' :: b) ++ star :: rest) in A'.
  rewrite app_assoc in A, A'.
  assert (S : ~ In star (a ++ c :: b)) by (intro K; now apply (P star K)).
  assert (S' : ~ In star (a ++ c' :: b)).
  { intro K. apply S. apply in_app_or in K. apply in_or_app.
    destruct K as [K|[K|K]]; [now left|subst c'; discriminate|right; now right]. }
  destruct (both_accepted _ _ _ S S' A A') as (X & (x & r & E1 & Nx) & (x' & r' & E2 & Nx')).
  rewrite strip_mid in X, E1 by assumption. rewrite (lstrip_id a Pa), (rstrip_id b Pb) in X, E1.
  destruct a as [|y a1].
  - cbn [app] in *. unfold strip in E2. cbn [lstrip] in E2. rewrite Hc' in E2.
    rewrite (lstrip_id b Pb) in E2. fold (rstrip b) in E2. rewrite (rstrip_id b Pb) in E2.
    injection E1 as _ E1. congruence.
  - assert (Hy : is_space y = false) by (apply Pa; now left).
    assert (Es : strip ((y :: a1) ++ c' :: b) = y :: rstrip (a1 ++ c' :: b)) by
      (apply (strip_mid [] y (a1 ++ c' :: b) Hy)).
    rewrite Es in X. cbn [app tl] in X.
    destruct (rev b) as [|z bl] eqn:Rb.
    + assert (b = []) by (rewrite <- (rev_involutive b), Rb; reflexivity). subst b.
      assert (Er : rstrip (a1 ++ [c']) = a1).
      { unfold rstrip. rewrite rev_app_distr. cbn. rewrite Hc'. fold (rstrip a1). apply rstrip_id.
        intros; apply Pa; now right. }
      rewrite Er, xor_all_app in X. cbn in X. rewrite N.lxor_0_r in X.
      apply Z. apply (lxor_cancel (xor_all a1) 0). now rewrite !N.lxor_0_r, X.
    + assert (Eb : b = rev bl ++ [z]) by (rewrite <- (rev_involutive b), Rb; reflexivity).
      assert (Hz : is_space z = false) by (apply Pb; rewrite Eb; apply in_or_app; right; now left).
      assert (Er : rstrip (a1 ++ c' :: b) = a1 ++ c' :: b).
      { rewrite Eb. change (a1 ++ c' :: rev bl ++ [z]) with (a1 ++ (c' :: rev bl) ++ z :: []).
        rewrite app_assoc, rstrip_app by exact Hz. reflexivity. }
      rewrite Er, !xor_all_app in X. cbn [xor_all fold_right] in X. fold (xor_all b) in X.
      apply N. eapply lxor_cancel. exact X.
Qed.

(** Two digits for ASCII bodies. *)
Lemma xor_small s : (forall c, In c s -> c < 128) -> xor_all s < 128.
Proof.
  induction s as [|c s IH]; intro H; [reflexivity|]. cbn. fold (xor_all s).
  assert (A : c < 128) by (apply H; now left). assert (B : xor_all s < 128) by (apply IH; intros; apply H; now right).
  assert (K : forall x, x < 128 <-> N.log2 x < 7 \/ x = 0).
  { intro x. destruct (N.eq_dec x 0) as [->|Nx]; [split; [now right|reflexivity]|].
    change 128 with (2 ^ 7). rewrite N.log2_lt_pow2 by lia. tauto. }
  apply K. destruct (N.eq_dec (N.lxor c (xor_all s)) 0); [now right|left].
  eapply N.le_lt_trans; [apply N.log2_lxor|]. apply N.max_lub_lt.
  - destruct (proj1 (K c) A) as [L| ->]; [exact L|reflexivity].
  - destruct (proj1 (K (xor_all s)) B) as [L|E]; [exact L|rewrite E; reflexivity].
Qed.

Lemma two_digits n ck : n < 128 -> zfill2 (hex_text n) = upper ck -> length ck = 2%nat.
Proof.
  intros H E. assert (L : length ck = length (zfill2 (hex_text n))).
  { rewrite E. unfold upper. now rewrite map_length. }
  rewrite L. clear -H.
  assert (F : Forall (fun k => length (zfill2 (hex_text k)) = 2%nat) (map N.of_nat (seq 0 128))).
  { rewrite Forall_forall. intros k Hk. 
    assert (B : forallb (fun k => Nat.eqb (length (zfill2 (hex_text k))) 2) (map N.of_nat (seq 0 128)) = true) by (vm_compute; reflexivity).
    rewrite forallb_forall in B. apply Nat.eqb_eq. now apply B. }
  rewrite Forall_forall in F. apply F. apply in_map_iff. exists (N.to_nat n). split; [apply N2Nat.id|].
  apply in_seq. lia.
Qed.

(** Necessary and sufficient condition on lines without spaces. *)
Lemma accepted_iff body ck : plain body -> (forall c, In c body -> c < 128) -> plain ck ->
  accepted (body ++ star :: ck) = true <->
  (exists h q, body = h ++ q /\ (h = START \/ h = HEADING) /\ (q = [] \/ hd_error q = Some comma)) /\
  length ck = 2%nat /\ hex_value ck = Some (xor_all (tl body)).
Proof.
  intros P SM PC.
  assert (Sb : ~ In star body) by (intro K; now apply (P star K)).
  assert (Sc : ~ In star ck) by (intro K; now apply (PC star K)).
  assert (Eb : strip body = body).
  { unfold strip. rewrite (lstrip_id body) by (intros x Hx; exact (proj1 (P x Hx))). apply rstrip_id. intros x Hx; exact (proj1 (P x Hx)). }
  assert (Er : rstrip ck = ck) by (apply rstrip_id; intros x Hx; exact (proj1 (PC x Hx))).
  assert (TS : forall c, In c (tl body) -> c < 128) by (intros c Hc; apply SM; destruct body; [destruct Hc|now right]).
  split.
  - intro A. destruct (accepted_inv _ A) as (b & k & E & V & Z & h & q & B & Hh & Hq).
    rewrite split_raw in E by exact Sb. rewrite Er, (split_none star ck Sc) in E. injection E as <- <-.
    rewrite strip_lstrip, Eb in *. split; [exists h, q; auto|]. split; [|exact V].
    eapply two_digits; [|exact Z]. now apply xor_small.
  - intros ((h & q & B & Hh & Hq) & L & V). unfold accepted. rewrite split_raw by exact Sb.
    rewrite Er, (split_none star ck Sc). cbn [hd]. rewrite strip_lstrip, Eb.
    assert (Es : exists r, split comma body = h :: r).
    { assert (Nh : ~ In comma h) by (destruct Hh as [->| ->]; vm_compute; intuition discriminate).
      rewrite B. destruct Hq as [->|Hq]; [rewrite app_nil_r, split_none by exact Nh; eauto|].
      destruct q as [|x q]; [discriminate|]. injection Hq as ->. rewrite split_app by exact Nh. eauto. }
    destruct Es as (r & Es). rewrite Es. cbn [line_is_valid]. rewrite <- Es, string_sum_body.
    assert (Hd : (text_eqb h START || text_eqb h HEADING)%bool = true) by (destruct Hh as [->| ->]; reflexivity).
    rewrite Hd. cbn [andb]. apply text_eqb_iff.
    pose proof (xor_small _ TS) as X. revert V X. generalize (xor_all (tl body)). clear -L. intros n V X.
    destruct ck as [|c1 [|c2 [|]]]; try discriminate. clear L.
    unfold hex_value in V. cbn [fold_left] in V.
    destruct (hex_digit c1) as [d1|] eqn:D1; [|discriminate]. destruct (hex_digit c2) as [d2|] eqn:D2; [|discriminate].
    injection V as <-.
    assert (U : forall c d, hex_digit c = Some d -> d < 16 /\ (if (97 <=? c) && (c <=? 122) then c - 32 else c) = hex_char d).
    { clear. intros c d. unfold hex_digit, hex_char. nle; intro HD; try discriminate; injection HD as <-;
      (split; [lia|]); match goal with |- context [?a <? ?b] => destruct (N.ltb_spec a b) end; lia. }
    destruct (U _ _ D1) as [L1 U1], (U _ _ D2) as [L2 U2].
    cbn [upper map]. rewrite U1, U2. clear -L1 L2.
    assert (F : forallb (fun a => forallb (fun b => text_eqb (zfill2 (hex_text (16 * (16 * 0 + a) + b))) [hex_char a; hex_char b])
       (map N.of_nat (seq 0 16))) (map N.of_nat (seq 0 16)) = true) by (vm_compute; reflexivity).
    rewrite forallb_forall in F. specialize (F d1). rewrite forallb_forall in F. apply text_eqb_iff. apply F.
    + apply in_map_iff. exists (N.to_nat d1). split; [apply N2Nat.id|apply in_seq; lia].
    + apply in_map_iff. exists (N.to_nat d2). split; [apply N2Nat.id|apply in_seq; lia].
Qed.
