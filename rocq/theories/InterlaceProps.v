(** C14: interlacing. *)
From Coq Require Import Permutation.
From Verif Require Import PyBase InterlaceModel InterlaceSpec InterlaceProofs.

(** No record lost, duplicated or altered, whatever the stamps. *)
Theorem C14_permutation : forall {C} (repr : Q -> list N) (data : list (Q * C)) out,
  interlacer repr data = Some out -> Permutation out data.
Proof.
  intros C repr data out H. destruct data as [|r data]; [discriminate|].
  destruct (interlacer_general repr (r :: data) ltac:(discriminate)) as (out' & places & E & P & M & _).
  rewrite H in E. injection E as <-.
  apply (Permutation_map (nth_error (r :: data))) in P. rewrite M in P.
  assert (G : map (nth_error (r :: data)) (seq 0 (length (r :: data))) = map Some (r :: data)).
  { generalize (r :: data). clear. intro l. induction l as [|x l IH]; [reflexivity|].
    cbn [length seq map]. f_equal. rewrite <- seq_shift, map_map. cbn. exact IH. }
  rewrite G in P. apply Permutation_map_inv in P.
  destruct P as (l & E & P). rewrite P.
  assert (I : forall a b : list (Q * C), map Some a = map Some b -> a = b).
  { clear. induction a; intros [|y b] E; try discriminate; [reflexivity|]. cbn in E. injection E as -> E. f_equal. auto. }
  now rewrite (I _ _ E).
Qed.
Print Assumptions C14_permutation.

(** Stable time order, provided all stamps are written in plain decimals with
    the same number of digits before the point (as all epoch stamps from
    September 2001 to November 2286 are).  The condition is needed, see C114. *)
Theorem C14_time_order : forall {C} (repr : Q -> list N) (data : list (Q * C)) w,
  data <> [] -> (forall r, In r data -> decimal_text w (repr (fst r)) (fst r)) ->
  (forall r s, In r data -> In s data -> (fst r == fst s)%Q -> repr (fst r) = repr (fst s)) ->
  exists out, interlacer repr data = Some out /\ time_sorted data out.
Proof.
  intros C repr data w N D F.
  destruct (interlacer_general repr data N) as (out & places & E & P & M & O).
  exists out. split; [exact E|]. exists places. split; [exact P|]. split; [exact M|].
  intros a b i j p q L Ha Hb Hp Hq. destruct (O a b i j p q L Ha Hb Hp Hq) as [A B].
  assert (Le : (fst p <= fst q)%Q).
  { apply (decimal_le w (repr (fst p)) _ (repr (fst q))); [| |exact A]; apply D; eapply nth_error_In; eassumption. }
  destruct (Qlt_le_dec (fst p) (fst q)) as [Lt|Ge]; [now left|]. right.
  assert (Eq : (fst p == fst q)%Q) by (apply Qle_antisym; assumption). split; [exact Eq|].
  apply B. rewrite (F p q); [|eapply nth_error_In; eassumption|eapply nth_error_In; eassumption|exact Eq].
  destruct (str_le (repr (fst q)) (repr (fst q))) eqn:S; [reflexivity|]. rewrite (str_le_total _ _ S) in S. discriminate.
Qed.
Print Assumptions C14_time_order.

(** The same with the origin: every file starts as a list with one record of time 0.0, whose text has one
    digit.  [1 + w] digits in all other stamps, none of them with a leading zero. *)
Theorem C14_with_origin : forall {C} (repr : Q -> list N) (data : list (Q * C)) w,
  data <> [] ->
  (forall r, In r data -> (decimal_text (S w) (repr (fst r)) (fst r) /\ (inject_Z (10 ^ Z.of_nat w) <= fst r)%Q) \/ (decimal_text 1 (repr (fst r)) (fst r) /\ (fst r == 0)%Q)) ->
  (forall r s, In r data -> In s data -> (fst r == fst s)%Q -> repr (fst r) = repr (fst s)) ->
  exists out, interlacer repr data = Some out /\ time_sorted data out.
Proof.
  intros C repr data w N D F.
  destruct (interlacer_general repr data N) as (out & places & E & P & M & O).
  exists out. split; [exact E|]. exists places. split; [exact P|]. split; [exact M|].
  intros a b i j p q L Ha Hb Hp Hq. destruct (O a b i j p q L Ha Hb Hp Hq) as [A B].
  assert (Ip : In p data) by (eapply nth_error_In; eassumption). assert (Iq : In q data) by (eapply nth_error_In; eassumption).
  assert (Pos : (0 < inject_Z (10 ^ Z.of_nat w))%Q) by (unfold Qlt; cbn; pose proof (Z.pow_pos_nonneg 10 (Z.of_nat w)); lia).
  assert (Le : (fst p <= fst q)%Q).
  { destruct (D p Ip) as [[Tp Gp]|[Tp Zp]], (D q Iq) as [[Tq Gq]|[Tq Zq]].
    - now apply (decimal_le (S w) (repr (fst p)) _ (repr (fst q))).
    - exfalso. destruct (decimal_head _ _ _ Tp Gp) as (c & l & Ec & Hc). destruct (zero_head _ _ Tq Zq) as (l' & Ez). rewrite Ec, Ez in A. cbn [str_le] in A.
      destruct (N.ltb_spec c 48); [lia|]. destruct (N.ltb_spec 48 c); [discriminate|lia].
    - rewrite Zp. lra.
    - rewrite Zp, Zq. lra. }
  destruct (Qlt_le_dec (fst p) (fst q)) as [Lt|Ge]; [now left|]. right.
  assert (Eq : (fst p == fst q)%Q) by (apply Qle_antisym; assumption). split; [exact Eq|].
  apply B. rewrite (F p q Ip Iq Eq).
  destruct (str_le (repr (fst q)) (repr (fst q))) eqn:S; [reflexivity|]. rewrite (str_le_total _ _ S) in S. discriminate.
Qed.
Print Assumptions C14_with_origin.

(** The stamps are compared as text: "10.0" comes before "9.0". *)
Theorem C114_text_order_refuted : exists (repr : Q -> list N) (data : list (Q * nat)) out,
  (forall r, In r data -> exists w, decimal_text w (repr (fst r)) (fst r)) /\
  interlacer repr data = Some out /\ ~ time_sorted data out /\ out = [(10%Q, 1%nat); (9%Q, 0%nat)].
Proof.
  exists (fun q => if Qeq_bool q 9 then [57; 46; 48]%N else [49; 48; 46; 48]%N).
  exists [(9%Q, 0%nat); (10%Q, 1%nat)]. eexists. split; [|split; [vm_compute; reflexivity|split; [|reflexivity]]].
  - intros r [<-|[<-|[]]].
    + exists 1%nat, [9%N], [0%N]. repeat split. intros d Hd. cbn in Hd. destruct Hd as [<-|[<-|[]]]; reflexivity.
    + exists 2%nat, [1%N; 0%N], [0%N]. repeat split. intros d Hd. cbn in Hd. destruct Hd as [<-|[<-|[<-|[]]]]; reflexivity.
  - intros (places & P & M & O).
    destruct places as [|i [|j [|]]]; try discriminate M. cbn [map] in M.
    injection M as Mi Mj. destruct (O 0 1 i j _ _ ltac:(lia) eq_refl eq_refl Mi Mj)%nat as [K|[K _]]; discriminate K.
Qed.
Print Assumptions C114_text_order_refuted.

(** An empty record list is not interlaced to an empty file: it raises. *)
Theorem C114_empty_refuted : forall {C} (repr : Q -> list N), exists data : list (Q * C),
  (forall r, In r data -> decimal_text 1 (repr (fst r)) (fst r)) /\ interlacer repr data = None.
Proof. intros C repr. exists []. split; [intros r []|reflexivity]. Qed.
Print Assumptions C114_empty_refuted.

Example C14_example :
  let repr q := if Qeq_bool q 12 then [49; 50; 46; 48]%N else [49; 49; 46; 53]%N in
  interlacer repr [(12%Q, 0%nat); (23 # 2, 1%nat); (12%Q, 2%nat)] = Some [(23 # 2, 1%nat); (12%Q, 0%nat); (12%Q, 2%nat)] /\
  decimal_text 2 (repr 12%Q) 12 /\ decimal_text 2 (repr (23 # 2)) (23 # 2).
Proof.
  cbv zeta. split; [vm_compute; reflexivity|]. split.
  - exists [1%N; 2%N], [0%N]. repeat split. intros d Hd. cbn in Hd. destruct Hd as [<-|[<-|[<-|[]]]]; reflexivity.
  - exists [1%N; 1%N], [5%N]. repeat split. intros d Hd. cbn in Hd. destruct Hd as [<-|[<-|[<-|[]]]]; reflexivity.
Qed.
