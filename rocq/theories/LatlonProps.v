(** C30: degrees, minutes and hemisphere. *)
From Verif Require Import PyBase NmeaModel NmeaProofs LatlonModel.
Open Scope Q_scope.

(** ** Specification: the hemispheres, and what a position in each of them means. *)
Inductive hemisphere := North | South | East | West.
Definition letter (h : hemisphere) : N :=
  match h with North => 78 | South => 83 | East => 69 | West => 87 end%N. (* N S E W *)
Definition position (h : hemisphere) (d m : Q) : Q :=
  match h with North | East => d + m / 60 | South | West => - (d + m / 60) end.
Definition of_latitude (h : hemisphere) : Prop := h = North \/ h = South.
Definition of_longitude (h : hemisphere) : Prop := h = East \/ h = West.

(** The value of digits: the last counts one, the one before ten, ... *)
Fixpoint place_value (ds : list Z) : Z := match ds with [] => 0 | d :: r => d * 10 ^ Z.of_nat (length r) + place_value r end%Z.
Definition spelled (ds : list Z) : text := map (fun d => Z.to_N (48 + d)) ds.
Definition all_digits (ds : list Z) : Prop := forall d, In d ds -> (0 <= d <= 9)%Z.

Lemma text_eqb_refl : forall s, text_eqb s s = true.
Proof. intro s. unfold text_eqb. destruct list_eq_dec; congruence. Qed.
Lemma is_text_eq : forall c, is_text c [c] = true.
Proof. intro c. apply text_eqb_refl. Qed.
Lemma is_text_neq : forall c d, c <> d -> is_text c [d] = false.
Proof. intros c d H. unfold is_text, text_eqb. destruct list_eq_dec; congruence. Qed.

Lemma slice_first : forall (a b : text) n, length a = n -> slice 0 n (a ++ b) = a.
Proof.
  intros a b n H. unfold slice. rewrite Nat.sub_0_r. cbn [skipn]. subst n.
  rewrite firstn_app, Nat.sub_diag, firstn_all. cbn. apply app_nil_r.
Qed.
Lemma slice_second : forall (a b c : text) n k, length a = n -> length b = k -> slice n (n + k) (a ++ b ++ c) = b.
Proof.
  intros a b c n k H1 H2. unfold slice. subst n k. replace (length a + length b - length a)%nat with (length b) by lia.
  rewrite skipn_app, Nat.sub_diag, skipn_all. cbn. rewrite firstn_app, Nat.sub_diag, firstn_all. cbn. apply app_nil_r.
Qed.
Lemma slice_second' : forall (a b : text) n k, length a = n -> length b = k -> slice n (n + k) (a ++ b) = b.
Proof. intros a b n k H1 H2. rewrite <- (app_nil_r b) at 1. now apply slice_second. Qed.

(** GAPS: two (latitude) or three (longitude) digits of degrees, eight characters of
    minutes. *)
Theorem C30_gaps : forall int_of float_of dd mm d m h, length mm = 8%nat -> int_of dd = Some d -> float_of mm = Some m ->
  (length dd = 2%nat -> of_latitude h -> gaps_latitude int_of float_of (dd ++ mm) [letter h] = Some (position h d m)) /\
  (length dd = 3%nat -> of_longitude h -> gaps_longitude int_of float_of (dd ++ mm) [letter h] = Some (position h d m)).
Proof.
  intros int_of float_of dd mm d m h LM D M. split; intros LD H.
  - unfold gaps_latitude. rewrite slice_first by exact LD. change 10%nat with (2 + 8)%nat. rewrite (slice_second' dd mm 2 8 LD LM), D, M.
    destruct H as [-> | ->]; cbn [letter position]; [rewrite is_text_neq by discriminate|rewrite is_text_eq]; reflexivity.
  - unfold gaps_longitude. rewrite slice_first by exact LD. change 11%nat with (3 + 8)%nat. rewrite (slice_second' dd mm 3 8 LD LM), D, M.
    destruct H as [-> | ->]; cbn [letter position]; [rewrite is_text_neq by discriminate|rewrite is_text_eq]; reflexivity.
Qed.
Print Assumptions C30_gaps.

(** HyBis: degrees, eight characters of minutes and the hemisphere in one text of 11 or
    12 characters. *)
Theorem C30_hybis : forall float_of dd mm d m h, length mm = 8%nat -> float_of dd = Some d -> float_of mm = Some m ->
  (length dd = 2%nat /\ of_latitude h) \/ (length dd = 3%nat /\ of_longitude h) ->
  hybis_convert float_of (dd ++ mm ++ [letter h]) = Some (position h d m).
Proof.
  intros float_of dd mm d m h LM D M H. unfold hybis_convert.
  assert (length (dd ++ mm ++ [letter h]) = (length dd + 9)%nat) as L by (rewrite !app_length, LM; cbn; lia).
  rewrite L. destruct H as [[LD H]|[LD H]].
  - rewrite LD. cbn [Nat.eqb Nat.add Nat.sub]. rewrite slice_first by exact LD.
    change 10%nat with (2 + 8)%nat. rewrite (slice_second dd mm [letter h] 2 8 LD LM), D, M.
    rewrite app_assoc, nth_error_app2 by (rewrite app_length; lia). rewrite app_length, LD, LM. cbn [nth_error Nat.sub Nat.add].
    destruct H as [-> | ->]; reflexivity.
  - rewrite LD. cbn [Nat.eqb Nat.add Nat.sub]. rewrite slice_first by exact LD.
    change 11%nat with (3 + 8)%nat. rewrite (slice_second dd mm [letter h] 3 8 LD LM), D, M.
    rewrite app_assoc, nth_error_app2 by (rewrite app_length; lia). rewrite app_length, LD, LM. cbn [nth_error Nat.sub Nat.add].
    destruct H as [-> | ->]; reflexivity.
Qed.
Print Assumptions C30_hybis.

(** USBL dump: right in the north and the east... *)
Lemma dump_decodes : forall int_of float_of positive dd mm d m c, int_of dd = Some d -> float_of mm = Some m ->
  ~ In 32%N dd -> ~ In 32%N mm -> ~ In 45%N dd -> ~ In 45%N mm -> c <> 32%N ->
  dump_coordinate int_of float_of positive ((dd ++ 45%N :: mm) ++ 32%N :: [c]) =
  Some ((if is_text positive [c] then d else d * -1) + m / 60).
Proof.
  intros int_of float_of positive dd mm d m c D M S1 S2 H1 H2 NC. unfold dump_coordinate.
  rewrite split_app by (intro I; apply in_app_iff in I as [I|[I|I]]; [auto|discriminate|auto]).
  rewrite split_none by (intros [I|[]]; congruence).
  rewrite split_app by exact H1. rewrite split_none by exact H2. now rewrite D, M.
Qed.
Theorem C30_dump : forall int_of float_of dd mm d m, int_of dd = Some d -> float_of mm = Some m ->
  ~ In 32%N dd -> ~ In 32%N mm -> ~ In 45%N dd -> ~ In 45%N mm ->
  dump_latitude int_of float_of ((dd ++ 45%N :: mm) ++ 32%N :: [letter North]) = Some (position North d m) /\
  dump_longitude int_of float_of ((dd ++ 45%N :: mm) ++ 32%N :: [letter East]) = Some (position East d m).
Proof.
  intros. unfold dump_latitude, dump_longitude. split; rewrite (dump_decodes _ _ _ dd mm d m); auto; discriminate.
Qed.
Print Assumptions C30_dump.
(** ... and in the south and the west wrong by twice the minutes. *)
Theorem C130_dump_error : forall int_of float_of dd mm d m, int_of dd = Some d -> float_of mm = Some m ->
  ~ In 32%N dd -> ~ In 32%N mm -> ~ In 45%N dd -> ~ In 45%N mm ->
  (exists v, dump_latitude int_of float_of ((dd ++ 45%N :: mm) ++ 32%N :: [letter South]) = Some v /\
             v - position South d m == m / 30) /\
  (exists v, dump_longitude int_of float_of ((dd ++ 45%N :: mm) ++ 32%N :: [letter West]) = Some v /\
             v - position West d m == m / 30).
Proof.
  intros. unfold dump_latitude, dump_longitude. split; eexists;
    (split; [rewrite (dump_decodes _ _ _ dd mm d m); auto; discriminate|]); cbn [letter position];
    rewrite is_text_neq by discriminate; field.
Qed.
Print Assumptions C130_dump_error.

(** "34-30.000 S" is read as 33.5 degrees south. *)
Theorem C130_dump_refuted : exists field d m v, 
  field = ([51; 52; 45; 51; 48; 46; 48; 48; 48; 32; 83]%N) /\
  decimal [51; 52]%N = Some d /\ decimal [51; 48; 46; 48; 48; 48]%N = Some m /\
  dump_latitude decimal decimal field = Some v /\ ~ v == position South d m.
Proof.
  do 4 eexists. split; [reflexivity|]. split; [reflexivity|]. split; [reflexivity|]. split; [vm_compute; reflexivity|].
  vm_compute. discriminate.
Qed.
Print Assumptions C130_dump_refuted.

(** The decimal reader the examples use (one possible int() and float()): digits with at most one point. *)
Lemma digits_value : forall ds acc, all_digits ds -> digits acc (spelled ds) = Some (acc * 10 ^ Z.of_nat (length ds) + place_value ds)%Z.
Proof.
  induction ds as [|d ds IH]; intros acc H; cbn [spelled map digits place_value length]; [f_equal; lia|]. assert (0 <= d <= 9)%Z as D by (apply H; now left).
  unfold digit. assert (48 <=? Z.to_N (48 + d) = true)%N as -> by (apply N.leb_le; lia). assert (Z.to_N (48 + d) <=? 57 = true)%N as -> by (apply N.leb_le; lia). cbn [andb]. rewrite Z2N.id by lia.
  fold (spelled ds). rewrite IH by (intros e I; apply H; now right). f_equal. rewrite Nat2Z.inj_succ, Z.pow_succ_r by lia. lia.
Qed.
Lemma spelled_no_point : forall ds, all_digits ds -> ~ In 46%N (spelled ds).
Proof. intros ds H I. apply in_map_iff in I as (d & E & I). specialize (H d I). lia. Qed.
Theorem C30_decimal : forall whole frac, all_digits whole -> all_digits frac -> whole <> [] ->
  decimal (spelled whole) = Some (inject_Z (place_value whole)) /\
  exists v, decimal (spelled whole ++ 46%N :: spelled frac) = Some v /\
    v == inject_Z (place_value whole) + inject_Z (place_value frac) / inject_Z (10 ^ Z.of_nat (length frac)).
Proof.
  intros w f W F N. unfold decimal. split.
  - rewrite split_none by now apply spelled_no_point. destruct (spelled w) eqn:E; [destruct w; [congruence|discriminate]|]. rewrite <- E, digits_value by exact W. reflexivity.
  - rewrite split_app by now apply spelled_no_point. rewrite split_none by now apply spelled_no_point.
    replace (spelled w ++ spelled f) with (spelled (w ++ f)) by apply map_app. rewrite digits_value by (intros d I; apply in_app_iff in I as [I|I]; auto).
    assert (length (spelled f) = length f) as -> by apply map_length. eexists. split; [reflexivity|].
    assert (forall a b, place_value (a ++ b) = place_value a * 10 ^ Z.of_nat (length b) + place_value b)%Z as PA.
    { induction a as [|x a IH]; intros b; [reflexivity|]. cbn [app place_value]. rewrite IH, app_length, Nat2Z.inj_add, Z.pow_add_r by lia. ring. }
    rewrite PA. rewrite Z.mul_0_l, Z.add_0_l, inject_Z_plus, inject_Z_mult. assert (~ inject_Z (10 ^ Z.of_nat (length f)) == 0) as NZ.
    { change 0 with (inject_Z 0). intros K. apply (proj1 (inject_Z_injective _ _)) in K. pose proof (Z.pow_pos_nonneg 10 (Z.of_nat (length f)) ltac:(lia) ltac:(lia)). lia. }
    field. exact NZ.
Qed.
Print Assumptions C30_decimal.
(** Nothing else is read as a number. *)
Theorem C30_decimal_only : forall s v, decimal s = Some v -> forall c, In c s -> (c = 46 \/ 48 <= c <= 57)%N.
Proof.
  intros s v H c I. assert (forall t acc n, digits acc t = Some n -> forall x, In x t -> (48 <= x <= 57)%N) as D.
  { induction t as [|y t IH]; intros acc n E x J; [destruct J|]. cbn [digits] in E. destruct (digit y) as [d|] eqn:Y; [|discriminate]. unfold digit in Y.
    destruct ((48 <=? y) && (y <=? 57))%N eqn:B in Y; [|discriminate]. apply andb_true_iff in B as [B1 B2]. apply N.leb_le in B1, B2. destruct J as [<-|J]; [split; assumption|]. exact (IH _ _ E x J). }
  assert (s = join 46 (split 46 s)) as J by (symmetry; apply join_split). unfold decimal in H. destruct (split 46 s) as [|a [|b [|? ?]]] eqn:E; try discriminate.
  - destruct a as [|x a]; [discriminate|]. destruct (digits 0 (x :: a)) as [n|] eqn:G; [|discriminate]. right. rewrite J in I. exact (D _ _ _ G c I).
  - destruct (digits 0 (a ++ b)) as [n|] eqn:G; [|discriminate]. rewrite J in I. cbn [join] in I. apply in_app_iff in I as [I|[I|I]]; [right|now left|right]; apply (D _ _ _ G c), in_app_iff; [now left|now right].
Qed.
Print Assumptions C30_decimal_only.

(** 5950.89694N and 00703.39736W, and the same fields in a GAPS packet. *)
Example C30_example :
  option_map Qred (hybis_convert decimal [53; 57; 53; 48; 46; 56; 57; 54; 57; 52; 78]%N) = Some (Qred (position North 59 (5089694 # 100000))) /\
  option_map Qred (hybis_convert decimal [48; 48; 55; 48; 51; 46; 51; 57; 55; 51; 54; 87]%N) = Some (Qred (position West 7 (339736 # 100000))) /\
  option_map Qred (gaps_longitude decimal decimal [48; 48; 55; 48; 51; 46; 51; 57; 55; 51; 54]%N [87]%N) = Some (Qred (position West 7 (339736 # 100000))) /\
  option_map Qred (dump_latitude decimal decimal [51; 52; 45; 51; 48; 46; 48; 32; 78]%N) = Some (69 # 2).
Proof. repeat split; vm_compute; reflexivity. Qed.
