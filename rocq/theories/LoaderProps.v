(** C46: XVIII decoding; C47: normalisation. *)
From Coq Require Import List NArith ZArith QArith Lia Lqa.
From Verif Require Import LoaderModel.
Import ListNotations.
Open Scope N_scope.

Definition bytes (l : list N) : Prop := Forall (fun b => b < 256) l.
Definition pixels (l : list N) : Prop := Forall (fun p => p < 2 ^ 24) l.

(** ** Specification: packing four pixels into twelve bytes *)
Definition byte (k v : N) : N := v / 2 ^ (8 * k) mod 256.
Definition pack4 (p q r s : N) : list N :=
  [byte 2 q; byte 0 p; byte 1 p; byte 2 p; byte 1 r; byte 2 r; byte 0 q; byte 1 q; byte 0 s; byte 1 s; byte 2 s; byte 0 r].
Fixpoint pack (l : list N) : list N :=
  match l with p :: q :: r :: s :: l => pack4 p q r s ++ pack l | _ => [] end.

Lemma lor_add : forall a b k, b < 2 ^ k -> N.lor (N.shiftl a k) b = a * 2 ^ k + b.
Proof.
  intros a b k H. assert (N.land (N.shiftl a k) b = 0) as Z.
  { apply N.bits_inj_0. intros n. rewrite N.land_spec. destruct (N.lt_ge_cases n k) as [L|L]; [now rewrite N.shiftl_spec_low|].
    assert (b = b mod 2 ^ n) as ->. { symmetry. apply N.mod_small. apply N.lt_le_trans with (2 ^ k); [exact H|]. apply N.pow_le_mono_r; lia. }
    rewrite N.mod_pow2_bits_high by lia. apply Bool.andb_false_r. }
  rewrite <- N.lxor_lor by exact Z. rewrite <- N.add_nocarry_lxor by exact Z. now rewrite N.shiftl_mul_pow2.
Qed.
Lemma land_byte : forall b, b < 256 -> N.land b 255 = b.
Proof. intros b H. change 255 with (N.ones 8). rewrite N.land_ones. apply N.mod_small. exact H. Qed.
Lemma pixel_value : forall hi mid lo, hi < 256 -> mid < 256 -> lo < 256 -> pixel hi mid lo = hi * 65536 + mid * 256 + lo.
Proof.
  intros hi mid lo H M L. unfold pixel. rewrite !land_byte by assumption.
  assert (N.lor (N.shiftl hi 16) (N.shiftl mid 8) = N.shiftl (N.lor (N.shiftl hi 8) mid) 8) as ->.
  { rewrite N.shiftl_lor. f_equal. rewrite N.shiftl_shiftl. reflexivity. }
  rewrite lor_add by exact L. rewrite lor_add by exact M. change (2 ^ 8) with 256. lia.
Qed.
Lemma byte_pixel : forall hi mid lo, hi < 256 -> mid < 256 -> lo < 256 ->
  byte 2 (pixel hi mid lo) = hi /\ byte 1 (pixel hi mid lo) = mid /\ byte 0 (pixel hi mid lo) = lo.
Proof.
  intros hi mid lo H M L. rewrite pixel_value by assumption. unfold byte. change (2 ^ (8 * 2)) with 65536. change (2 ^ (8 * 1)) with 256. change (2 ^ (8 * 0)) with 1.
  repeat split.
  - replace ((hi * 65536 + mid * 256 + lo) / 65536) with hi; [apply N.mod_small; exact H|]. apply (N.div_unique _ _ _ (mid * 256 + lo)); lia.
  - replace ((hi * 65536 + mid * 256 + lo) / 256) with (hi * 256 + mid) by (apply (N.div_unique _ _ _ lo); lia).
    symmetry. apply (N.mod_unique _ _ hi); lia.
  - rewrite N.div_1_r. symmetry. apply (N.mod_unique _ _ (hi * 256 + mid)); lia.
Qed.
Lemma pixel_bytes : forall v, v < 2 ^ 24 -> pixel (byte 2 v) (byte 1 v) (byte 0 v) = v.
Proof.
  intros v H. rewrite pixel_value; try (apply N.mod_lt; discriminate). unfold byte.
  change (2 ^ (8 * 2)) with 65536. change (2 ^ (8 * 1)) with 256. change (2 ^ (8 * 0)) with 1. rewrite N.div_1_r. change (2 ^ 24) with 16777216 in H.
  rewrite (N.mod_small (v / 65536)) by (apply N.div_lt_upper_bound; lia).
  pose proof (N.div_mod v 256 ltac:(discriminate)) as D1. pose proof (N.div_mod (v / 256) 256 ltac:(discriminate)) as D2.
  rewrite N.div_div in D2 by discriminate. change (256 * 256) with 65536 in D2. lia.
Qed.
Lemma byte_lt : forall k v, byte k v < 256.
Proof. intros. apply N.mod_lt. discriminate. Qed.

Lemma chunk12 : forall c : list N, length c = 12%nat -> exists a0 a1 a2 a3 a4 a5 a6 a7 a8 a9 a10 a11, c = [a0; a1; a2; a3; a4; a5; a6; a7; a8; a9; a10; a11].
Proof. intros c H. do 12 (destruct c as [|? c]; [discriminate|]). destruct c; [|discriminate]. do 12 eexists. reflexivity. Qed.
Lemma pack_chunk : forall c l, length c = 12%nat -> bytes c -> pack (decode_chunk c ++ l) = c ++ pack l.
Proof.
  intros c l H B. destruct (chunk12 c H) as (a0 & a1 & a2 & a3 & a4 & a5 & a6 & a7 & a8 & a9 & a10 & a11 & ->).
  repeat match goal with B : bytes (_ :: _) |- _ => inversion_clear B | B : Forall _ (_ :: _) |- _ => inversion_clear B end.
  unfold decode_chunk. cbn [nth app pack]. f_equal. unfold pack4.
  destruct (byte_pixel a3 a2 a1) as (-> & -> & ->); try assumption.
  destruct (byte_pixel a0 a7 a6) as (-> & -> & ->); try assumption.
  destruct (byte_pixel a5 a4 a11) as (-> & -> & ->); try assumption.
  destruct (byte_pixel a10 a9 a8) as (-> & -> & ->); try assumption. reflexivity.
Qed.
Lemma pixel_lt : forall hi mid lo, hi < 256 -> mid < 256 -> lo < 256 -> pixel hi mid lo < 2 ^ 24.
Proof. intros. rewrite pixel_value by assumption. change (2 ^ 24) with 16777216. lia. Qed.

(** ** C46 *)
Lemma groups_ok : forall n data, length data = (12 * n)%nat -> bytes data ->
  exists l, decode_groups n data = Some l /\ length l = (4 * n)%nat /\ pixels l /\ pack l = data.
Proof.
  induction n as [|n IH]; intros data L B.
  - destruct data; [|discriminate]. exists []. repeat split. constructor.
  - cbn [decode_groups]. destruct (Nat.ltb_spec (length data) 12); [lia|].
    assert (bytes (skipn 12 data)) as B2. { unfold bytes in *. rewrite <- (firstn_skipn 12 data) in B. now apply Forall_app in B. }
    assert (bytes (firstn 12 data)) as B1. { unfold bytes in *. rewrite <- (firstn_skipn 12 data) in B. now apply Forall_app in B. }
    destruct (IH (skipn 12 data)) as (l & E & LL & P & K); [rewrite skipn_length; lia|exact B2|]. rewrite E.
    eexists. split; [reflexivity|]. rewrite app_length, LL. cbn [length decode_chunk]. split; [lia|]. split.
    + apply Forall_app. split; [|exact P].
      assert (length (firstn 12 data) = 12%nat) as L12 by (rewrite firstn_length; lia).
      destruct (chunk12 _ L12) as (a0 & a1 & a2 & a3 & a4 & a5 & a6 & a7 & a8 & a9 & a10 & a11 & EQ). rewrite EQ in *.
      repeat match goal with B : bytes (_ :: _) |- _ => inversion_clear B | B : Forall _ (_ :: _) |- _ => inversion_clear B end.
      unfold decode_chunk. cbn [nth]. repeat constructor; now apply pixel_lt.
    + rewrite pack_chunk; [|rewrite firstn_length; lia|exact B1]. now rewrite K, firstn_skipn.
Qed.
(** A file of the right size decodes to one 24-bit pixel per three bytes, from which the file
    can be rebuilt. *)
Theorem C46_lossless : forall height width data, (width mod 4 = 0)%nat -> length data = (3 * (height * width))%nat -> bytes data ->
  exists l, decode height width data = Some l /\ length l = (height * width)%nat /\ pixels l /\ pack l = data.
Proof.
  intros h w data W L B. unfold decode. rewrite W. cbn [Nat.eqb].
  assert (w = 4 * (w / 4))%nat as E by (pose proof (Nat.div_mod w 4 ltac:(discriminate)); lia).
  destruct (groups_ok (h * (w / 4)) data) as (l & D & LL & P & K); [lia|exact B|]. exists l. repeat split; try assumption. lia.
Qed.
Print Assumptions C46_lossless.
Theorem C46_injective : forall height width a b, (width mod 4 = 0)%nat -> length a = (3 * (height * width))%nat -> length b = (3 * (height * width))%nat ->
  bytes a -> bytes b -> decode height width a = decode height width b -> a = b.
Proof.
  intros h w a b W La Lb Ba Bb E. destruct (C46_lossless h w a W La Ba) as (l & Da & _ & _ & <-).
  destruct (C46_lossless h w b W Lb Bb) as (l' & Db & _ & _ & <-). congruence.
Qed.
Print Assumptions C46_injective.
(** Every image comes from a file. *)
Lemma pack_ok : forall n l, length l = (4 * n)%nat -> pixels l -> length (pack l) = (12 * n)%nat /\ bytes (pack l) /\ decode_groups n (pack l) = Some l.
Proof.
  induction n as [|n IH]; intros l L P.
  - destruct l; [|discriminate]. repeat split. constructor.
  - destruct l as [|p [|q [|r [|s l]]]]; try (cbn in L; lia). inversion_clear P as [|? ? P1 PP]. inversion_clear PP as [|? ? P2 P']. inversion_clear P' as [|? ? P3 P'']. inversion_clear P'' as [|? ? P4 P5].
    destruct (IH l) as (LL & BB & DD); [cbn in L; lia|exact P5|]. change (pack (p :: q :: r :: s :: l)) with (pack4 p q r s ++ pack l).
    split; [rewrite app_length, LL; cbn; lia|]. split.
    + apply Forall_app. split; [|exact BB]. unfold pack4. repeat constructor; apply byte_lt.
    + cbn [decode_groups]. destruct (Nat.ltb_spec (length (pack4 p q r s ++ pack l)) 12) as [C|_]; [rewrite app_length in C; cbn in C; lia|].
      change (skipn 12 (pack4 p q r s ++ pack l)) with (pack l). rewrite DD. change (firstn 12 (pack4 p q r s ++ pack l)) with (pack4 p q r s).
      unfold decode_chunk, pack4. cbn [nth app]. now rewrite !pixel_bytes.
Qed.
Theorem C46_surjective : forall height width l, (width mod 4 = 0)%nat -> length l = (height * width)%nat -> pixels l ->
  exists data, length data = (3 * (height * width))%nat /\ bytes data /\ decode height width data = Some l.
Proof.
  intros h w l W L P. assert (w = 4 * (w / 4))%nat as E by (pose proof (Nat.div_mod w 4 ltac:(discriminate)); lia).
  destruct (pack_ok (h * (w / 4)) l) as (LL & B & D); [lia|exact P|]. exists (pack l). split; [lia|]. split; [exact B|].
  unfold decode. now rewrite W.
Qed.
Print Assumptions C46_surjective.
(** A file that is too long is not noticed. *)
Theorem C146_trailing_bytes_refuted : exists height width a b, a <> b /\ bytes a /\ bytes b /\ decode height width a = decode height width b /\ decode height width a <> None.
Proof.
  exists 1%nat, 4%nat, (repeat 7 12), (repeat 7 12 ++ [1]). split; [discriminate|]. split; [repeat constructor|]. split; [repeat constructor|]. split; [reflexivity|discriminate].
Qed.
Print Assumptions C146_trailing_bytes_refuted.
Example C46_example : decode 1 4 [0; 1; 2; 3; 4; 5; 6; 7; 8; 9; 10; 11] = Some [0x030201; 0x000706; 0x05040b; 0x0a0908].
Proof. reflexivity. Qed.

(** ** C47 *)
Definition unit_interval (x : Q) : Prop := (0 <= x /\ x < 1)%Q.
Lemma scaled_unit : forall v s, v < 2 ^ s -> unit_interval (scaled v s).
Proof.
  intros v s H. unfold scaled, unit_interval.
  assert (0 < inject_Z (2 ^ Z.of_N s))%Q as P. { unfold Qlt. cbn. pose proof (Z.pow_pos_nonneg 2 (Z.of_N s)). lia. }
  split.
  - apply Qle_shift_div_l; [exact P|]. rewrite Qmult_0_l. unfold Qle. cbn. lia.
  - apply Qlt_shift_div_r; [exact P|]. rewrite Qmult_1_l. unfold Qlt. cbn. apply N2Z.inj_lt in H. rewrite N2Z.inj_pow in H. cbn in H. lia.
Qed.
Lemma round_small : forall v, v < 2 ^ 24 -> round_f32 v = v.
Proof. intros v H. unfold round_f32. apply N.ltb_lt in H. now rewrite H. Qed.
(** Up to 24 bits: in range and the most significant [src_bit] bits of the stored value. *)
Theorem C47_default : forall read_bit src_bit v, src_bit <= 24 -> v < 2 ^ read_bit ->
  unit_interval (default_value read_bit src_bit v) /\
  (src_bit <= read_bit -> (default_value read_bit src_bit v <= scaled v read_bit /\ scaled v read_bit < default_value read_bit src_bit v + scaled 1 src_bit)%Q) /\
  (read_bit <= src_bit -> (default_value read_bit src_bit v == scaled v src_bit)%Q).
Proof.
  intros rb s v S V. unfold default_value.
  assert (2 ^ s <= 2 ^ 24) as P by (apply N.pow_le_mono_r; lia).
  destruct (N.ltb_spec s rb) as [L|L].
  - rewrite N.shiftr_div_pow2. set (k := rb - s). assert (rb = k + s) as E by lia.
    assert (0 < 2 ^ k) as K by (apply N.neq_0_lt_0, N.pow_nonzero; lia).
    assert (v / 2 ^ k < 2 ^ s) as D by (apply N.div_lt_upper_bound; [lia|]; rewrite <- N.pow_add_r, <- E; exact V).
    rewrite round_small by lia. split; [now apply scaled_unit|]. split; [|intros; lia]. intros _. unfold scaled. rewrite E, N2Z.inj_add, Z.pow_add_r by lia.
    rewrite inject_Z_mult. set (A := inject_Z (2 ^ Z.of_N k)). set (B := inject_Z (2 ^ Z.of_N s)).
    assert (0 < A)%Q as PA. { unfold A, Qlt. cbn. pose proof (Z.pow_pos_nonneg 2 (Z.of_N k)). lia. }
    assert (0 < B)%Q as PB. { unfold B, Qlt. cbn. pose proof (Z.pow_pos_nonneg 2 (Z.of_N s)). lia. }
    assert (0 < A * B)%Q as PAB by (apply Qmult_lt_0_compat; assumption).
    pose proof (N.div_mod v (2 ^ k) ltac:(lia)) as DM. pose proof (N.mod_lt v (2 ^ k) ltac:(lia)) as ML.
    set (d := v / 2 ^ k) in *. set (r := v mod 2 ^ k) in *.
    assert (inject_Z (Z.of_N v) == A * inject_Z (Z.of_N d) + inject_Z (Z.of_N r))%Q as VE.
    { unfold A. rewrite <- inject_Z_mult, <- inject_Z_plus. rewrite DM at 1. rewrite N2Z.inj_add, N2Z.inj_mul, N2Z.inj_pow. reflexivity. }
    assert (0 <= inject_Z (Z.of_N r))%Q as R0 by (unfold Qle; cbn; lia).
    assert (inject_Z (Z.of_N r) < A)%Q as R1. { unfold A. unfold Qlt. cbn. apply N2Z.inj_lt in ML. rewrite N2Z.inj_pow in ML. cbn in ML. lia. }
    change (inject_Z (Z.of_N 1)) with 1%Q. split.
    + apply Qle_shift_div_l; [exact PAB|]. setoid_replace (inject_Z (Z.of_N d) / B * (A * B))%Q with (A * inject_Z (Z.of_N d))%Q by (field; lra). rewrite VE. lra.
    + apply Qlt_shift_div_r; [exact PAB|]. setoid_replace ((inject_Z (Z.of_N d) / B + 1 / B) * (A * B))%Q with (A * inject_Z (Z.of_N d) + A)%Q by (field; lra). rewrite VE. lra.
  - assert (v < 2 ^ s) as VS by (apply N.lt_le_trans with (2 ^ rb); [exact V|apply N.pow_le_mono_r; lia]).
    rewrite round_small by lia. split; [now apply scaled_unit|]. split; [|reflexivity]. intros H. assert (rb = s) as -> by lia. split; [apply Qle_refl|].
    assert (0 < scaled 1 s)%Q. { unfold scaled. apply Qlt_shift_div_l; [unfold Qlt; cbn; pose proof (Z.pow_pos_nonneg 2 (Z.of_N s)); lia|]. rewrite Qmult_0_l. reflexivity. }
    lra.
Qed.
Print Assumptions C47_default.
(** 25 bits and more: full scale is rounded up to one. *)
Theorem C147_deep_images_refuted : exists read_bit src_bit v, src_bit <= read_bit /\ v < 2 ^ read_bit /\ (default_value read_bit src_bit v == 1)%Q.
Proof. exists 32, 32, (2 ^ 32 - 1). split; [lia|]. split; [reflexivity|]. vm_compute. reflexivity. Qed.
Print Assumptions C147_deep_images_refuted.
(** The non-negative integers of the float32 format. *)
Definition float32 (x : N) : Prop := exists m e, m < 2 ^ 24 /\ x = m * 2 ^ e.
(** Large values are read as a float32 number as near as any, and of two equally near the one with the even significand. *)
Definition apart (x y : N) : Z := Z.abs (Z.of_N x - Z.of_N y).
Lemma float32_grid : forall y L d, 24 <= L -> float32 y -> 2 ^ 23 <= d -> ~ (d * 2 ^ (L - 23) < y < (d + 1) * 2 ^ (L - 23)).
Proof.
  intros y L d HL (m & e & M & ->) D [A B]. destruct (N.le_gt_cases (L - 23) e) as [G|G].
  - replace e with ((e - (L - 23)) + (L - 23)) in A, B by lia. rewrite N.pow_add_r, N.mul_assoc in A, B.
    assert (0 < 2 ^ (L - 23)) as P by (apply N.neq_0_lt_0, N.pow_nonzero; discriminate).
    apply (proj2 (N.mul_lt_mono_pos_r _ _ _ P)) in A. apply (proj2 (N.mul_lt_mono_pos_r _ _ _ P)) in B. lia.
  - assert (2 ^ e * 2 <= 2 ^ (L - 23)) as Q. { replace (2 ^ e * 2) with (2 ^ (e + 1)) by (rewrite N.pow_add_r; reflexivity). apply N.pow_le_mono_r; lia. }
    set (u := 2 ^ (L - 23)) in *. set (w := 2 ^ e) in *. clearbody u w. change (2 ^ 24) with 16777216 in M. change (2 ^ 23) with 8388608 in D. nia.
Qed.
Theorem C47_float32 : forall v, let r := round_f32 v in
  float32 r /\ (forall y, float32 y -> (apart r v <= apart y v)%Z) /\
  forall y, float32 y -> y <> r -> apart y v = apart r v -> exists m e, 2 ^ 23 <= m <= 2 ^ 24 /\ r = m * 2 ^ e /\ N.even m = true /\ (apart y r = 2 ^ Z.of_N e)%Z.
Proof.
  intros v r. unfold r, round_f32. destruct (N.ltb_spec v (2 ^ 24)) as [S|G].
  - split; [|split].
    + exists v, 0. split; [exact S|]. cbn. lia.
    + intros y _. unfold apart. lia.
    + intros y _ NE E. unfold apart in E. lia.
  - assert (24 <= N.log2 v) as HL. { change 24 with (N.log2 (2 ^ 24)). now apply N.log2_le_mono. }
    assert (2 ^ N.log2 v <= v < 2 ^ N.succ (N.log2 v)) as LL by (apply N.log2_spec; change (2 ^ 24) with 16777216 in G; lia).
    set (L := N.log2 v) in *. clearbody L. pose proof (float32_grid) as GR. specialize (fun y d => GR y L d HL).
    assert (0 < 2 ^ (L - 23)) as P by (apply N.neq_0_lt_0, N.pow_nonzero; discriminate).
    assert (1 < 2 ^ (L - 23)) as P1. { change 1 with (2 ^ 0) at 1. apply N.pow_lt_mono_r; lia. }
    assert (2 ^ L = 2 ^ 23 * 2 ^ (L - 23)) as E1 by (rewrite <- N.pow_add_r; f_equal; lia).
    assert (2 ^ N.succ L = 2 ^ 24 * 2 ^ (L - 23)) as E2 by (rewrite <- N.pow_add_r; f_equal; lia).
    rewrite E1, E2 in LL. clear E1 E2.
    assert (Z.of_N (2 ^ (L - 23)) = 2 ^ Z.of_N (L - 23))%Z as EU by (rewrite N2Z.inj_pow; reflexivity).
    assert (forall d, 2 ^ 23 <= d <= 2 ^ 24 -> float32 (d * 2 ^ (L - 23))) as FL.
    { intros d D. destruct (N.eq_dec d (2 ^ 24)) as [->|NE].
      - exists (2 ^ 23), (L - 23 + 1). split; [reflexivity|]. rewrite (N.pow_add_r 2 (L - 23) 1). change (2 ^ 24) with (2 ^ 23 * 2). change (2 ^ 1) with 2. lia.
      - exists d, (L - 23). split; [lia|reflexivity]. }
    pose proof (N.div_mod v (2 ^ (L - 23)) ltac:(lia)) as DM. pose proof (N.mod_lt v (2 ^ (L - 23)) ltac:(lia)) as ML.
    cbv zeta. set (d := v / 2 ^ (L - 23)) in *. set (q := v mod 2 ^ (L - 23)) in *. clearbody d q.
    assert (2 ^ 23 <= d < 2 ^ 24) as D.
    { clear GR FL. change (2 ^ 24) with 16777216 in *. change (2 ^ 23) with 8388608 in *. set (u := 2 ^ (L - 23)) in *. clearbody u. nia. }
    specialize (fun y F => GR y d F (proj1 D)). set (e := L - 23) in *. clearbody e.
    assert (float32 ((if ((2 * q <? 2 ^ e) || (2 * q =? 2 ^ e) && N.even d)%bool then d else d + 1) * 2 ^ e)) as FR.
    { destruct ((2 * q <? 2 ^ e) || (2 * q =? 2 ^ e) && N.even d)%bool; apply FL; lia. }
    split; [exact FR|]. clear FR.
    assert (forall y, float32 y -> y <= d * 2 ^ e \/ (d + 1) * 2 ^ e <= y) as GR' by (intros y F; specialize (GR y F); lia).
    set (u := 2 ^ e) in *.
    assert (Z.of_N (d * u) = Z.of_N d * Z.of_N u)%Z as M0 by lia. assert (Z.of_N ((d + 1) * u) = Z.of_N d * Z.of_N u + Z.of_N u)%Z as M1 by lia.
    assert (Z.of_N v = Z.of_N d * Z.of_N u + Z.of_N q)%Z as MV by lia.
    destruct ((2 * q <? u) || (2 * q =? u) && N.even d)%bool eqn:T.
    + assert (2 * q < u \/ 2 * q = u /\ N.even d = true) as T'.
      { apply Bool.orb_true_iff in T. destruct T as [T|T]; [left; now apply N.ltb_lt|]. apply andb_prop in T. destruct T as [T T2]. right. split; [now apply N.eqb_eq|exact T2]. }
      split; intros y F; pose proof (GR' y F) as K; unfold apart; rewrite ?M0, MV.
      * lia.
      * intros NE E. assert (y = (d + 1) * u) as Y by lia. subst y. exists d, e. split; [lia|]. split; [reflexivity|]. split; [|rewrite M1, <- EU; lia]. destruct T' as [T'|[_ T']]; [lia|exact T'].
    + apply Bool.orb_false_iff in T. destruct T as [T1 T2]. apply N.ltb_ge in T1.
      assert (u < 2 * q \/ 2 * q = u /\ N.even d = false) as T'.
      { apply andb_false_iff in T2. destruct T2 as [T2|T2]; [apply N.eqb_neq in T2; lia|]. destruct (N.eq_dec (2 * q) u); [right; now split|left; lia]. }
      split; intros y F; pose proof (GR' y F) as K; unfold apart; rewrite ?M1, MV.
      * lia.
      * intros NE E. assert (y = d * u) as Y by lia. subst y. exists (d + 1), e. split; [lia|]. split; [reflexivity|].
        split; [|rewrite M0, <- EU; lia]. destruct T' as [T'|[_ T']]; [lia|]. rewrite N.add_1_r, N.even_succ, <- N.negb_even, T'. reflexivity.
Qed.
Print Assumptions C47_float32.
Example C47_ties : round_f32 (2 ^ 24 + 1) = 2 ^ 24 /\ round_f32 (2 ^ 24 + 3) = 2 ^ 24 + 4 /\ round_f32 (2 ^ 25 - 1) = 2 ^ 25. Proof. now split. Qed.
(** XVIII pixels are in range exactly when they fit the bit depth, which the format does not
    enforce. *)
Theorem C47_xviii : forall p src_bit, p < 2 ^ 24 -> (unit_interval (xviii_value p src_bit) <-> p < 2 ^ src_bit).
Proof.
  intros p s H. unfold xviii_value. rewrite round_small by exact H. split; [|apply scaled_unit].
  intros [_ L]. unfold scaled in L. assert (0 < inject_Z (2 ^ Z.of_N s))%Q as P. { unfold Qlt. cbn. pose proof (Z.pow_pos_nonneg 2 (Z.of_N s)). lia. }
  apply (Qmult_lt_r _ _ _ P) in L. rewrite Qmult_1_l in L. setoid_replace (inject_Z (Z.of_N p) / inject_Z (2 ^ Z.of_N s) * inject_Z (2 ^ Z.of_N s))%Q with (inject_Z (Z.of_N p)) in L by (field; lra).
  unfold Qlt in L. cbn in L. apply N2Z.inj_lt. rewrite N2Z.inj_pow. cbn. lia.
Qed.
Print Assumptions C47_xviii.
Theorem C147_xviii_range_refuted : exists data l p, bytes data /\ decode 1 4 data = Some l /\ In p l /\ ~ unit_interval (xviii_value p 18).
Proof.
  exists (repeat 255 12). eexists. exists (2 ^ 24 - 1). split; [repeat constructor|]. split; [reflexivity|]. split; [now left|]. intros [_ H]. vm_compute in H. discriminate.
Qed.
Print Assumptions C147_xviii_range_refuted.
(** Images from bag files are not shifted: sixteen-bit images read with an eight-bit depth
    leave the range. *)
Theorem C147_rosbag_refuted : exists src_bit v, v < 2 ^ 16 /\ ~ unit_interval (rosbag_value src_bit v) /\ unit_interval (default_value 16 src_bit v).
Proof. exists 8, 65535. split; [reflexivity|]. split; [intros [_ H]; vm_compute in H; discriminate|]. split; vm_compute; [discriminate|reflexivity]. Qed.
Print Assumptions C147_rosbag_refuted.
Example C47_example : (default_value 16 12 0xfff0 == 4095 # 4096)%Q /\ (default_value 8 8 128 == 1 # 2)%Q /\ (xviii_value (2 ^ 17) 18 == 1 # 2)%Q.
Proof. repeat split. Qed.
