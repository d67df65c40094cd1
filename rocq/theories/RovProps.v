(** C205, C206: conversion of koyo20rov dives. *)
From Coq Require Import Ascii String Permutation.
From Verif Require Import PyBase TimeModel TimeSpec TimeProofs InterpModel InterpSpec InterpProofs SortQ NtnuProps RovModel.
Open Scope Q_scope.

(** ** Times *)
Lemma pad_app : forall b a x y, (0 <= y < 10 ^ Z.of_nat b)%Z -> pad (a + b) (x * 10 ^ Z.of_nat b + y) = (pad a x ++ pad b y)%list.
Proof.
  induction b as [|b IH]; intros a x y B.
  - rewrite Nat.add_0_r, app_nil_r. cbn in B. f_equal. cbn. lia.
  - rewrite Nat.add_succ_r. rewrite Nat2Z.inj_succ, Z.pow_succ_r in * by lia. cbn [pad].
    replace (x * (10 * 10 ^ Z.of_nat b) + y)%Z with ((x * 10 ^ Z.of_nat b) * 10 + y)%Z by ring.
    replace ((x * 10 ^ Z.of_nat b * 10 + y) mod 10)%Z with (y mod 10)%Z by (rewrite Z.add_comm, Z.mod_add; lia). rewrite Z.div_add_l by lia. rewrite IH; [now rewrite app_assoc|].
    split; [apply Z.div_pos; lia|apply Z.div_lt_upper_bound; lia].
Qed.
Lemma slice_pad : forall w n (r : text), slice 0 w (pad w n ++ r) = pad w n.
Proof. intros w n r. unfold slice. rewrite Nat.sub_0_r. cbn [skipn]. rewrite firstn_app, pad_length, Nat.sub_diag, firstn_all2 by (rewrite pad_length; lia). apply app_nil_r. Qed.
Lemma slice_app : forall k w n (a r : text), length a = k -> slice k (k + w) (a ++ pad w n ++ r) = pad w n.
Proof. intros k w n a r <-. unfold slice. rewrite Nat.add_comm, Nat.add_sub. rewrite skipn_app, skipn_all, Nat.sub_diag. cbn [app skipn]. rewrite firstn_app, pad_length, Nat.sub_diag, firstn_all2 by (rewrite pad_length; lia). apply app_nil_r. Qed.
Lemma civil_fields : forall n c, seconds_after_1970 n c -> (1 <= c_mo c <= 12 /\ 1 <= c_d c <= 31 /\ 0 <= c_h c <= 23 /\ 0 <= c_mi c <= 59 /\ 0 <= c_s c <= 59)%Z.
Proof.
  intros n c S. destruct (seconds_after_1970_csec _ _ S) as (_ & V & _). apply valid_civil_fields in V. destruct V as (M & D & R).
  assert (days_in_month (c_y c) (c_mo c) <= 31)%Z by (unfold days_in_month; destruct (_ =? 2)%Z; [destruct (is_leap _); lia|destruct (_ || _)%bool; lia]). lia.
Qed.
Lemma epoch_us : forall n c us, seconds_after_1970 n c -> (c_y c <= 9999)%Z -> (0 <= us < 1000000)%Z ->
  exists t, date_time_to_epoch (c_y c) (c_mo c) (c_d c) (c_h c) (c_mi c) (c_s c) 0 us = Some t /\ t == inject_Z n + inject_Z us / 1000000.
Proof.
  intros n c us S Y U. destruct (seconds_after_1970_csec _ _ S) as (E & V & Y1 & N). unfold date_time_to_epoch. rewrite (valid_fields_spec c us ltac:(lia) U V). cbv zeta.
  change (utc_seconds _ _ _ _ _ _) with (csec c). pose proof (csec_range c ltac:(lia) V) as R. rewrite E in R |- *.
  assert (EQ : inject_Z n + inject_Z us / 1000000 - 3600 * 0 == inject_Z n + inject_Z us / 1000000) by ring.
  assert (U0 : 0 <= inject_Z us) by (change 0 with (inject_Z 0); rewrite <- Zle_Qle; lia). assert (U1 : inject_Z us < 1000000) by (change 1000000 with (inject_Z 1000000); rewrite <- Zlt_Qlt; lia).
  assert (F : 0 <= inject_Z us / 1000000 < 1) by (split; [apply Qle_shift_div_l; lra|apply Qlt_shift_div_r; lra]).
  assert (N1 : inject_Z n + 1 <= 253402300800) by (change 253402300800 with (inject_Z 253402300800); change 1 with (inject_Z 1); rewrite <- inject_Z_plus, <- Zle_Qle; lia).
  assert (N0 : 0 <= inject_Z n) by (change 0 with (inject_Z 0); rewrite <- Zle_Qle; lia).
  rewrite (proj2 (Qle_bool_iff _ _)) by (rewrite EQ; change (inject_Z (-62135596800)) with (-62135596800 # 1); lra).
  rewrite (proj2 (Qltb_lt _ _)) by (rewrite EQ; change (inject_Z 253402300800) with 253402300800; lra).
  eexists. split; [reflexivity|exact EQ].
Qed.
(** A date written yyyymmdd, a time hhmmss as numbers (leading zeros lost), and milliseconds. *)
Theorem C205_stamp : forall n c ms, seconds_after_1970 n c -> (c_y c <= 9999)%Z -> (0 <= ms < 1000)%Z ->
  exists t, stamp (c_y c * 10000 + c_mo c * 100 + c_d c) (c_h c * 10000 + c_mi c * 100 + c_s c) ms = Some t /\ t == inject_Z n + inject_Z ms / 1000.
Proof.
  intros n c ms S Y M. pose proof (civil_fields n c S) as (B1 & B2 & B3 & B4 & B5). destruct (seconds_after_1970_csec _ _ S) as (_ & _ & Y1 & _). unfold stamp.
  replace (_ && _ && _ && _)%bool with true by (symmetry; rewrite !Bool.andb_true_iff, !Z.leb_le, !Z.ltb_lt; lia).
  replace (pad 8 _) with (pad 4 (c_y c) ++ pad 2 (c_mo c) ++ pad 2 (c_d c))%list.
  2:{ rewrite <- (pad_app 2 2) by (cbn; lia). rewrite <- (pad_app 4 4) by (cbn; lia). f_equal. cbn. lia. }
  replace (pad 6 _) with (pad 2 (c_h c) ++ pad 2 (c_mi c) ++ pad 2 (c_s c))%list.
  2:{ rewrite <- (pad_app 2 2) by (cbn; lia). rewrite <- (pad_app 4 2) by (cbn; lia). f_equal. cbn. lia. }
  cbv zeta. rewrite slice_pad. rewrite (slice_app 4 2) by apply pad_length.
  replace (slice 6 8 _) with (pad 2 (c_d c)) by (rewrite app_assoc; rewrite <- (app_nil_r (pad 2 (c_d c))) at 2; symmetry; apply (slice_app 6 2); rewrite app_length, !pad_length; reflexivity).
  rewrite slice_pad. rewrite (slice_app 2 2) by apply pad_length.
  replace (slice 4 6 _) with (pad 2 (c_s c)) by (rewrite app_assoc; rewrite <- (app_nil_r (pad 2 (c_s c))) at 2; symmetry; apply (slice_app 4 2); rewrite app_length, !pad_length; reflexivity).
  rewrite !py_int_pad by (cbn; lia). cbn [bind]. destruct (epoch_us n c (ms * 1000) S Y ltac:(lia)) as (t & -> & E). exists t. split; [reflexivity|].
  rewrite E. rewrite inject_Z_mult. change (inject_Z 1000) with 1000. field.
Qed.
Print Assumptions C205_stamp.
(** In the ship's log the date is yy-mm-dd, with any separators, in this century; so is the time. *)
Theorem C205_log_stamp : forall n c s1 s2 s3 s4 rest, seconds_after_1970 n c -> (2000 <= c_y c <= 2099)%Z ->
  exists t, log_stamp (pad 2 (c_y c - 2000) ++ s1 :: pad 2 (c_mo c) ++ s2 :: pad 2 (c_d c))%list (pad 2 (c_h c) ++ s3 :: pad 2 (c_mi c) ++ s4 :: pad 2 (c_s c) ++ rest)%list = Some t /\ t == inject_Z n.
Proof.
  intros n c s1 s2 s3 s4 rest S Y. pose proof (civil_fields n c S) as (B1 & B2 & B3 & B4 & B5). unfold log_stamp.
  replace (13 - length _)%nat with 5%nat by (rewrite !app_length; cbn [length]; rewrite app_length; cbn [length]; rewrite !pad_length; reflexivity).
  set (sp := repeat " "%char 5). cbv zeta.
  replace (slice 5 7 _) with (pad 2 (c_y c - 2000)) by (symmetry; apply (slice_app 5 2 (c_y c - 2000) sp); reflexivity).
  replace (slice 8 10 _) with (pad 2 (c_mo c)).
  2:{ symmetry. replace (sp ++ pad 2 (c_y c - 2000) ++ s1 :: pad 2 (c_mo c) ++ s2 :: pad 2 (c_d c))%list with ((sp ++ pad 2 (c_y c - 2000) ++ [s1]) ++ pad 2 (c_mo c) ++ s2 :: pad 2 (c_d c))%list by (rewrite <- !app_assoc; reflexivity).
      apply (slice_app 8 2). rewrite !app_length, pad_length. reflexivity. }
  replace (slice 11 13 _) with (pad 2 (c_d c)).
  2:{ symmetry. replace (sp ++ pad 2 (c_y c - 2000) ++ s1 :: pad 2 (c_mo c) ++ s2 :: pad 2 (c_d c))%list with ((sp ++ pad 2 (c_y c - 2000) ++ s1 :: pad 2 (c_mo c) ++ [s2]) ++ pad 2 (c_d c) ++ [])%list by (rewrite app_nil_r; repeat (rewrite <- app_assoc; cbn [app]); reflexivity).
      apply (slice_app 11 2). rewrite !app_length. cbn [length]. rewrite app_length, !pad_length. reflexivity. }
  rewrite slice_pad.
  replace (slice 3 5 _) with (pad 2 (c_mi c)).
  2:{ symmetry. replace (pad 2 (c_h c) ++ s3 :: pad 2 (c_mi c) ++ s4 :: pad 2 (c_s c) ++ rest)%list with ((pad 2 (c_h c) ++ [s3]) ++ pad 2 (c_mi c) ++ s4 :: pad 2 (c_s c) ++ rest)%list by (rewrite <- !app_assoc; reflexivity).
      apply (slice_app 3 2). rewrite !app_length, pad_length. reflexivity. }
  replace (slice 6 8 _) with (pad 2 (c_s c)).
  2:{ symmetry. replace (pad 2 (c_h c) ++ s3 :: pad 2 (c_mi c) ++ s4 :: pad 2 (c_s c) ++ rest)%list with ((pad 2 (c_h c) ++ s3 :: pad 2 (c_mi c) ++ [s4]) ++ pad 2 (c_s c) ++ rest)%list by (repeat (rewrite <- app_assoc; cbn [app]); reflexivity).
      apply (slice_app 6 2). rewrite !app_length. cbn [length]. rewrite app_length, !pad_length. reflexivity. }
  rewrite !py_int_pad by (cbn; lia). cbn [bind]. replace (2000 + (c_y c - 2000))%Z with (c_y c) by lia.
  destruct (epoch_us n c 0 S ltac:(lia) ltac:(lia)) as (t & -> & E). exists t. split; [reflexivity|]. rewrite E. change (inject_Z 0) with 0. field.
Qed.
Print Assumptions C205_log_stamp.

(** ** The ship's log *)
(** [leaders past rows out]: of the readable rows, those later than every readable one before them, of which there is one ([past]: their times). *)
Inductive leaders : list Q -> list (option pos) -> list pos -> Prop :=
| lead_nil past : leaders past [] []
| lead_unreadable past rows out : leaders past rows out -> leaders past (None :: rows) out
| lead_kept past p rows out : past <> [] -> Forall (fun t => t < p_t p) past -> leaders (p_t p :: past) rows out -> leaders past (Some p :: rows) (p :: out)
| lead_dropped past p rows out : ~ (past <> [] /\ Forall (fun t => t < p_t p) past) -> leaders (p_t p :: past) rows out -> leaders past (Some p :: rows) out.

Lemma later_leaders : forall rows past current, past <> [] -> In current past -> (forall t, In t past -> t <= current) -> leaders past rows (later current rows).
Proof.
  induction rows as [|[p|] rows IH]; intros past current N I M; cbn [later]; [constructor| |constructor; auto].
  destruct (Qltb current (p_t p)) eqn:E.
  - apply Qltb_lt in E. apply lead_kept; [exact N|apply Forall_forall; intros t It; specialize (M t It); lra|]. apply IH; [discriminate|now left|].
    intros t [<-|It]; [lra|]. specialize (M t It). lra.
  - assert (L : p_t p <= current) by (apply Qnot_lt_le; rewrite <- Qltb_lt, E; discriminate). apply lead_dropped.
    + intros [_ F]. rewrite Forall_forall in F. specialize (F current I). lra.
    + apply IH; [discriminate|now right|]. intros t [<-|It]; [exact L|auto].
Qed.
(** Of a log, the records later than all before them are kept. *)
Theorem C205_log : forall rows l, load_file rows = Some l -> leaders [] rows l.
Proof.
  intros [|[p|] rows] l H; try discriminate. injection H as <-. cbn [later]. destruct (Qltb (p_t p) (p_t p)) eqn:E; [apply Qltb_lt in E; lra|].
  apply lead_dropped; [intros [N _]; now apply N|]. apply later_leaders; [discriminate|now left|]. intros t [<-|[]]. lra.
Qed.
Print Assumptions C205_log.
(** ... so a log in time order gives all its records but the first. *)
Theorem C205_log_in_order : forall p ps, increasing p_t (p :: ps) -> load_file (map Some (p :: ps)) = Some ps.
Proof.
  intros p ps I. unfold load_file. cbn [map later]. destruct (Qltb (p_t p) (p_t p)) eqn:E; [apply Qltb_lt in E; lra|]. f_equal.
  revert p I E. induction ps as [|q ps IH]; intros p I E; [reflexivity|]. cbn [map later]. rewrite (proj2 (Qltb_lt _ _)) by (apply (I 0%nat 1%nat p q); [lia|reflexivity|reflexivity]).
  f_equal. apply IH; [|destruct (Qltb (p_t q) (p_t q)) eqn:E'; [apply Qltb_lt in E'; lra|reflexivity]]. intros i j a b L A B. apply (I (S i) (S j) a b); [lia|exact A|exact B].
Qed.
Print Assumptions C205_log_in_order.

Lemma load_files_leaders : forall files raw, load_files files = Some raw -> exists ls, Forall2 (leaders []) files ls /\ raw = concat ls.
Proof.
  induction files as [|f files IH]; intros raw H; [injection H as <-; exists []; split; [constructor|reflexivity]|]. cbn [load_files] in H.
  destruct (load_file f) as [l|] eqn:E; [|discriminate]. cbn [bind] in H. destruct (load_files files) as [r|]; [|discriminate]. injection H as <-.
  destruct (IH r eq_refl) as (ls & F & ->). exists (l :: ls). split; [constructor; [now apply C205_log|exact F]|reflexivity].
Qed.
Lemma fill_nth : forall l b k p, nth_error l k = Some p -> exists q, nth_error (fill b l) k = Some q /\
  match nth_error l (S k) with
  | None => q = p
  | Some a => exists b', match k with O => b' = b | S j => nth_error (fill b l) j = Some b' end /\ q = fill_one b' p a
  end.
Proof.
  induction l as [|p0 l IH]; intros b k p H; [destruct k; discriminate|]. destruct l as [|a l].
  - destruct k as [|k]; [|destruct k; discriminate]. injection H as <-. exists p0. split; reflexivity.
  - change (fill b (p0 :: a :: l)) with (fill_one b p0 a :: fill (fill_one b p0 a) (a :: l)). destruct k as [|k].
    + injection H as <-. eexists. split; [reflexivity|]. cbn [nth_error]. exists b. split; reflexivity.
    + cbn [nth_error] in H. destruct (IH (fill_one b p0 a) k p H) as (q & Q & M). exists q. split; [exact Q|].
      change (nth_error (p0 :: a :: l) (S (S k))) with (nth_error (a :: l) (S k)). destruct (nth_error (a :: l) (S k)) as [x|]; [|exact M].
      destruct M as (b' & B & ->). exists b'. split; [|reflexivity]. destruct k as [|j]; [cbn; now rewrite B|exact B].
Qed.
Lemma fill_length : forall l b, length (fill b l) = length l.
Proof. induction l as [|p l IH]; intros b; [reflexivity|]. destruct l as [|a l]; [reflexivity|]. change (fill b (p :: a :: l)) with (fill_one b p a :: fill (fill_one b p a) (a :: l)). cbn [length]. now rewrite IH. Qed.
Lemma interp_line : forall t ta tb a b, ta < tb -> on_line ta a tb b t (interpolate t ta tb a b).
Proof.
  intros t ta tb a b L. unfold on_line, interpolate. destruct (Qeq_bool tb ta) eqn:E; [apply Qeq_bool_eq in E; lra|]. field. lra.
Qed.
Lemma mix_line : forall t ta tb a b, ta < tb -> exists v, mix t ta tb (Some a) (Some b) = Some v /\ on_line ta a tb b t v.
Proof.
  intros t ta tb a b L. unfold mix. destruct (Qeq_bool tb ta) eqn:E; [apply Qeq_bool_eq in E; lra|]. eexists. split; [reflexivity|]. now apply interp_line.
Qed.

(** The positions of the logs, in time order; latitude and longitude as recorded.  Depths and altitudes are as recorded
    unless they are 0; a 0 that is neither the first nor the last becomes the value on the line from the record before to the one after. *)
Theorem C205_positions : forall files out, load_positions files = Some out -> exists ls l,
  Forall2 (leaders []) files ls /\ Permutation (concat ls) l /\ nondecreasing p_t l /\ length out = length l /\
  forall k p, nth_error l k = Some p -> exists q, nth_error out k = Some q /\ p_t q = p_t p /\ p_lat q = p_lat p /\ p_lon q = p_lon p /\
  forall g, In g [p_depth; p_alt] -> (match g p with Some v => ~ v == 0 | None => True end -> g q = g p) /\
    (forall j b a vb va, k = S j -> nth_error out j = Some b -> nth_error l (S k) = Some a -> g b = Some vb -> g a = Some va -> p_t b < p_t a ->
     match g p with Some v => v == 0 | None => False end -> exists v, g q = Some v /\ on_line (p_t b) vb (p_t a) va (p_t p) v).
Proof.
  intros files out H. unfold load_positions in H. destruct (load_files files) as [raw|] eqn:E; [|discriminate]. cbn [bind] in H. destruct (load_files_leaders files raw E) as (ls & F & ->).
  exists ls, (qsort p_t (concat ls)). split; [exact F|]. split; [apply qsort_perm|]. split; [apply qsort_sorted|].
  set (l := qsort p_t (concat ls)) in *. destruct l as [|p0 l0] eqn:L; [injection H as <-; split; [reflexivity|]; intros [|k] p K; discriminate|].
  assert (HO : out = fill (last (p0 :: l0) p0) (p0 :: l0)) by congruence. clear H. subst out. split; [apply fill_length|]. intros k p K.
  destruct (fill_nth (p0 :: l0) (last (p0 :: l0) p0) k p K) as (q & Q & M). exists q. split; [exact Q|].
  destruct (nth_error (p0 :: l0) (S k)) as [a|] eqn:A.
  - destruct M as (b' & B & ->). split; [reflexivity|]. split; [reflexivity|]. split; [reflexivity|]. intros g [<-|[<-|[]]]; cbn [fill_one p_depth p_alt].
    + split.
      * destruct (p_depth p) as [v|]; [|reflexivity]. intros N. cbn [is_zero]. destruct (Qeq_bool v 0) eqn:Z; [apply Qeq_bool_eq in Z; tauto|reflexivity].
      * intros j b a' vb va -> Bj [= <-] GB GA T Z. rewrite Bj in B. injection B as ->. destruct (p_depth p) as [v|]; [|tauto]. cbn [is_zero]. rewrite (Qeq_eq_bool _ _ Z), GB, GA. now apply mix_line.
    + split.
      * destruct (p_alt p) as [v|]; [|reflexivity]. intros N. cbn [is_zero]. destruct (Qeq_bool v 0) eqn:Z; [apply Qeq_bool_eq in Z; tauto|reflexivity].
      * intros j b a' vb va -> Bj [= <-] GB GA T Z. rewrite Bj in B. injection B as ->. destruct (p_alt p) as [v|]; [|tauto]. cbn [is_zero]. rewrite (Qeq_eq_bool _ _ Z), GB, GA. now apply mix_line.
  - subst q. repeat split; try reflexivity; discriminate.
Qed.
Print Assumptions C205_positions.

(** ** Interpolation *)
Section Track.
  Context {P : Type} (time : P -> Q).
  (** The records used for an image at [t]. *)
  Inductive used (v : list P) (t : Q) : option (P * P) -> Prop :=
  | used_before : (forall p, In p v -> t < time p) -> used v t None
  | used_after : (forall p, In p v -> time p < t) -> used v t None
  | used_between a b : adjacent v a b -> time a < t -> t <= time b -> used v t (Some (a, b))
  | used_first a b : is_first v b -> is_last v a -> t == time b -> used v t (Some (a, b)).

  Lemma advance_spec : forall fuel v t i, (length v < fuel + i)%nat -> (forall k p, (k < i)%nat -> nth_error v k = Some p -> time p < t) ->
    (exists p, In p v /\ t <= time p) -> exists k b, advance time fuel v t i = Some k /\ nth_error v k = Some b /\ t <= time b /\ forall j p, (j < k)%nat -> nth_error v j = Some p -> time p < t.
  Proof.
    induction fuel as [|fuel IH]; intros v t i L B (p & I & T).
    - apply In_nth_error in I. destruct I as (n & I). assert (n < length v)%nat by (apply nth_error_Some; congruence). specialize (B n p ltac:(lia) I). lra.
    - cbn [advance]. destruct (nth_error v i) as [q|] eqn:Qi.
      + destruct (Qltb (time q) t) eqn:E.
        * apply Qltb_lt in E. apply IH; [lia| |eauto]. intros k r Lk K. destruct (Nat.eq_dec k i) as [->|N]; [congruence|]. apply (B k r); [lia|exact K].
        * exists i, q. split; [reflexivity|]. split; [exact Qi|]. split; [apply Qnot_lt_le; rewrite <- Qltb_lt, E; discriminate|exact B].
      + apply In_nth_error in I. destruct I as (n & I). assert (n < length v)%nat by (apply nth_error_Some; congruence). apply nth_error_None in Qi. specialize (B n p ltac:(lia) I). lra.
  Qed.
  Lemma last_in : forall v (p : P), is_last (p :: v) (last (p :: v) p).
  Proof. intros v p. destruct (exists_last (l := p :: v) ltac:(discriminate)) as (l & x & E). exists l. rewrite E. now rewrite last_last. Qed.
  Lemma last_time : forall v p q, increasing time (p :: v) -> In q (p :: v) -> time q <= time (last (p :: v) p).
  Proof.
    intros v p q I Q. destruct (last_in v p) as (l & E). remember (last (p :: v) p) as z. rewrite E in Q, I. apply in_app_or in Q. destruct Q as [Q|[<-|[]]]; [|lra].
    apply In_nth_error in Q. destruct Q as (n & Q). assert (n < length l)%nat by (apply nth_error_Some; congruence).
    assert (time q < time z); [|lra]. apply (I n (length l) q z); [assumption|rewrite nth_error_app1 by assumption; exact Q|rewrite nth_error_app2, Nat.sub_diag by lia; reflexivity].
  Qed.
  Lemma first_time : forall v p q, increasing time (p :: v) -> In q (p :: v) -> time p <= time q.
  Proof.
    intros v p q I [<-|Q]; [lra|]. apply In_nth_error in Q. destruct Q as (n & Q). assert (time p < time q); [|lra]. apply (I 0%nat (S n) p q); [lia|reflexivity|exact Q].
  Qed.
  Lemma brackets_used : forall v p0 v0, v = p0 :: v0 -> increasing time v -> forall images i, nondecreasing (fun t => t) images ->
    (forall k p t, (k < i)%nat -> nth_error v k = Some p -> In t images -> time p < t) ->
    exists out, brackets time v p0 (last v p0) i images = Some out /\ Forall2 (used v) images out.
  Proof.
    intros v p0 v0 Ev I. induction images as [|t images IH]; intros i S B; [exists []; split; [reflexivity|constructor]|].
    apply nd_cons_iff in S. destruct S as [S1 S2]. cbn [brackets].
    destruct (Qltb (time (last v p0)) t) eqn:E1.
    - apply Qltb_lt in E1. eexists. split; [reflexivity|].
      assert (A : forall t', t <= t' -> used v t' None). { intros t' L. apply used_after. intros p Ip. rewrite Ev in Ip, E1, I. pose proof (last_time v0 p0 p I Ip). lra. }
      cbn [repeat]. constructor; [apply A; lra|]. clear -A S1. induction images as [|x images IH]; [constructor|]. cbn [repeat length]. constructor; [apply A, S1; now left|]. apply IH. intros y Y. apply S1. now right.
    - assert (L1 : t <= time (last v p0)) by (apply Qnot_lt_le; rewrite <- Qltb_lt, E1; discriminate).
      destruct (Qltb t (time p0)) eqn:E2.
      + apply Qltb_lt in E2. destruct (IH i S2) as (out & O & F). { intros k p x K Pk Ix. apply (B k p x K Pk). now right. }
        rewrite O. cbn [bind]. eexists. split; [reflexivity|]. constructor; [|exact F]. apply used_before. intros p Ip. rewrite Ev in Ip, I. pose proof (first_time v0 p0 p I Ip). lra.
      + assert (L2 : time p0 <= t) by (apply Qnot_lt_le; rewrite <- Qltb_lt, E2; discriminate).
        destruct (advance_spec (Datatypes.S (length v)) v t i) as (k & b & AD & Kb & Tb & Bk); [lia| | |].
        * intros k p K Pk. apply (B k p t K Pk). now left.
        * exists (last v p0). split; [|exact L1]. rewrite Ev. destruct (last_in v0 p0) as (l & El). remember (last (p0 :: v0) p0) as z. rewrite El. apply in_or_app. right. now left.
        * rewrite AD. cbn [bind]. rewrite Kb.
          destruct (IH k S2) as (out & O & F). { intros j p x J Pj Ix. specialize (Bk j p J Pj). specialize (S1 x Ix). lra. }
          destruct k as [|k].
          -- assert (LA : py_nth v (Z.of_nat 0 - 1) = Some (last v p0)).
             { rewrite Ev. destruct (last_in v0 p0) as (l & El). remember (last (p0 :: v0) p0) as z. rewrite El. unfold py_nth. rewrite app_length. cbn [length].
               replace (Z.of_nat 0 - 1 <? 0)%Z with true by reflexivity. destruct (Z.ltb_spec (Z.of_nat 0 - 1 + Z.of_nat (length l + 1)) 0); [lia|]. replace (Z.to_nat (Z.of_nat 0 - 1 + Z.of_nat (length l + 1))) with (length l) by lia. rewrite nth_error_app2, Nat.sub_diag by lia. reflexivity. }
             rewrite LA, O. cbn [bind]. eexists. split; [reflexivity|]. constructor; [|exact F]. apply used_first.
             ++ exists v0. rewrite Ev in Kb. cbn in Kb. congruence.
             ++ rewrite Ev. apply last_in.
             ++ rewrite Ev in Kb. cbn in Kb. injection Kb as <-. lra.
          -- rewrite py_nth_pred by lia. replace (Datatypes.S k - 1)%nat with k by lia.
             destruct (nth_error v k) as [a|] eqn:Ka; [|apply nth_error_None in Ka; assert (Datatypes.S k < length v)%nat by (apply nth_error_Some; congruence); lia].
             rewrite O. cbn [bind]. eexists. split; [reflexivity|]. constructor; [|exact F]. apply used_between; [exists k; auto|apply (Bk k a); [lia|exact Ka]|exact Tb].
  Qed.
  (** Every image between the first and the last record is given the two records around it, the others none. *)
  Theorem C205_records_used : forall v images, v <> [] -> images <> [] -> increasing time v -> nondecreasing (fun t => t) images ->
    exists out, bracket_all time v images = Some out /\ Forall2 (used v) images out.
  Proof.
    intros [|p0 v0] images V N I S; [tauto|]. unfold bracket_all. destruct images as [|t images]; [tauto|]. apply (brackets_used (p0 :: v0) p0 v0 eq_refl I _ 0 S). intros k p x K. lia.
  Qed.
End Track.
Print Assumptions C205_records_used.

(** The value at [t] of a quantity recorded along [v]: none outside the records, on the line between the two records around [t]
    inside (none if one of them lacks it), the recorded one at the first record (provided the last record has the quantity too). *)
Inductive value {P} (time : P -> Q) (v : list P) (g : P -> num) (t : Q) : num -> Prop :=
| value_outside : (forall p, In p v -> t < time p) \/ (forall p, In p v -> time p < t) -> value time v g t None
| value_between a b x : adjacent v a b -> time a < t -> t <= time b ->
    match g a, g b with Some ya, Some yb => exists y, x = Some y /\ on_line (time a) ya (time b) yb t y | _, _ => x = None end -> value time v g t x
| value_first a b x : is_first v b -> is_last v a -> t == time b ->
    match g a, g b with Some _, Some yb => exists y, x = Some y /\ y == yb | _, _ => x = None end -> value time v g t x.
Lemma used_value : forall {P} (time : P -> Q) v t b g, increasing time v -> used time v t b -> value time v g t (between_records time t b g).
Proof.
  intros P time v t b g I U. destruct U as [H|H|a b A T1 T2|a b F L T].
  - apply value_outside. now left.
  - apply value_outside. now right.
  - apply (value_between time v g t a b); auto. cbn [between_records]. unfold mix. destruct (Qeq_bool (time b) (time a)) eqn:E; [apply Qeq_bool_eq in E; lra|].
    destruct (g a) as [ya|], (g b) as [yb|]; try reflexivity. eexists. split; [reflexivity|]. apply interp_line. lra.
  - apply (value_first time v g t a b); auto. cbn [between_records]. unfold mix. destruct (Qeq_bool (time b) (time a)) eqn:E.
    + apply Qeq_bool_eq in E. assert (a = b).
      { destruct F as (v' & ->). destruct L as (l & L). destruct l as [|x l]; [now injection L|]. injection L as <- ->. exfalso.
        assert (time b < time a); [|lra]. apply (I 0%nat (S (length l)) b a); [lia|reflexivity|]. cbn. rewrite nth_error_app2, Nat.sub_diag by lia. reflexivity. }
      subst a. destruct (g b); [|reflexivity]. eexists. split; [reflexivity|]. reflexivity.
    + destruct (g a) as [ya|], (g b) as [yb|]; try reflexivity. eexists. split; [reflexivity|]. unfold interpolate. rewrite E. rewrite T. field.
      intros K. apply Qeq_bool_neq in E. apply E. lra.
Qed.
(** An image with its interpolated pose. *)
Definition posed (ps : list pos) (rs : list rot) (im : image) (s : seen) : Prop :=
  s_image s = im /\
  value p_t ps p_lat (i_t im) (s_lat s) /\ value p_t ps p_lon (i_t im) (s_lon s) /\ value p_t ps p_depth (i_t im) (s_depth s) /\ value p_t ps p_alt (i_t im) (s_alt s) /\
  value r_t rs r_heading (i_t im) (s_heading s) /\ value r_t rs r_pitch (i_t im) (s_pitch s) /\ value r_t rs r_roll (i_t im) (s_roll s).

Theorem C205_poses : forall ps rs images, ps <> [] -> rs <> [] -> images <> [] -> increasing p_t ps -> increasing r_t rs -> nondecreasing i_t images ->
  exists out, interpolate_to_images ps rs images = Some out /\ Forall2 (posed ps rs) images out.
Proof.
  intros ps rs images NP NR NI IP IR S.
  assert (S' : nondecreasing (fun t : Q => t) (map i_t images)).
  { intros i j a b L A B. rewrite nth_error_map in A, B. destruct (nth_error images i) as [x|] eqn:X; [|discriminate]. destruct (nth_error images j) as [y|] eqn:Y; [|discriminate]. injection A as <-. injection B as <-. now apply (S i j). }
  assert (NI' : map i_t images <> []) by (destruct images; [tauto|discriminate]).
  destruct (C205_records_used p_t ps (map i_t images) NP NI' IP S') as (bp & EP & FP). destruct (C205_records_used r_t rs (map i_t images) NR NI' IR S') as (br & EB & FR).
  unfold interpolate_to_images. rewrite EP. cbn [bind]. rewrite EB. cbn [bind]. eexists. split; [reflexivity|]. clear -FP FR IP IR.
  revert bp br FP FR. induction images as [|im images IH]; intros bp br FP FR; cbn [map] in *; inversion FP; inversion FR; subst; [constructor|]. cbn [zip3]. constructor; [|now apply IH].
  unfold see, posed. cbn. repeat split; now apply used_value.
Qed.
Print Assumptions C205_poses.

(** Within the times of the positions and of the rotations. *)
Definition within {P} (time : P -> Q) (v : list P) (t : Q) : Prop := (exists p, In p v /\ time p <= t) /\ (exists p, In p v /\ t <= time p).
Lemma adjacent_in : forall {P} (v : list P) a b, adjacent v a b -> In a v /\ In b v.
Proof. intros P v a b (k & A & B). split; eapply nth_error_In; eassumption. Qed.
Lemma value_known : forall {P} (time : P -> Q) v g t x, (forall p, In p v -> g p <> None) -> value time v g t x -> (x <> None <-> within time v t).
Proof.
  intros P time v g t x K V. destruct V as [O|a b x A T1 T2 M|a b x F L T M].
  - split; [tauto|]. intros [(p & Ip & Lp) (q & Iq & Lq)]. destruct O as [O|O]; [specialize (O p Ip)|specialize (O q Iq)]; lra.
  - destruct (adjacent_in _ _ _ A) as [Ia Ib]. pose proof (K a Ia). pose proof (K b Ib). destruct (g a), (g b); try tauto. destruct M as (y & -> & _).
    split; [intros _|discriminate]. split; [exists a|exists b]; split; auto; lra.
  - destruct F as (v' & E1). destruct L as (l & E2). assert (Ib : In b v) by (rewrite E1; now left). assert (Ia : In a v) by (rewrite E2; apply in_or_app; right; now left).
    pose proof (K a Ia). pose proof (K b Ib). destruct (g a), (g b); try tauto. destruct M as (y & -> & _). split; [intros _|discriminate]. split; exists b; split; auto; lra.
Qed.

Lemma kept_reported : forall ps rs images out, (forall p, In p ps -> p_lat p <> None) -> (forall r, In r rs -> r_heading r <> None) -> Forall2 (posed ps rs) images out ->
  reported (fun im => within p_t ps (i_t im) /\ within r_t rs (i_t im)) (posed ps rs) images (filter located out).
Proof.
  intros ps rs images out KP KR F. induction F as [|im s images out H F IH]; [constructor|]. cbn [filter].
  pose proof H as (_ & V1 & _ & _ & _ & V2 & _). apply (value_known p_t ps p_lat _ _ KP) in V1. apply (value_known r_t rs r_heading _ _ KR) in V2.
  unfold located at 1. destruct (s_lat s) as [x|], (s_heading s) as [y|].
  - apply rep_use; [split; [apply V1|apply V2]; discriminate|exact H|exact IH].
  - apply rep_skip; [|exact IH]. intros [_ W]. now apply V2 in W.
  - apply rep_skip; [|exact IH]. intros [W _]. now apply V1 in W.
  - apply rep_skip; [|exact IH]. intros [W _]. now apply V1 in W.
Qed.
(** The conversion keeps exactly the images taken while both positions and rotations were recorded, in order, with their poses;
    it fails when that leaves no laser image or no colour image. *)
Theorem C205_converted : forall ps rs lasers colours, ps <> [] -> rs <> [] -> lasers <> [] -> colours <> [] ->
  increasing p_t ps -> increasing r_t rs -> nondecreasing i_t lasers -> nondecreasing i_t colours ->
  (forall p, In p ps -> p_lat p <> None) -> (forall r, In r rs -> r_heading r <> None) ->
  exists a b, reported (fun im => within p_t ps (i_t im) /\ within r_t rs (i_t im)) (posed ps rs) lasers a /\
              reported (fun im => within p_t ps (i_t im) /\ within r_t rs (i_t im)) (posed ps rs) colours b /\
              (a <> [] -> b <> [] -> convert ps rs lasers colours = Some (a, b)) /\ (a = [] \/ b = [] -> convert ps rs lasers colours = None).
Proof.
  intros ps rs lasers colours NP NR NL NC IP IR SL SC KP KR.
  destruct (C205_poses ps rs lasers NP NR NL IP IR SL) as (a & EA & FA). destruct (C205_poses ps rs colours NP NR NC IP IR SC) as (b & EB & FB).
  exists (filter located a), (filter located b). split; [now apply kept_reported|]. split; [now apply kept_reported|].
  unfold convert. rewrite EA, EB. cbn [bind].
  assert (NA : a <> []) by (intros ->; inversion FA; congruence). assert (NB : b <> []) by (intros ->; inversion FB; congruence).
  replace (filter_nans a) with (Some (filter located a)) by (destruct a; [tauto|reflexivity]). replace (filter_nans b) with (Some (filter located b)) by (destruct b; [tauto|reflexivity]). cbn [bind].
  split.
  - intros A B. destruct (filter located a); [tauto|]. destruct (filter located b); [tauto|]. reflexivity.
  - intros [->| ->]; [reflexivity|]. cbn [nonempty bind]. destruct (nonempty (filter located a)); reflexivity.
Qed.
Print Assumptions C205_converted.

(** ** Lever arms *)
(** Two rows made from one image for two places on the vehicle differ by the offset between the places, turned into the
    inertial frame: in northing, easting and depth, and in altitude the other way round. *)
Theorem C205_lever_arms : forall b2i to_metres to_latlon name name' p p' depth dvl s r r',
  (forall roll pitch heading x y z x' y' z', let '(a, b, c) := b2i roll pitch heading x y z in let '(a', b', c') := b2i roll pitch heading x' y' z' in
     let '(a'', b'', c'') := b2i roll pitch heading (x - x') (y - y') (z - z') in a'' == a - a' /\ b'' == b - b' /\ c'' == c - c') ->
  (forall roll pitch heading x y z x' y' z', x == x' -> y == y' -> z == z' -> let '(a, b, c) := b2i roll pitch heading x y z in let '(a', b', c') := b2i roll pitch heading x' y' z' in a == a' /\ b == b' /\ c == c') ->
  place b2i to_metres to_latlon name p depth dvl s = Some r -> place b2i to_metres to_latlon name' p' depth dvl s = Some r' ->
  let '(dx, dy, dz) := b2i (o_roll r) (o_pitch r) (o_heading r) (fst (fst p) - fst (fst p')) (snd (fst p) - snd (fst p')) (snd p - snd p') in
  o_north r == o_north r' + dx /\ o_east r == o_east r' + dy /\ o_depth r == o_depth r' + dz /\ o_alt r == o_alt r' - dz /\
  o_t r = o_t r' /\ o_roll r = o_roll r' /\ o_pitch r = o_pitch r' /\ o_heading r = o_heading r'.
Proof.
  intros b2i to_metres to_latlon name name' [[px py] pz] [[qx qy] qz] [[ex ey] ez] [[vx vy] vz] s r r' LIN EXT R R'. unfold place in R, R'.
  destruct (s_lat s) as [lat|]; [|discriminate]. destruct (s_lon s) as [lon|]; [|discriminate]. destruct (s_depth s) as [de|]; [|discriminate]. destruct (s_alt s) as [al|]; [|discriminate].
  destruct (s_heading s) as [he|]; [|discriminate]. destruct (s_pitch s) as [pi|]; [|discriminate]. destruct (s_roll s) as [ro|]; [|discriminate].
  destruct (to_metres lat lon) as [no ea].
  pose proof (LIN ro pi he (px - ex) (py - ey) (pz - ez) (qx - ex) (qy - ey) (qz - ez)) as L1. pose proof (LIN ro pi he (px - vx) (py - vy) (pz - vz) (qx - vx) (qy - vy) (qz - vz)) as L2.
  destruct (b2i ro pi he (px - ex) (py - ey) (pz - ez)) as [[a1 a2] a3]. destruct (b2i ro pi he (px - vx) (py - vy) (pz - vz)) as [[c1 c2] c3].
  destruct (b2i ro pi he (qx - ex) (qy - ey) (qz - ez)) as [[a1' a2'] a3']. destruct (b2i ro pi he (qx - vx) (qy - vy) (qz - vz)) as [[c1' c2'] c3'].
  destruct (to_latlon (ea + c2) (no + c1)) as [l1 l2]. destruct (to_latlon (ea + c2') (no + c1')) as [l1' l2']. injection R as <-. injection R' as <-. cbn [o_roll o_pitch o_heading o_north o_east o_depth o_alt o_t fst snd].
  pose proof (EXT ro pi he (px - ex - (qx - ex)) (py - ey - (qy - ey)) (pz - ez - (qz - ez)) (px - qx) (py - qy) (pz - qz) ltac:(ring) ltac:(ring) ltac:(ring)) as X1.
  pose proof (EXT ro pi he (px - vx - (qx - vx)) (py - vy - (qy - vy)) (pz - vz - (qz - vz)) (px - qx) (py - qy) (pz - qz) ltac:(ring) ltac:(ring) ltac:(ring)) as X2.
  destruct (b2i ro pi he (px - ex - (qx - ex)) _ _) as [[e1 e2] e3]. destruct (b2i ro pi he (px - vx - (qx - vx)) _ _) as [[f1 f2] f3]. destruct (b2i ro pi he (px - qx) _ _) as [[g1 g2] g3].
  destruct L1 as (L11 & L12 & L13). destruct L2 as (L21 & L22 & L23). destruct X1 as (X11 & X12 & X13). destruct X2 as (X21 & X22 & X23).
  repeat split; lra.
Qed.
Print Assumptions C205_lever_arms.
(** ... and for the DVL itself northing, easting and altitude are the measured ones. *)
Theorem C205_at_dvl : forall b2i to_metres to_latlon name depth dvl s r,
  (forall roll pitch heading x y z, x == 0 -> y == 0 -> z == 0 -> let '(a, b, c) := b2i roll pitch heading x y z in a == 0 /\ b == 0 /\ c == 0) ->
  place b2i to_metres to_latlon name dvl depth dvl s = Some r ->
  exists lat lon alt, s_lat s = Some lat /\ s_lon s = Some lon /\ s_alt s = Some alt /\ o_north r == fst (to_metres lat lon) /\ o_east r == snd (to_metres lat lon) /\ o_alt r == alt.
Proof.
  intros b2i to_metres to_latlon name [[ex ey] ez] [[vx vy] vz] s r Z R. unfold place in R.
  destruct (s_lat s) as [lat|]; [|discriminate]. destruct (s_lon s) as [lon|]; [|discriminate]. destruct (s_depth s) as [de|]; [|discriminate]. destruct (s_alt s) as [al|]; [|discriminate].
  destruct (s_heading s) as [he|]; [|discriminate]. destruct (s_pitch s) as [pi|]; [|discriminate]. destruct (s_roll s) as [ro|]; [|discriminate]. exists lat, lon, al.
  destruct (to_metres lat lon) as [no ea]. pose proof (Z ro pi he (vx - vx) (vy - vy) (vz - vz) ltac:(ring) ltac:(ring) ltac:(ring)) as L.
  destruct (b2i ro pi he (vx - ex) (vy - ey) (vz - ez)) as [[a1 a2] a3]. destruct (b2i ro pi he (vx - vx) (vy - vy) (vz - vz)) as [[c1 c2] c3]. destruct (to_latlon (ea + c2) (no + c1)) as [l1 l2]. injection R as <-.
  destruct L as (L1 & L2 & L3). cbn [o_north o_east o_alt fst snd]. repeat split; lra.
Qed.
Print Assumptions C205_at_dvl.

(** ** Speed filter *)
(** Going from [a] to [b] (latitude and longitude taken as plane coordinates of 111139 m per degree) needs more than 20 m/s. *)
Definition over_20 (a b : pos) : Prop := exists la oa lb ob, p_lat a = Some la /\ p_lon a = Some oa /\ p_lat b = Some lb /\ p_lon b = Some ob /\
  p_t a <= p_t b /\ ~ (111139 * (lb - la)) ^ 2 + (111139 * (ob - oa)) ^ 2 <= (20 * (p_t b - p_t a)) ^ 2.
(** [out] is [l] without the positions that cannot be reached in time from the last one kept ([a] before the list). *)
Inductive sifted : pos -> list pos -> list pos -> Prop :=
| sift_nil a : sifted a [] []
| sift_keep a p l out : ~ over_20 a p -> sifted p l out -> sifted a (p :: l) (p :: out)
| sift_drop a p l out : over_20 a p -> sifted a l out -> sifted a (p :: l) out.
Lemma too_fast_spec : forall a b, too_fast a b = true <-> over_20 a b.
Proof.
  intros a b. unfold too_fast, over_20. split.
  - destruct (p_lat a) as [la|]; [|discriminate]. destruct (p_lon a) as [oa|]; [|discriminate]. destruct (p_lat b) as [lb|]; [|discriminate]. destruct (p_lon b) as [ob|]; [|discriminate]. intros H.
    apply andb_prop in H. destruct H as [H1 H2]. apply Qle_bool_iff in H1. apply Qltb_lt in H2. exists la, oa, lb, ob. repeat split; try lra.
  - intros (la & oa & lb & ob & -> & -> & -> & -> & T & K). apply andb_true_intro. split; [apply Qle_bool_iff; lra|]. apply Qltb_lt. apply Qnot_le_lt. intros L. apply K.
    setoid_replace ((111139 * (lb - la)) ^ 2 + (111139 * (ob - oa)) ^ 2) with (111139 * 111139 * ((lb - la) * (lb - la) + (ob - oa) * (ob - oa))) by ring.
    setoid_replace ((20 * (p_t b - p_t a)) ^ 2) with (400 * ((p_t b - p_t a) * (p_t b - p_t a))) by ring. exact L.
Qed.
Theorem C205_speed_filter : forall p l, exists out, filter_bad (p :: l) = Some (p :: out) /\ sifted p l out.
Proof.
  intros p l. exists (slow p l). split; [reflexivity|]. revert p. induction l as [|q l IH]; intros p; [constructor|]. cbn [slow]. destruct (too_fast p q) eqn:E.
  - apply sift_drop; [now apply too_fast_spec|apply IH].
  - apply sift_keep; [intros K; apply too_fast_spec in K; congruence|apply IH].
Qed.
Print Assumptions C205_speed_filter.
(** What is kept is never too fast, and a track never too fast is kept as it is. *)
Theorem C205_speed_kept : forall p l out, filter_bad (p :: l) = Some out -> forall a b, adjacent out a b -> ~ over_20 a b.
Proof.
  intros p l out E. destruct (C205_speed_filter p l) as (o & E' & S). rewrite E in E'. injection E' as ->. clear E.
  assert (G : forall a b, adjacent (p :: o) a b -> ~ over_20 a b); [|exact G].
  induction S as [p|p q l o N S IH|p q l o N S IH]; intros a b (k & A & B).
  - destruct k; discriminate.
  - destruct k as [|k]; [injection A as <-; injection B as <-; exact N|]. apply IH. now exists k.
  - apply IH. now exists k.
Qed.
Print Assumptions C205_speed_kept.
Theorem C205_speed_identity : forall p l, (forall a b, adjacent (p :: l) a b -> ~ over_20 a b) -> filter_bad (p :: l) = Some (p :: l).
Proof.
  intros p l H. unfold filter_bad. do 2 f_equal. revert p H. induction l as [|q l IH]; intros p H; [reflexivity|]. cbn [slow].
  destruct (too_fast p q) eqn:E; [exfalso; apply (H p q); [now exists 0%nat|now apply too_fast_spec]|]. f_equal. apply IH. intros a b (k & A & B). apply H. now exists (S k).
Qed.
Print Assumptions C205_speed_identity.

(** ** Names *)
(** Image names of different indexes differ, and the laser image [abcdefg] is in the folder [bcd]. *)
Theorem C205_names : forall folder i j, (0 <= i < 10 ^ 7)%Z -> (0 <= j < 10 ^ 7)%Z ->
  (laser_name folder i = laser_name folder j -> i = j) /\ (colour_name folder i = colour_name folder j -> i = j).
Proof.
  intros folder i j I J. split; intros E.
  - unfold laser_name in E. apply app_inv_head in E. apply (f_equal (@tl ascii)) in E. cbn [tl] in E.
    assert (L : forall n, length (slice 1 4 (pad 7 n)) = 3%nat) by (intros; unfold slice; rewrite firstn_length, skipn_length, pad_length; reflexivity).
    apply (f_equal (skipn 9)) in E. rewrite !skipn_app in E. rewrite !L in E. 
    rewrite (skipn_all2 (n := 9) (slice 1 4 (pad 7 i))), (skipn_all2 (n := 9) (slice 1 4 (pad 7 j))) in E by (rewrite L; lia). cbn [length skipn Nat.sub list_ascii_of_string app] in E. apply app_inv_tail in E.
    apply (f_equal py_int) in E. rewrite !py_int_pad in E by (try lia; cbn; lia). now injection E.
  - unfold colour_name in E. apply app_inv_head in E. apply (f_equal (@tl ascii)) in E. cbn [tl] in E. apply app_inv_tail in E. apply (f_equal py_int) in E. rewrite !py_int_pad in E by (try lia; cbn; lia). now injection E.
Qed.
Print Assumptions C205_names.
Theorem C205_laser_folder : forall folder a b c, (0 <= a <= 9)%Z -> (0 <= b < 1000)%Z -> (0 <= c < 1000)%Z ->
  laser_name folder (a * 1000000 + b * 1000 + c) = (folder ++ "/"%char :: pad 3 b ++ list_ascii_of_string "/image" ++ (pad 1 a ++ pad 3 b ++ pad 3 c) ++ list_ascii_of_string ".tif")%list.
Proof.
  intros folder a b c A B C. unfold laser_name. pose proof (pad_app 3 4 (a * 1000 + b) c ltac:(cbn; lia)) as P. pose proof (pad_app 3 1 a b ltac:(cbn; lia)) as P'.
  change (10 ^ Z.of_nat 3)%Z with 1000%Z in *. cbn [Nat.add] in P, P'. replace (a * 1000000 + b * 1000 + c)%Z with ((a * 1000 + b) * 1000 + c)%Z by ring. rewrite P, P'.
  reflexivity.
Qed.
Print Assumptions C205_laser_folder.
(** Ship logs: csv files whose name does not end in F, I or X; in particular no ...FIX.csv. *)
Theorem C205_log_files : forall name, log_file name = true <-> exists s x, name = (s ++ x :: list_ascii_of_string ".csv")%list /\ ~ In x (list_ascii_of_string "FIX").
Proof.
  intros name. unfold log_file. split.
  - remember (rev name) as w eqn:E. destruct w as [|v [|s [|c [|d [|x r]]]]]; try discriminate. intros H. apply andb_prop in H as [H H4]. apply andb_prop in H as [H H3]. apply andb_prop in H as [H H2]. apply andb_prop in H as [H1 H].
    apply (f_equal (@rev ascii)) in E. rewrite rev_involutive in E. cbn in E. repeat rewrite <- app_assoc in E. cbn [app] in E.
    repeat match goal with K : Ascii.eqb _ _ = true |- _ => apply Ascii.eqb_eq in K; subst end.
    exists (rev r), x. split; [reflexivity|]. intros [<-|[<-|[<-|[]]]]; discriminate.
  - intros (s & x & -> & N). rewrite rev_app_distr. cbn [list_ascii_of_string rev app]. rewrite !Ascii.eqb_refl. cbn [andb]. apply Bool.negb_true_iff.
    apply Bool.orb_false_iff. split; [apply Bool.orb_false_iff; split|]; apply Ascii.eqb_neq; intros ->; apply N; cbn; tauto.
Qed.
Print Assumptions C205_log_files.

(** ** Examples *)
Definition P t lat d := mkpos t (Some d) (Some 5) (Some lat) (Some 30).
Definition R t h := mkrot t (Some h) (Some 0) (Some 0).
Example ex_convert : convert [P 0 1 10; P 10 2 20] [R (-1) 90; R 11 102] [mkimage (-5) 1; mkimage 5 2; mkimage 12 3] [mkimage 10 1] =
  Some ([mkseen (mkimage 5 2) (Some (1 + (2 - 1) * (5 - 0) / (10 - 0))) (Some (30 + (30 - 30) * (5 - 0) / (10 - 0))) (Some (10 + (20 - 10) * (5 - 0) / (10 - 0))) (Some (5 + (5 - 5) * (5 - 0) / (10 - 0)))
           (Some (90 + (102 - 90) * (5 - -1) / (11 - -1))) (Some (0 + (0 - 0) * (5 - -1) / (11 - -1))) (Some (0 + (0 - 0) * (5 - -1) / (11 - -1)))],
        [mkseen (mkimage 10 1) (Some (1 + (2 - 1) * (10 - 0) / (10 - 0))) (Some (30 + (30 - 30) * (10 - 0) / (10 - 0))) (Some (10 + (20 - 10) * (10 - 0) / (10 - 0))) (Some (5 + (5 - 5) * (10 - 0) / (10 - 0)))
           (Some (90 + (102 - 90) * (10 - -1) / (11 - -1))) (Some (0 + (0 - 0) * (10 - -1) / (11 - -1))) (Some (0 + (0 - 0) * (10 - -1) / (11 - -1)))]).
Proof. reflexivity. Qed.
Example ex_speed : filter_bad [P 0 1 10; P 1 2 10; P 2 1 10] = Some [P 0 1 10; P 2 1 10].
Proof. reflexivity. Qed.
Example ex_name : string_of_list_ascii (laser_name (list_ascii_of_string "LM165") 123456) = "LM165/123/image0123456.tif"%string.
Proof. reflexivity. Qed.
Example ex_log_file : map (fun n => log_file (list_ascii_of_string n)) ["20200801.csv"; "20200801FIX.csv"; ".csv"]%string = [true; false; false].
Proof. reflexivity. Qed.

(** * C206 *)
(** Every position of an ordered log is used: no, the first is dropped. *)
Theorem C206_log_refuted : exists rows l, load_file (map Some rows) = Some l /\ increasing p_t rows /\ exists p, In p rows /\ ~ In p l.
Proof.
  exists [P 0 1 10; P 1 1 10], [P 1 1 10]. split; [reflexivity|]. split.
  - intros [|[|i]] [|[|j]] a b L A B; try lia; try (destruct j; discriminate); try (destruct i; discriminate). injection A as <-. injection B as <-. reflexivity.
  - exists (P 0 1 10). split; [now left|]. intros [K|[]]. discriminate.
Qed.
Print Assumptions C206_log_refuted.
(** A depth missing in the first position is left missing: no, it is made up from the last and the second. *)
Theorem C206_first_depth_refuted : exists files out d, load_positions files = Some out /\ nth_error out 0 = Some (mkpos 1 (Some d) (Some 5) (Some 1) (Some 30)) /\ d < 0 /\
  forall rows p, In rows files -> In (Some p) rows -> match p_depth p with Some x => 0 <= x | None => False end.
Proof.
  exists [[Some (P 0 1 10); Some (P 1 1 0); Some (P 2 1 10); Some (P 3 1 100)]]. eexists. eexists. split; [reflexivity|]. split; [reflexivity|]. split; [reflexivity|].
  intros rows p [<-|[]] H. repeat (destruct H as [H|H]; [injection H as <-; cbn; lra|]). destruct H.
Qed.
Print Assumptions C206_first_depth_refuted.
(** A heading stays near north while the vehicle turns from 359 to 1 degrees: no. *)
Theorem C206_heading_refuted : exists ps rs im s h, interpolate_to_images ps rs [im] = Some [s] /\ (forall r, In r rs -> exists x, r_heading r = Some x /\ (x == 359 \/ x == 1)) /\ s_heading s = Some h /\ h == 180.
Proof.
  exists [P 0 1 10; P 2 1 10], [R 0 359; R 2 1], (mkimage 1 1). eexists. eexists. split; [reflexivity|]. split; [|split; [reflexivity|reflexivity]].
  intros r [<-|[<-|[]]]; eexists; (split; [reflexivity|]); [left|right]; reflexivity.
Qed.
Print Assumptions C206_heading_refuted.
(** Colour images are converted although no laser image is in range: no. *)
Theorem C206_no_laser_refuted : exists ps rs lasers colours, lasers <> [] /\ (exists s, bind (interpolate_to_images ps rs colours) filter_nans = Some [s]) /\ convert ps rs lasers colours = None.
Proof. exists [P 0 1 10; P 2 1 10], [R 0 359; R 2 1], [mkimage 3 1], [mkimage 1 1]. split; [discriminate|]. split; [eexists; reflexivity|reflexivity]. Qed.
Print Assumptions C206_no_laser_refuted.
(** Every log but ...FIX.csv is read: no. *)
Theorem C206_log_names_refuted : exists name, log_file (list_ascii_of_string name) = false /\ exists s, name = (s ++ ".csv")%string /\ forall r, s <> (r ++ "FIX")%string.
Proof.
  exists "I.csv"%string. split; [reflexivity|]. exists "I"%string. split; [reflexivity|]. intros [|a [|b r]] K; discriminate.
Qed.
Print Assumptions C206_log_names_refuted.
(** A jump is dropped: not if a position without coordinates lies before it. *)
Theorem C206_speed_refuted : exists a n b, filter_bad [a; n; b] = Some [a; n; b] /\ over_20 a b.
Proof.
  exists (P 0 1 10), (mkpos 1 (Some 10) (Some 5) None None), (P 2 3 10). split; [reflexivity|]. exists 1, 30, 3, 30. repeat split; try reflexivity; [cbn; lra|].
  intros K. apply Qle_bool_iff in K. discriminate.
Qed.
Print Assumptions C206_speed_refuted.
(** An image taken at a recorded position gets that position: not at the first, when the last lacks coordinates. *)
Theorem C206_first_image_refuted : exists ps rs im s p, interpolate_to_images ps rs [im] = Some [s] /\ In p ps /\ p_t p = i_t im /\ p_lat p <> None /\ s_lat s = None.
Proof.
  exists [P 0 1 10; P 1 1 10; mkpos 2 (Some 10) (Some 5) None None], [R 0 359; R 2 1], (mkimage 0 1). eexists. exists (P 0 1 10).
  split; [reflexivity|]. split; [now left|]. split; [reflexivity|]. split; [discriminate|reflexivity].
Qed.
Print Assumptions C206_first_image_refuted.
