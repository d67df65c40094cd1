From Verif Require Import PyBase InterpModel InterpSpec InterpProofs DrModel DrSpec.
Open Scope Q_scope.

(** * Angular rates *)

Lemma nth_error_lt {A} (l : list A) i : (i < length l)%nat -> exists a, nth_error l i = Some a.
Proof.
  intro H. destruct (nth_error l i) eqn:E; [eauto|]. apply nth_error_None in E. lia.
Qed.

Lemma rate_pair_spec v i :
  (i < length v)%nat -> (2 <= length v)%nat -> ~ (length v = 2%nat /\ i = 1%nat) ->
  exists k m a b, (k < m <= k + 2)%nat /\ nth_error v k = Some a /\ nth_error v m = Some b /\
                  rate_pair v i = Some (a, b).
Proof.
  intros Hi Hl Hn. unfold rate_pair. cbv zeta.
  destruct (Nat.leb_spec 1 i) as [H1|H1]; cbn [andb].
  - destruct (Nat.ltb_spec i (length v - 1)) as [H2|H2]; cbn [andb].
    + destruct (nth_error_lt v (i - 1)) as [a Ha]; [lia|].
      destruct (nth_error_lt v (i + 1)) as [b Hb]; [lia|].
      exists (i - 1)%nat, (i + 1)%nat, a, b. rewrite Ha, Hb. repeat split; lia.
    + destruct (Nat.ltb_spec 1 i) as [H3|H3]; cbn [andb]; [|lia].
      destruct (Nat.eqb_spec i (length v - 1)) as [H4|H4]; [|lia].
      destruct (nth_error_lt v (i - 1)) as [a Ha]; [lia|].
      destruct (nth_error_lt v i) as [b Hb]; [lia|].
      exists (i - 1)%nat, i, a, b. rewrite Ha, Hb. repeat split; lia.
  - destruct (Nat.ltb_spec 1 i) as [H3|H3]; cbn [andb]; [lia|].
    destruct (Nat.eqb_spec i 0) as [H4|H4]; [|lia].
    destruct (nth_error_lt v i) as [a Ha]; [lia|].
    destruct (nth_error_lt v (i + 1)) as [b Hb]; [lia|].
    exists i, (i + 1)%nat, a, b. rewrite Ha, Hb. repeat split; lia.
Qed.

Lemma inject_Z_small (x : Q) (k : Z) : -1 < inject_Z k -> inject_Z k < 1 -> k = 0%Z.
Proof.
  intros A B. change (-1) with (inject_Z (-1)) in A. change 1 with (inject_Z 1) in B.
  rewrite <- Zlt_Qlt in A, B. lia.
Qed.

Lemma same_heading_360 a b : same_heading a b -> exists k, a == b + 360 * inject_Z k.
Proof.
  intros [k H]. exists k. rewrite H. rewrite inject_Z_mult. change (inject_Z 360) with 360. reflexivity.
Qed.

Lemma dyaw_wrap y1 y2 d :
  0 <= y1 <= 360 -> 0 <= y2 <= 360 -> Qabs d < 180 ->
  (exists k, y2 - y1 == d + 360 * inject_Z k) ->
  (if Qltb 180 (y2 - y1) then y2 - y1 - 360
   else if Qltb (y2 - y1) (-180) then y2 - y1 + 360 else y2 - y1) == d.
Proof.
  intros H1 H2 Hd [k Hk]. apply Qabs_Qlt_condition in Hd.
  set (D := y2 - y1) in *. assert (HD : -360 <= D <= 360) by (unfold D; lra). clearbody D.
  destruct (Qltb 180 D) eqn:E1.
  - apply Qltb_lt in E1. assert (k = 1%Z).
    { assert (A : 0 < inject_Z k) by lra. assert (B : inject_Z k < 2) by lra.
      change 0 with (inject_Z 0) in A. change 2 with (inject_Z 2) in B.
      rewrite <- Zlt_Qlt in A, B. lia. }
    subst k. change (inject_Z 1) with 1 in Hk. lra.
  - apply Qltb_ge in E1. destruct (Qltb D (-180)) eqn:E2.
    + apply Qltb_lt in E2. assert (k = (-1)%Z).
      { assert (A : inject_Z k < 0) by lra. assert (B : -2 < inject_Z k) by lra.
        change 0 with (inject_Z 0) in A. change (-2) with (inject_Z (-2)) in B.
        rewrite <- Zlt_Qlt in A, B. lia. }
      subst k. change (inject_Z (-1)) with (-1) in Hk. lra.
    + apply Qltb_ge in E2. assert (k = 0%Z).
      { apply (inject_Z_small 0); lra. }
      subst k. change (inject_Z 0) with 0 in Hk. lra.
Qed.

Lemma angular_speeds_steady l p q w i :
  increasing o_t l -> steady_rotation l p q w -> slow_turn l w ->
  (i < length l)%nat -> (2 <= length l)%nat -> ~ (length l = 2%nat /\ i = 1%nat) ->
  exists p' q' w', compute_angular_speeds l i = Some (p', q', w') /\
    p' == p /\ q' == q /\ w' == w.
Proof.
  intros Hinc (r0 & p0 & y0 & Hs) Hw Hi Hl Hn.
  destruct (rate_pair_spec l i Hi Hl Hn) as (k & m & a & b & Hkm & Ha & Hb & E).
  unfold compute_angular_speeds. rewrite E. cbv zeta.
  assert (Hlt : o_t a < o_t b) by (eapply Hinc; [|eassumption|eassumption]; lia).
  pose proof (Hw k m a b Hkm Ha Hb) as Hsl.
  destruct (Hs a (nth_error_In _ _ Ha)) as (Ra & Pa & Ya & Ba).
  destruct (Hs b (nth_error_In _ _ Hb)) as (Rb & Pb & Yb & Bb).
  destruct (Qeq_bool (o_t b - o_t a) 0) eqn:Ez.
  { apply Qeq_bool_iff in Ez. exfalso. lra. }
  do 3 eexists. split; [reflexivity|].
  assert (Hd : ~ o_t b - o_t a == 0) by (intro K; lra).
  split; [|split].
  - rewrite Ra, Rb. field. exact Hd.
  - rewrite Pa, Pb. field. exact Hd.
  - apply same_heading_360 in Ya as [ka Ya]. apply same_heading_360 in Yb as [kb Yb].
    rewrite (dyaw_wrap (o_yaw a) (o_yaw b) (w * (o_t b - o_t a)) Ba Bb Hsl).
    + field. exact Hd.
    + exists (kb - ka)%Z. unfold Z.sub. rewrite inject_Z_plus, inject_Z_opp. rewrite Ya, Yb. ring.
Qed.

(** * Dead reckoning *)

Lemma dr_from_length l : forall prev pos, length (dr_from prev pos l) = length l.
Proof. induction l as [|v l IH]; intros; simpl; [reflexivity|]. now rewrite IH. Qed.

Lemma dr_track_length l : length (dr_track l) = length l.
Proof. destruct l; simpl; [reflexivity|]. now rewrite dr_from_length. Qed.

Lemma area_cons f a b l : area f (a :: b :: l) = (v_t b - v_t a) * (f a + f b) / 2 + area f (b :: l).
Proof. reflexivity. Qed.

Lemma dr_from_area l : forall prev pos k p,
  nth_error (dr_from prev pos l) k = Some p ->
  fst p == fst pos + area v_n (firstn (2 + k) (prev :: l)) /\
  snd p == snd pos + area v_e (firstn (2 + k) (prev :: l)).
Proof.
  induction l as [|v l IH]; intros prev pos k p E.
  - destruct k; discriminate.
  - destruct k as [|k].
    + injection E as <-. change (firstn (2 + 0) (prev :: v :: l)) with [prev; v].
      rewrite !area_cons. unfold dead_reckoning. cbn [fst snd area]. split; field.
    + cbn [dr_from nth_error] in E. apply IH in E.
      change (firstn (2 + S k) (prev :: v :: l)) with (prev :: v :: firstn (S k) l).
      rewrite !area_cons. change (firstn (2 + k) (v :: l)) with (v :: firstn (S k) l) in E.
      destruct E as [E1 E2]. unfold dead_reckoning in E1, E2. cbn [fst snd] in E1, E2.
      rewrite E1, E2. split; field.
Qed.

Lemma dr_track_area l k p :
  nth_error (dr_track l) k = Some p ->
  fst p == area v_n (firstn (S k) l) /\ snd p == area v_e (firstn (S k) l).
Proof.
  destruct l as [|v l]; [destruct k; discriminate|].
  destruct k as [|k]; intro E.
  - injection E as <-. cbn. split; reflexivity.
  - cbn [dr_track nth_error] in E. apply dr_from_area in E as [E1 E2].
    change (firstn (2 + k) (v :: l)) with (firstn (S (S k)) (v :: l)) in *.
    rewrite E1, E2. cbn [fst snd]. split; ring.
Qed.

Lemma area_quadratic f l a c0 : 
  (forall v, In v l -> f v == a * v_t v + c0) ->
  forall x y, nth_error l 0 = Some x -> nth_error l (length l - 1) = Some y ->
  area f l == a * (v_t y * v_t y - v_t x * v_t x) / 2 + c0 * (v_t y - v_t x).
Proof.
  induction l as [|v l IH]; intros Hf x y Hx Hy; [destruct (length _); discriminate|].
  injection Hx as <-. destruct l as [|w l].
  - injection Hy as <-. cbn. field.
  - rewrite area_cons.
    assert (Hy' : nth_error (w :: l) (length (w :: l) - 1) = Some y).
    { replace (length (v :: w :: l) - 1)%nat with (S (length (w :: l) - 1)) in Hy by (cbn; lia). exact Hy. }
    rewrite (IH (fun u Hu => Hf u (or_intror Hu)) w y eq_refl Hy').
    rewrite (Hf v), (Hf w) by (simpl; tauto). field.
Qed.

Lemma area_app f l1 p l2 : area f (l1 ++ p :: l2) == area f (l1 ++ [p]) + area f (p :: l2).
Proof.
  induction l1 as [|a l1 IH].
  - cbn [app]. cbn [area]. change (area f [p]) with 0. ring.
  - destruct l1 as [|b l1].
    + cbn [app]. rewrite !area_cons. change (area f [p]) with 0. ring.
    + cbn [app] in IH |- *. rewrite !area_cons, IH. ring.
Qed.

Lemma area_linear k l : forall l1 l2, 
  length l1 = length l -> length l2 = length l ->
  (forall i a b c, nth_error l i = Some a -> nth_error l1 i = Some b -> nth_error l2 i = Some c ->
     v_t a == v_t b /\ v_t a == v_t c /\ v_n a == k * v_n b + v_n c /\ v_e a == k * v_e b + v_e c) ->
  area v_n l == k * area v_n l1 + area v_n l2 /\ area v_e l == k * area v_e l1 + area v_e l2.
Proof.
  induction l as [|a l IH]; intros l1 l2 H1 H2 H.
  - destruct l1; [|discriminate]. destruct l2; [|discriminate]. cbn. split; ring.
  - destruct l1 as [|b l1]; [discriminate|]. destruct l2 as [|c l2]; [discriminate|].
    injection H1 as H1. injection H2 as H2.
    specialize (IH l1 l2 H1 H2 (fun i => H (S i))).
    destruct (H O a b c eq_refl eq_refl eq_refl) as (T1 & T2 & N1 & E1).
    destruct l as [|a' l].
    + destruct l1; [|discriminate]. destruct l2; [|discriminate]. cbn. split; ring.
    + destruct l1 as [|b' l1]; [discriminate|]. destruct l2 as [|c' l2]; [discriminate|].
      rewrite !area_cons. destruct IH as [IH1 IH2]. rewrite IH1, IH2.
      destruct (H 1%nat a' b' c' eq_refl eq_refl eq_refl) as (T1' & T2' & N1' & E1').
      rewrite N1, E1, N1', E1', T1, T1'. 
      assert (Eb : v_t b == v_t c) by (rewrite <- T1; exact T2).
      assert (Eb' : v_t b' == v_t c') by (rewrite <- T1'; exact T2').
      rewrite <- Eb, <- Eb'. split; field.
Qed.

Lemma firstn_nth_last {A} (l : list A) k (a : A) :
  nth_error l k = Some a -> length (firstn (S k) l) = S k /\ nth_error (firstn (S k) l) k = Some a.
Proof.
  revert k. induction l as [|b l IH]; intros [|k] E; try discriminate.
  - injection E as <-. split; reflexivity.
  - cbn [nth_error] in E. destruct (IH k E) as [L N].
    change (firstn (S (S k)) (b :: l)) with (b :: firstn (S k) l). cbn [length nth_error]. split; [now rewrite L|exact N].
Qed.

Lemma In_firstn {A} (l : list A) k a : In a (firstn k l) -> In a l.
Proof. intro H. rewrite <- (firstn_skipn k l). apply in_or_app. now left. Qed.

Lemma dr_constant_acceleration l a b c d k s p s0 :
  (forall v, In v l -> v_n v == a * v_t v + b /\ v_e v == c * v_t v + d) ->
  nth_error l 0 = Some s0 -> nth_error l k = Some s -> nth_error (dr_track l) k = Some p ->
  pos_eq p (a * (v_t s * v_t s - v_t s0 * v_t s0) / 2 + b * (v_t s - v_t s0),
            c * (v_t s * v_t s - v_t s0 * v_t s0) / 2 + d * (v_t s - v_t s0)).
Proof.
  intros Hl H0 Hk Hp. apply dr_track_area in Hp as [P1 P2].
  destruct (firstn_nth_last l k s Hk) as [L N].
  assert (N0 : nth_error (firstn (S k) l) 0 = Some s0) by (destruct l; [discriminate|exact H0]).
  replace k with (length (firstn (S k) l) - 1)%nat in N by (rewrite L; lia).
  split; cbn [fst snd].
  - rewrite P1. apply area_quadratic; [|exact N0|].
    + intros v Hv. apply Hl. eapply In_firstn; exact Hv.
    + replace (length (firstn (S k) l) - 1)%nat with k in N by (rewrite L; lia).
      rewrite L. replace (S k - 1)%nat with k by lia. exact N.
  - rewrite P2. apply area_quadratic; [|exact N0|].
    + intros v Hv. apply Hl. eapply In_firstn; exact Hv.
    + replace (length (firstn (S k) l) - 1)%nat with k in N by (rewrite L; lia).
      rewrite L. replace (S k - 1)%nat with k by lia. exact N.
Qed.

Lemma dr_constant_velocity l vn ve k s p s0 :
  (forall v, In v l -> v_n v == vn /\ v_e v == ve) ->
  nth_error l 0 = Some s0 -> nth_error l k = Some s -> nth_error (dr_track l) k = Some p ->
  pos_eq p (vn * (v_t s - v_t s0), ve * (v_t s - v_t s0)).
Proof.
  intros Hl H0 Hk Hp.
  destruct (dr_constant_acceleration l 0 vn 0 ve k s p s0) as [A B]; try assumption.
  { intros v Hv. destruct (Hl v Hv) as [-> ->]. split; ring. }
  split; cbn [fst snd] in *; [rewrite A|rewrite B]; field.
Qed.

Lemma dr_split l1 s l2 k p q r :
  nth_error (dr_track (l1 ++ s :: l2)) (length l1 + k) = Some p ->
  nth_error (dr_track (l1 ++ [s])) (length l1) = Some q ->
  nth_error (dr_track (s :: l2)) k = Some r ->
  pos_eq p (pos_add q r).
Proof.
  intros P Q0 R. apply dr_track_area in P as [P1 P2]. apply dr_track_area in Q0 as [Q1 Q2].
  apply dr_track_area in R as [R1 R2].
  replace (S (length l1 + k)) with (length l1 + S k)%nat in P1, P2 by lia.
  rewrite firstn_app_2 in P1, P2.
  replace (S (length l1)) with (length l1 + 1)%nat in Q1, Q2 by lia.
  rewrite firstn_app_2 in Q1, Q2. cbn [firstn] in P1, P2, Q1, Q2, R1, R2.
  unfold pos_eq, pos_add. cbn [fst snd]. rewrite P1, P2, Q1, Q2, R1, R2.
  split; apply area_app.
Qed.

Lemma dr_linear c l l1 l2 k p q r :
  length l1 = length l -> length l2 = length l ->
  (forall i x y z, nth_error l i = Some x -> nth_error l1 i = Some y -> nth_error l2 i = Some z ->
     v_t x == v_t y /\ v_t x == v_t z /\ v_n x == c * v_n y + v_n z /\ v_e x == c * v_e y + v_e z) ->
  nth_error (dr_track l) k = Some p -> nth_error (dr_track l1) k = Some q ->
  nth_error (dr_track l2) k = Some r ->
  pos_eq p (pos_add (pos_scale c q) r).
Proof.
  intros L1 L2 H P Q0 R. apply dr_track_area in P as [P1 P2]. apply dr_track_area in Q0 as [Q1 Q2].
  apply dr_track_area in R as [R1 R2].
  destruct (area_linear c (firstn (S k) l) (firstn (S k) l1) (firstn (S k) l2)) as [A1 A2].
  - rewrite !firstn_length. lia.
  - rewrite !firstn_length. lia.
  - assert (NF : forall (B : Type) (m : list B) i z, nth_error (firstn (S k) m) i = Some z -> nth_error m i = Some z).
    { intros B m i z E. rewrite <- (firstn_skipn (S k) m). rewrite nth_error_app1; [exact E|].
      apply nth_error_Some. rewrite E. discriminate. }
    intros i x y z E1 E2 E3. apply (H i); apply NF; assumption.
  - unfold pos_eq, pos_add, pos_scale. cbn [fst snd]. rewrite P1, P2, Q1, Q2, R1, R2, A1, A2. split; reflexivity.
Qed.

(** * Synchronisation *)

Lemma start_index_spec os t0 s :
  start_index os t0 = Some s ->
  (s < length os)%nat /\
  (forall i t, (i < s)%nat -> nth_error os i = Some t -> t < t0) /\
  (forall t, nth_error os s = Some t -> t0 <= t).
Proof.
  revert s. induction os as [|t os IH]; intros s E; [discriminate|].
  cbn [start_index] in E. destruct (Qltb t t0) eqn:L.
  - destruct (start_index os t0) as [s'|]; [|discriminate]. injection E as <-.
    destruct (IH s' eq_refl) as (A & B & C). split; [cbn; lia|]. split.
    + intros [|i] u Hi Hu; [injection Hu as <-; now apply Qltb_lt|]. apply (B i); [lia|exact Hu].
    + intros u Hu. apply C. exact Hu.
  - injection E as <-. split; [cbn; lia|]. split; [intros; lia|].
    intros u Hu. injection Hu as <-. now apply Qltb_ge.
Qed.

Lemma adv_vel_spec vels t : forall fuel j,
  (j + fuel >= length vels)%nat ->
  let j' := adv_vel fuel vels t j in
  (j <= j')%nat /\
  (forall v, nth_error vels (S j') = Some v -> t <= b_t v) /\
  (forall v, (j < j')%nat -> nth_error vels j' = Some v -> b_t v < t) /\
  ((j < length vels)%nat -> (j' < length vels)%nat).
Proof.
  induction fuel as [|f IH]; intros j Hf; cbn [adv_vel].
  - repeat split; [lia| | |lia].
    + intros v Hv. assert (S j < length vels)%nat by (apply nth_error_Some; rewrite Hv; discriminate). lia.
    + lia.
  - destruct (nth_error vels (S j)) as [v|] eqn:E.
    + destruct (Qltb (b_t v) t) eqn:L.
      * destruct (IH (S j) ltac:(lia)) as (A & B & C & D). split; [lia|]. split; [exact B|]. split.
        -- intros w Hw Hn. set (j' := adv_vel f vels t (S j)) in *.
           destruct (Nat.eq_dec j' (S j)) as [Ej|Ej].
           ++ rewrite Ej, E in Hn. injection Hn as <-. now apply Qltb_lt.
           ++ apply C; [lia|exact Hn].
        -- intros _. apply D. apply nth_error_Some. rewrite E. discriminate.
      * apply Qltb_ge in L. repeat split; try lia. intros w Hw. rewrite E in Hw. now injection Hw as <-.
    + repeat split; try lia. intros w Hw. rewrite E in Hw. discriminate.
Qed.

Lemma adv_pair_spec l t : forall fuel n,
  (n + fuel >= length l)%nat -> (n < length l)%nat ->
  let n' := adv_pair fuel l t n in
  (n <= n' < length l)%nat /\
  (forall a, (S n' < length l)%nat -> nth_error l n' = Some a -> t <= fst a) /\
  (forall a, (n < n')%nat -> nth_error l (n' - 1) = Some a -> fst a < t).
Proof.
  induction fuel as [|f IH]; intros n Hf Hn; cbn [adv_pair]; [lia|].
  destruct (Nat.ltb_spec (S n) (length l)) as [H|H].
  - destruct (nth_error l n) as [a|] eqn:E.
    + destruct (Qltb (fst a) t) eqn:L.
      * destruct (IH (S n) ltac:(lia) ltac:(lia)) as (A & B & C). split; [lia|]. split; [exact B|].
        intros b Hb Hn'. set (n' := adv_pair f l t (S n)) in *.
        destruct (Nat.eq_dec n' (S n)) as [En|En].
        -- rewrite En in Hn'. replace (S n - 1)%nat with n in Hn' by lia.
           rewrite E in Hn'. injection Hn' as <-. now apply Qltb_lt.
        -- apply C; [lia|exact Hn'].
      * apply Qltb_ge in L. repeat split; try lia. intros b _ Hb. rewrite E in Hb. now injection Hb as <-.
    + exfalso. apply nth_error_None in E. lia.
  - repeat split; try lia.
Qed.

Lemma nondecreasing_le {A} (f : A -> Q) l i j a b :
  nondecreasing f l -> (i <= j)%nat -> nth_error l i = Some a -> nth_error l j = Some b -> f a <= f b.
Proof.
  intros H Hij Ha Hb. destruct (Nat.eq_dec i j) as [->|E].
  - rewrite Ha in Hb. injection Hb as ->. apply Qle_refl.
  - apply (H i j); [lia|assumption|assumption].
Qed.

Lemma increasing_nondecreasing {A} (f : A -> Q) l : increasing f l -> nondecreasing f l.
Proof. intros H i j a b Hij Ha Hb. apply Qlt_le_weak. eapply H; eassumption. Qed.

(** Invariant of a pair cursor: [n] is in range, and if positive the sample
    before it is earlier than everything still to come. *)
Definition pair_inv (l : list (Q * Q)) (t : Q) (n : nat) : Prop :=
  (n < length l)%nat /\ ((0 < n)%nat -> forall a, nth_error l (n - 1) = Some a -> fst a < t).

Lemma at_pair_polyline l t n x :
  increasing fst l -> pair_inv l t n ->
  let n' := adv_pair (length l) l t n in
  at_pair l t n' = Some x ->
  pair_inv l t n' /\
  (forall a z, is_first l a -> is_last l z -> fst a < t <= fst z -> on_polyline l t x).
Proof.
  intros Hinc [Hn Hlt] n' E.
  destruct (adv_pair_spec l t (length l) n ltac:(lia) Hn) as (A & B & C). fold n' in A, B, C.
  assert (Hprev : (0 < n')%nat -> forall a, nth_error l (n' - 1) = Some a -> fst a < t).
  { intros Hp a Ha. destruct (Nat.eq_dec n' n) as [En|En].
    - rewrite En in *. apply Hlt; assumption.
    - apply C; [lia|exact Ha]. }
  split; [split; [lia|exact Hprev]|].
  intros a z (l1 & Hf) (l2 & Hz) Ht.
  assert (N0 : nth_error l 0 = Some a) by (rewrite Hf; reflexivity).
  assert (NZ : nth_error l (length l - 1) = Some z).
  { rewrite Hz, app_length. cbn [length]. replace (length l2 + 1 - 1)%nat with (length l2) by lia.
    rewrite nth_error_app2, Nat.sub_diag by lia. reflexivity. }
  assert (Hpos : (0 < n')%nat).
  { destruct n' as [|m]; [|lia]. exfalso.
    destruct (Nat.eq_dec (length l) 1) as [L1|L1].
    - rewrite L1 in NZ. change (1 - 1)%nat with 0%nat in NZ. rewrite N0 in NZ. injection NZ as ->. lra.
    - assert (K : t <= fst a) by (apply B; [lia|exact N0]). lra. }
  unfold at_pair in E. rewrite py_nth_pred in E by exact Hpos.
  destruct (nth_error l (n' - 1)) as [u|] eqn:Eu; [|discriminate].
  destruct (nth_error l n') as [w|] eqn:Ew; [|discriminate].
  injection E as <-. exists u, w. split; [exists (n' - 1)%nat; split; [exact Eu|]|].
  { replace (S (n' - 1)) with n' by lia. exact Ew. }
  assert (Hu : fst u < t) by (apply Hprev; [exact Hpos|reflexivity]).
  assert (Hw : t <= fst w).
  { destruct (Nat.eq_dec (S n') (length l)) as [En|En].
    - replace (length l - 1)%nat with n' in NZ by lia. rewrite Ew in NZ. injection NZ as ->. lra.
    - apply B; [lia|reflexivity]. }
  split; [lra|]. apply interpolate_on_line. intro K. lra.
Qed.

Definition vel_inv (vels : list bodyvel) (t : Q) (j : nat) : Prop :=
  (S j < length vels)%nat /\ forall v, nth_error vels j = Some v -> b_t v <= t.

Lemma at_vel_segment vels t j v tl :
  increasing b_t vels -> vel_inv vels t j ->
  (exists vl, nth_error vels (length vels - 1) = Some vl /\ b_t vl = tl) -> t <= tl ->
  let j' := adv_vel (length vels) vels t j in
  at_vel vels t j' = Some v ->
  vel_inv vels t j' /\
  exists a b, adjacent vels a b /\ b_t a <= t <= b_t b /\ vel_on_segment a b v /\ b_t v = t.
Proof.
  intros Hinc [Hj Hle] (vl & Hvl & Etl) Ht j' E.
  destruct (adv_vel_spec vels t (length vels) j ltac:(lia)) as (A & B & C & D). fold j' in A, B, C, D.
  unfold at_vel in E.
  destruct (nth_error vels j') as [a|] eqn:Ea; [|discriminate].
  destruct (nth_error vels (S j')) as [b|] eqn:Eb; [|discriminate].
  assert (Ha : b_t a <= t).
  { destruct (Nat.eq_dec j j') as [Ej|Ej].
    - apply Hle. rewrite Ej. exact Ea.
    - apply Qlt_le_weak, C; [lia|reflexivity]. }
  injection E as <-. split.
  - split; [apply nth_error_Some; rewrite Eb; discriminate|]. intros w Hw. rewrite Ea in Hw. now injection Hw as <-.
  - exists a, b. split; [exists j'; split; assumption|].
    split; [split; [exact Ha|apply B; reflexivity]|].
    split; [|reflexivity].
    assert (Hab : b_t a < b_t b) by (eapply Hinc; [|exact Ea|exact Eb]; lia).
    intros g Hg. cbn [b_t].
    assert (G : forall h : bodyvel -> Q, on_line (b_t a) (h a) (b_t b) (h b) t (interpolate t (b_t a) (b_t b) (h a) (h b))).
    { intro h. apply interpolate_on_line. intro K. lra. }
    cbn [In] in Hg. repeat (destruct Hg as [<-|Hg]; [cbn; apply G|]). destruct Hg.
Qed.

Lemma sync_from_ok vels alts depths tl :
  increasing b_t vels -> increasing fst alts -> increasing fst depths ->
  (exists vl, nth_error vels (length vels - 1) = Some vl /\ b_t vl = tl) ->
  forall os j n k out,
  (forall t t', In t' os -> nth_error os 0 = Some t -> t <= t') -> nondecreasing (fun t => t) os ->
  (forall t, In t os -> vel_inv vels t j /\ pair_inv alts t n /\ pair_inv depths t k) ->
  sync_from vels alts depths tl j n k os = Some out ->
  map y_t out = filter (fun t => negb (Qltb tl t)) os /\ Forall (sync_ok vels alts depths) out.
Proof.
  intros Hv Ha Hd Hl. induction os as [|t os IH]; intros j n k out Hmin Hnd Hinv E.
  - injection E as <-. split; [reflexivity|constructor].
  - cbn [sync_from] in E. cbn [filter]. destruct (Qltb tl t) eqn:L.
    + injection E as <-. split; [|constructor]. cbn [negb map].
      symmetry. apply Qltb_lt in L.
      assert (Hall : forall u, In u os -> negb (Qltb tl u) = false).
      { intros u Hu. apply Bool.negb_false_iff. apply Qltb_lt.
        apply Qlt_le_trans with t; [exact L|]. apply Hmin; [now right|reflexivity]. }
      clear -Hall. induction os as [|u os IH]; [reflexivity|]. cbn [filter].
      rewrite Hall by now left. apply IH. intros w Hw. apply Hall. now right.
    + cbn [negb]. apply Qltb_ge in L.
      set (j' := adv_vel (length vels) vels t j) in *.
      set (n' := adv_pair (length alts) alts t n) in *.
      set (k' := adv_pair (length depths) depths t k) in *. cbv zeta in E.
      destruct (at_vel vels t j') as [v|] eqn:Ev; [|discriminate].
      destruct (at_pair alts t n') as [a|] eqn:Ea; [|discriminate].
      destruct (at_pair depths t k') as [d|] eqn:Ed; [|discriminate].
      destruct (sync_from vels alts depths tl j' n' k' os) as [out'|] eqn:Er; [|discriminate].
      injection E as <-.
      destruct (Hinv t (or_introl eq_refl)) as (I1 & I2 & I3).
      destruct (at_vel_segment vels t j v tl Hv I1 Hl L Ev) as [[I1a I1b] S1].
      destruct (at_pair_polyline alts t n a Ha I2 Ea) as [[I2a I2b] S2].
      destruct (at_pair_polyline depths t k d Hd I3 Ed) as [[I3a I3b] S3].
      fold n' in I2a, I2b. fold k' in I3a, I3b. fold j' in I1a, I1b.
      assert (Hle : forall u, In u os -> t <= u) by (intros u Hu; apply Hmin; [now right|reflexivity]).
      destruct (IH j' n' k' out') as [M F].
      * intros u u' Hu' Hu. destruct (In_nth_error _ _ Hu') as [m Hm].
        apply (nondecreasing_le (fun x => x) (t :: os) 1 (S m)); [exact Hnd|lia|exact Hu|exact Hm].
      * intros i i' u u' Hi Hu Hu'. apply (Hnd (S i) (S i') u u'); [lia|exact Hu|exact Hu'].
      * intros u Hu. specialize (Hle u Hu). repeat split.
        -- exact I1a.
        -- intros w Hw. apply Qle_trans with t; [apply I1b; exact Hw|exact Hle].
        -- exact I2a.
        -- intros Hp w Hw. apply Qlt_le_trans with t; [apply I2b; assumption|exact Hle].
        -- exact I3a.
        -- intros Hp w Hw. apply Qlt_le_trans with t; [apply I3b; assumption|exact Hle].
      * exact Er.
      * split; [cbn [map y_t]; now rewrite M|]. constructor; [|exact F].
        split; [exact S1|]. split; [exact S2|exact S3].
Qed.

(** Totality of the synchronisation loop. *)
Lemma at_pair_some l t n : (n < length l)%nat -> exists x, at_pair l t n = Some x.
Proof.
  intro H. unfold at_pair. destruct (nth_error_lt l n H) as [b ->].
  assert (exists a, py_nth l (Z.of_nat n - 1) = Some a) as [a ->]; [|eauto].
  destruct n as [|n].
  - change (Z.of_nat 0 - 1)%Z with (-1)%Z. destruct (py_nth_m1 l) as [->| ->]; [|cbn in H; lia].
    apply nth_error_lt. lia.
  - rewrite py_nth_pred by lia. apply nth_error_lt. lia.
Qed.

Lemma sync_from_total vels alts depths tl :
  increasing b_t vels ->
  (exists vl, nth_error vels (length vels - 1) = Some vl /\ b_t vl = tl) ->
  forall os j n k, (S j < length vels)%nat -> (n < length alts)%nat -> (k < length depths)%nat ->
  exists out, sync_from vels alts depths tl j n k os = Some out.
Proof.
  intros Hv (vl & Hvl & Etl). induction os as [|t os IH]; intros j n k Hj Hn Hk; cbn [sync_from]; [eauto|].
  destruct (Qltb tl t) eqn:L; [eauto|]. apply Qltb_ge in L. cbv zeta.
  destruct (adv_vel_spec vels t (length vels) j ltac:(lia)) as (A & B & C & D).
  set (j' := adv_vel (length vels) vels t j) in *.
  assert (Hj' : (S j' < length vels)%nat).
  { specialize (D ltac:(lia)). destruct (Nat.eq_dec (S j') (length vels)) as [Ej|Ej]; [|lia]. exfalso.
    assert (K : b_t vl < t); [|rewrite Etl in K; lra].
    apply C; [lia|]. replace j' with (length vels - 1)%nat by lia. exact Hvl. }
  destruct (adv_pair_spec alts t (length alts) n ltac:(lia) Hn) as (A1 & _).
  destruct (adv_pair_spec depths t (length depths) k ltac:(lia) Hk) as (A2 & _).
  set (n' := adv_pair (length alts) alts t n) in *.
  set (k' := adv_pair (length depths) depths t k) in *.
  destruct (at_pair_some alts t n') as [a ->]; [lia|].
  destruct (at_pair_some depths t k') as [d ->]; [lia|].
  unfold at_vel. destruct (nth_error_lt vels j') as [u ->]; [lia|].
  destruct (nth_error_lt vels (S j')) as [w ->]; [lia|].
  destruct (IH j' n' k') as [out ->]; [lia|lia|lia|]. eauto.
Qed.

Lemma filter_all_true {A} (f : A -> bool) l : (forall a, In a l -> f a = true) -> filter f l = l.
Proof.
  induction l as [|a l IH]; intro H; [reflexivity|]. cbn. rewrite H by now left.
  f_equal. apply IH. intros b Hb. apply H. now right.
Qed.

Lemma filter_skip os t0 s tl :
  nondecreasing (fun t => t) os -> start_index os t0 = Some s ->
  filter (fun t => negb (Qltb tl t)) (skipn s os) =
  filter (fun t => (Qle_bool t0 t && Qle_bool t tl)%bool) os.
Proof.
  intros Hnd E. destruct (start_index_spec _ _ _ E) as (Hs & Hb & Hg).
  rewrite <- (firstn_skipn s os) at 2. rewrite filter_app.
  assert (F : filter (fun t => (Qle_bool t0 t && Qle_bool t tl)%bool) (firstn s os) = []).
  { assert (K : forall t, In t (firstn s os) -> t < t0).
    { intros t Ht. destruct (In_nth_error _ _ Ht) as [i Hi].
      assert (Hil : (i < length (firstn s os))%nat) by (apply nth_error_Some; rewrite Hi; discriminate).
      rewrite firstn_length in Hil. apply (Hb i); [lia|].
      rewrite <- (firstn_skipn s os). rewrite nth_error_app1; [exact Hi|]. rewrite firstn_length. lia. }
    induction (firstn s os) as [|t l IH]; [reflexivity|]. cbn [filter].
    destruct (Qle_bool t0 t) eqn:L.
    - apply Qle_bool_iff in L. pose proof (K t (or_introl eq_refl)). lra.
    - cbn. apply IH. intros u Hu. apply K. now right. }
  rewrite F. cbn [app]. apply filter_ext_in. intros t Ht.
  assert (L : Qle_bool t0 t = true).
  { apply Qle_bool_iff. destruct (In_nth_error _ _ Ht) as [i Hi].
    destruct (nth_error_lt os s Hs) as [u Hu]. apply Qle_trans with u; [apply Hg; exact Hu|].
    assert (Ei : nth_error os (s + i) = Some t).
    { rewrite <- (firstn_skipn s os). rewrite nth_error_app2; rewrite firstn_length; [|lia].
      replace (s + i - Nat.min s (length os))%nat with i by lia. exact Hi. }
    apply (nondecreasing_le (fun x => x) os s (s + i)); [exact Hnd|lia|exact Hu|exact Ei]. }
  rewrite L. cbn [andb]. unfold Qltb. apply Bool.negb_involutive.
Qed.

Lemma start_index_count os t0 s :
  nondecreasing (fun t => t) os -> start_index os t0 = Some s ->
  length (filter (fun t => Qltb t t0) os) = s.
Proof.
  revert s. induction os as [|t os IH]; intros s Hnd E; [discriminate|].
  cbn [start_index] in E. cbn [filter]. destruct (Qltb t t0) eqn:L.
  - destruct (start_index os t0) as [s'|]; [|discriminate]. injection E as <-. cbn [length].
    f_equal. apply IH; [|reflexivity]. intros i i' u u' Hi Hu Hu'. apply (Hnd (S i) (S i') u u'); [lia|exact Hu|exact Hu'].
  - injection E as <-. apply Qltb_ge in L.
    assert (K : forall u, In u os -> Qltb u t0 = false).
    { intros u Hu. apply Qltb_ge. destruct (In_nth_error _ _ Hu) as [i Hi].
      apply Qle_trans with t; [exact L|]. apply (Hnd 0%nat (S i)); [lia|reflexivity|exact Hi]. }
    clear -K. induction os as [|u os IH]; [reflexivity|]. cbn [filter]. rewrite K by now left.
    apply IH. intros w Hw. apply K. now right.
Qed.

Lemma synchronise_correct os vels alts depths v0 vl :
  increasing (fun t => t) os -> increasing b_t vels -> increasing fst alts -> increasing fst depths ->
  (2 <= length vels)%nat -> alts <> [] -> depths <> [] ->
  is_first vels v0 -> is_last vels vl ->
  (exists t, In t os /\ b_t v0 <= t <= b_t vl) ->
  exists all, map y_t all = filter (in_span (b_t v0) (b_t vl)) os /\
    Forall (sync_ok vels alts depths) all /\
    (~ one_before os (b_t v0) -> synchronise os vels alts depths = Some all) /\
    (one_before os (b_t v0) -> synchronise os vels alts depths = Some (tl all)).
Proof.
  intros Ho Hv Ha Hd Hl Hna Hnd (l1 & F0) (l2 & FL) (t & Ht & Htr).
  unfold synchronise.
  assert (N0 : nth_error vels 0 = Some v0) by (rewrite F0; reflexivity).
  assert (NZ : nth_error vels (length vels - 1) = Some vl).
  { rewrite FL, app_length. cbn [length]. replace (length l2 + 1 - 1)%nat with (length l2) by lia.
    rewrite nth_error_app2, Nat.sub_diag by lia. reflexivity. }
  rewrite N0. destruct (py_nth_m1 vels) as [P|P]; [|rewrite P in Hl; cbn in Hl; lia].
  rewrite P, NZ.
  assert (exists s, start_index os (b_t v0) = Some s) as [s Es].
  { clear -Ht Htr. induction os as [|u os IH]; [destruct Ht|]. cbn [start_index].
    destruct (Qltb u (b_t v0)) eqn:L; [|eauto]. destruct Ht as [->|Ht].
    - apply Qltb_lt in L. lra.
    - destruct (IH Ht) as [s ->]. cbn. eauto. }
  rewrite Es.
  assert (Hout : exists out, sync_from vels alts depths (b_t vl) 0 0 0 (skipn s os) = Some out).
  { apply sync_from_total; [exact Hv|exists vl; split; [exact NZ|reflexivity]|lia| |].
    - destruct alts; [congruence|cbn; lia].
    - destruct depths; [congruence|cbn; lia]. }
  destruct Hout as [out Eo]. rewrite Eo.
  assert (Hskip_nd : nondecreasing (fun t => t) (skipn s os)).
  { assert (Hlen : (s <= length os)%nat) by (destruct (start_index_spec _ _ _ Es); lia).
    assert (NS : forall m z, nth_error (skipn s os) m = Some z -> nth_error os (s + m) = Some z).
    { intros m z Hm. rewrite <- (firstn_skipn s os) at 1. rewrite nth_error_app2; rewrite firstn_length; [|lia].
      replace (s + m - Nat.min s (length os))%nat with m by lia. exact Hm. }
    intros i i' a b Hi Hai Hbi. apply Qlt_le_weak. apply (Ho (s + i)%nat (s + i')%nat); [lia|apply NS; exact Hai|apply NS; exact Hbi]. }
  assert (Hge : forall u, In u (skipn s os) -> b_t v0 <= u).
  { intros u Hu. destruct (In_nth_error _ _ Hu) as [i Hi].
    destruct (start_index_spec _ _ _ Es) as (Hs & _ & Hg). destruct (nth_error_lt os s Hs) as [w Hw].
    apply Qle_trans with w; [apply Hg; exact Hw|].
    assert (W0 : nth_error (skipn s os) 0 = Some w).
    { rewrite <- (firstn_skipn s os), nth_error_app2, firstn_length in Hw by (rewrite firstn_length; lia).
      replace (s - Nat.min s (length os))%nat with 0%nat in Hw by lia. exact Hw. }
    apply (nondecreasing_le (fun x => x) (skipn s os) 0 i); [exact Hskip_nd|lia|exact W0|exact Hi]. }
  destruct (sync_from_ok vels alts depths (b_t vl) Hv Ha Hd (ex_intro _ vl (conj NZ eq_refl))
              (skipn s os) 0 0 0 out) as [M F].
  - intros u u' Hu' Hu. destruct (In_nth_error _ _ Hu') as [m Hm].
    apply (nondecreasing_le (fun x => x) (skipn s os) 0 m); [exact Hskip_nd|lia|exact Hu|exact Hm].
  - exact Hskip_nd.
  - intros u Hu. repeat split; try lia.
    + intros w Hw. rewrite N0 in Hw. injection Hw as <-. apply Hge. exact Hu.
    + destruct alts; [congruence|cbn; lia].
    + destruct depths; [congruence|cbn; lia].
  - exact Eo.
  - rewrite (filter_skip os (b_t v0) s (b_t vl) (increasing_nondecreasing _ _ Ho) Es) in M.
    exists out. split; [exact M|]. split; [exact F|].
    destruct out as [|r out].
    + exfalso. cbn in M. assert (In t (filter (fun t0 => (Qle_bool (b_t v0) t0 && Qle_bool t0 (b_t vl))%bool) os)).
      { apply filter_In. split; [exact Ht|]. apply andb_true_intro. split; apply Qle_bool_iff; lra. }
      rewrite <- M in H. destruct H.
    + assert (C := start_index_count os (b_t v0) s (increasing_nondecreasing _ _ Ho) Es).
      unfold one_before. rewrite C.
      destruct (Nat.eqb_spec s 1) as [E1|E1]; split; intro K; try reflexivity; contradiction.
Qed.
