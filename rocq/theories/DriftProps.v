(** C233, continued: errors of the velocities, turned headings and shifted clocks. *)
From Verif Require Import TrackModel FramesProofs PlaceProps TrackSpec TrackProofs TrackProps.
From Coq Require Import Psatz.
Open Scope R_scope.
(** ** Errors of the velocities *)
Lemma Forall2_length {A B} (P : A -> B -> Prop) l l' : Forall2 P l l' -> length l = length l'.
Proof. induction 1 as [|a b l l' _ _ IH]; [reflexivity|cbn; now rewrite IH]. Qed.
Lemma adv_vel_times vs vs' t : map v_t vs = map v_t vs' -> forall fuel j, adv_vel fuel vs t j = adv_vel fuel vs' t j.
Proof.
  intros E. induction fuel as [|fuel IH]; intros j; [reflexivity|]. cbn [adv_vel]. assert (option_map v_t (nth_error vs (S j)) = option_map v_t (nth_error vs' (S j))) as X by (now rewrite <- !nth_error_map, E).
  destruct (nth_error vs (S j)), (nth_error vs' (S j)); try discriminate; [|reflexivity]. injection X as ->. destruct (rlt _ _); [apply IH|reflexivity].
Qed.
Definition close (eps : R) (a b : vec) : Prop := norm2 (minus a b) <= eps * eps.
Lemma close_convex eps k a b a' b' : 0 <= k <= 1 -> close eps a a' -> close eps b b' ->
  close eps (vadd (vscale (1 - k) a) (vscale k b)) (vadd (vscale (1 - k) a') (vscale k b')).
Proof.
  intros K A B. unfold close in *. set (p := minus a a') in *. set (q := minus b b') in *.
  replace (minus (vadd (vscale (1 - k) a) (vscale k b)) (vadd (vscale (1 - k) a') (vscale k b'))) with (vadd (vscale (1 - k) p) (vscale k q)).
  2:{ unfold p, q. apply vec_eq; unfold minus, vadd, vscale, vx, vy, vz; cbn [fst snd]; ring. }
  clearbody p q. destruct p as [[p1 p2] p3], q as [[q1 q2] q3]. unfold norm2, dot, vadd, vscale, vx, vy, vz in *. cbn [fst snd] in *.
  assert (0 <= k * (1 - k) * ((p1 - q1) * (p1 - q1) + (p2 - q2) * (p2 - q2) + (p3 - q3) * (p3 - q3))).
  { apply Rmult_le_pos; [apply Rmult_le_pos; lra|]. pose proof (Rle_0_sqr (p1 - q1)). pose proof (Rle_0_sqr (p2 - q2)). pose proof (Rle_0_sqr (p3 - q3)). unfold Rsqr in *. lra. }
  assert ((1 - k) * (p1 * p1 + p2 * p2 + p3 * p3) <= (1 - k) * (eps * eps)) by (apply Rmult_le_compat_l; lra).
  assert (k * (q1 * q1 + q2 * q2 + q3 * q3) <= k * (eps * eps)) by (apply Rmult_le_compat_l; lra). lra.
Qed.
Lemma track_velocity_diff dvl w v v' z : minus (track_velocity dvl w v z) (track_velocity dvl w v' z) = turn w (minus v v').
Proof.
  unfold track_velocity. rewrite <- turn_minus. f_equal. unfold correct_lever_arm. destruct v as [[v1 v2] v3], v' as [[u1 u2] u3], z as [[z1 z2] z3], dvl as [[d1 d2] d3].
  apply vec_eq; unfold minus, vx, vy, vz; cbn [fst snd]; ring.
Qed.
(** The same record but for the velocity. *)
Definition near (eps : R) (y y' : synced) : Prop :=
  y_t y = y_t y' /\ y_att y = y_att y' /\ y_depth y = y_depth y' /\ y_alt y = y_alt y' /\ close eps (y_vel y) (y_vel y').
Lemma sync_close eps dvl os vs vs' alts depths vl vl' : ascending o_t os -> ascending v_t vs -> nth_error vs (length vs - 1) = Some vl -> nth_error vs' (length vs' - 1) = Some vl' ->
  Forall2 (fun v v' => v_t v = v_t v' /\ close eps (v_body v) (v_body v')) vs vs' ->
  forall rest j n k i out, (forall x, nth_error rest x = nth_error os (i + x)) -> (S j < length vs)%nat -> (forall a o, nth_error vs j = Some a -> In o rest -> v_t a <= o_t o) ->
    sync_from dvl os vs alts depths (v_t vl) j n k i rest = Some out ->
    exists out', sync_from dvl os vs' alts depths (v_t vl') j n k i rest = Some out' /\ Forall2 (near eps) out out'.
Proof.
  intros Ao Av Hl Hl' F. assert (length vs = length vs') as Len by (exact (Forall2_length _ _ _ F)).
  assert (map v_t vs = map v_t vs') as Et by (clear -F; induction F as [|v v' l l' [H _] _ IH]; [reflexivity|cbn; now rewrite H, IH]).
  assert (forall q a, nth_error vs q = Some a -> exists b, nth_error vs' q = Some b /\ v_t a = v_t b /\ close eps (v_body a) (v_body b)) as At.
  { clear -F. induction F as [|v v' l l' H _ IH]; intros [|q] a Ha; try discriminate; [injection Ha as <-; exists v'; split; [reflexivity|exact H]|exact (IH q a Ha)]. }
  assert (v_t vl = v_t vl') as El by (destruct (At _ _ Hl) as (b & Hb & Tb & _); rewrite Len in Hb; congruence).
  induction rest as [|o rest IH]; intros j n k i out Hr Bj Lo E.
  { injection E as <-. exists []. split; [reflexivity|constructor]. }
  assert (ascending o_t (o :: rest)) as Ar.
  { intros x z a b X Ha Hb. apply (Ao (i + x)%nat (i + z)%nat a b); [lia|now rewrite <- Hr|now rewrite <- Hr]. }
  cbn [sync_from] in E |- *. rewrite <- El. rcase (v_t vl) (o_t o) Eo; [injection E as <-; exists []; split; [reflexivity|constructor]|].
  rewrite <- (adv_vel_times vs vs' (o_t o) Et), <- Len. destruct (nth_some vs j ltac:(lia)) as [a0 Ha0].
  destruct (adv_vel_spec vs (o_t o) vl Av Hl Eo (length vs) j a0) as (Bj' & va & vb & Hva & Hvb & T); [lia|exact Bj|exact Ha0|exact (Lo a0 o Ha0 (or_introl eq_refl))|].
  cbv zeta in *. set (j' := adv_vel (length vs) vs (o_t o) j) in *. set (n' := adv_pair (length alts) alts (o_t o) n) in *. set (k' := adv_pair (length depths) depths (o_t o) k) in *.
  destruct (At _ _ Hva) as (va' & Hva' & Ta & Ca). destruct (At _ _ Hvb) as (vb' & Hvb' & Tb & Cb).
  unfold at_vel in *. rewrite Hva, Hvb in E. rewrite Hva', Hvb'.
  destruct (compute_angular_speeds os i) as [w|]; [|discriminate]. destruct (at_pair alts (o_t o) n') as [al|]; [|discriminate]. destruct (at_pair depths (o_t o) k') as [dp|]; [|discriminate].
  destruct (sync_from dvl os vs alts depths (v_t vl) j' n' k' (S i) rest) as [out1|] eqn:E1; [|discriminate]. injection E as <-.
  destruct (IH j' n' k' (S i) out1) as (out' & E2 & F2); [intros x; pose proof (Hr (S x)) as X; cbn [nth_error] in X; rewrite X; f_equal; lia|exact Bj'| |exact E1|].
  { intros a x Ha I. replace a with va by congruence. apply In_nth_error in I. destruct I as [p I]. pose proof (Ar 0%nat (S p) o x ltac:(lia) eq_refl I). lra. }
  rewrite <- El in E2. rewrite E2. eexists. split; [reflexivity|]. constructor; [|exact F2]. unfold near. cbn [y_t y_att y_depth y_alt y_vel]. repeat split; try reflexivity.
  unfold close. rewrite track_velocity_diff. unfold turn. rewrite b2i_norm. rewrite <- Ta, <- Tb.
  assert (v_t va < v_t vb) as Nt by (apply (Av j' (S j')); [lia|exact Hva|exact Hvb]).
  pose proof (between_vel_convex (o_t o) va vb ltac:(lra)) as X. pose proof (between_vel_convex (o_t o) va' vb' ltac:(lra)) as Y. unfold between_vel in X, Y. cbv zeta in X, Y. rewrite <- Ta, <- Tb in Y.
  rewrite X, Y. apply close_convex; [apply fraction; [exact Nt|exact T]|exact Ca|exact Cb].
Qed.
Lemma sync_times dvl os vs alts depths tlast : forall rest j n k i out, sync_from dvl os vs alts depths tlast j n k i rest = Some out -> ascending o_t rest ->
  ascending y_t out /\ forall y, In y out -> exists o, In o rest /\ y_t y = o_t o.
Proof.
  induction rest as [|o rest IH]; intros j n k i out E As.
  { injection E as <-. split; [intros [|x] [|z] a b X Ha; discriminate|intros y []]. }
  cbn [sync_from] in E. destruct (rlt tlast (o_t o)); [injection E as <-; split; [intros [|x] [|z] a b X Ha; discriminate|intros y []]|].
  cbv zeta in E. destruct (at_vel _ _ _); [|discriminate]. destruct (compute_angular_speeds os i); [|discriminate]. destruct (at_pair alts _ _); [|discriminate]. destruct (at_pair depths _ _); [|discriminate].
  match type of E with match ?x with _ => _ end = _ => destruct x as [out1|] eqn:E1; [|discriminate] end. injection E as <-. destruct (IH _ _ _ _ _ E1 (asc_tl _ _ _ As)) as [I1 I2]. split.
  - intros [|x] [|z] a b X Ha Hb; try lia; [|apply (I1 x z); [lia|exact Ha|exact Hb]]. injection Ha as <-. cbn in Hb |- *. apply nth_error_In in Hb. destruct (I2 b Hb) as (o' & Io & ->).
    apply In_nth_error in Io. destruct Io as [q Io]. apply (As 0%nat (S q)); [lia|reflexivity|exact Io].
  - intros y [<-|I]; [exists o; split; [now left|reflexivity]|]. destruct (I2 y I) as (o' & Io & Eo). exists o'. split; [now right|exact Eo].
Qed.

(** One direction at a time. *)
Lemma integrate_close eps a b t0 : 0 <= eps -> a * a + b * b <= 1 -> forall l l' p p' n e n' e', ascending y_t (p :: l) -> Forall2 (near eps) (p :: l) (p' :: l') ->
  a * (n - n') + b * (e - e') <= eps * (y_t p - t0) ->
  Forall2 (fun s s' => at_t s = at_t s' /\ att s = att s' /\ depth s = depth s' /\ altitude s = altitude s' /\ a * (north s - north s') + b * (east s - east s') <= eps * (at_t s - t0))
    (integrate p n e l) (integrate p' n' e' l').
Proof.
  intros Ep U. 
  assert (forall y y', near eps y y' -> a * (vx (y_vel y) - vx (y_vel y')) + b * (vy (y_vel y) - vy (y_vel y')) <= eps) as Dir.
  { intros y y' (_ & _ & _ & _ & C). unfold close, norm2, dot, minus, vx, vy, vz in *. cbn [fst snd] in *.
    set (d1 := fst (fst (y_vel y)) - fst (fst (y_vel y'))) in *. set (d2 := snd (fst (y_vel y)) - snd (fst (y_vel y'))) in *. set (d3 := snd (y_vel y) - snd (y_vel y')) in *. clearbody d1 d2 d3.
    apply Rnot_lt_le. intros X. assert (eps * eps < (a * d1 + b * d2) * (a * d1 + b * d2)) by (apply Rmult_le_0_lt_compat; lra).
    pose proof (Rle_0_sqr (a * d2 - b * d1)) as Q. pose proof (Rle_0_sqr d3) as Q3. pose proof (Rle_0_sqr d1) as Q1. pose proof (Rle_0_sqr d2) as Q2. unfold Rsqr in *.
    assert (0 <= (1 - (a * a + b * b)) * (d1 * d1 + d2 * d2)) by (apply Rmult_le_pos; lra). lra. }
  induction l as [|y l IH]; intros l' p p' n e n' e' As F H.
  { inversion F as [|? ? ? ? _ F']; subst. inversion F'; subst. constructor. }
  inversion F as [|? ? ? ? F1 F']; subst. inversion F' as [|? y' ? l2 F2 F3]; subst. cbn [integrate].
  pose proof (Dir p p' F1) as D1. pose proof (Dir y y' F2) as D2.
  assert (y_t p < y_t y) as Lt by (apply (As 0%nat 1%nat); [lia|reflexivity|reflexivity]).
  destruct F1 as (T1 & _). destruct F2 as (T2 & W2 & Z2 & A2 & C2).
  match goal with |- Forall2 _ (?s :: _) (?s' :: _) => assert (a * (north s - north s') + b * (east s - east s') <= eps * (y_t y - t0)) as K end.
  { cbn [north east]. rewrite <- T1, <- T2.
    assert ((y_t y - y_t p) / 2 * (a * (vx (y_vel p) - vx (y_vel p')) + b * (vy (y_vel p) - vy (y_vel p')) + (a * (vx (y_vel y) - vx (y_vel y')) + b * (vy (y_vel y) - vy (y_vel y')))) <= (y_t y - y_t p) / 2 * (eps + eps)) by (apply Rmult_le_compat_l; lra). lra. }
  cbn [north east] in K. constructor; [cbn [at_t att depth altitude north east]; repeat split; [exact T2|exact W2|exact Z2|exact A2|exact K]|].
  apply IH; [exact (asc_tl _ _ _ As)| |exact K]. constructor; [repeat split; [exact T2|exact W2|exact Z2|exact A2|exact C2]|exact F3].
Qed.
Lemma all_directions dn de k : (forall a b, a * a + b * b <= 1 -> a * dn + b * de <= k) -> sqrt (dn * dn + de * de) <= k.
Proof.
  intros H. set (r := sqrt (dn * dn + de * de)). pose proof (Rle_0_sqr dn) as Q1. pose proof (Rle_0_sqr de) as Q2. unfold Rsqr in *.
  assert (r * r = dn * dn + de * de) as Sq by (apply sqrt_sqrt; lra). assert (0 <= r) as P by apply sqrt_pos.
  destruct (Req_EM_T r 0) as [Z|Z]; [rewrite Z; pose proof (H 0 0 ltac:(lra)); lra|].
  pose proof (H (dn / r) (de / r)) as X. replace (dn / r * (dn / r) + de / r * (de / r)) with ((dn * dn + de * de) / (r * r)) in X by (field; exact Z).
  replace (dn / r * dn + de / r * de) with ((dn * dn + de * de) / r) in X by (field; exact Z). rewrite <- Sq in X.
  replace (r * r / (r * r)) with 1 in X by (field; exact Z). replace (r * r / r) with r in X by (field; exact Z). apply X. lra.
Qed.

(** Two runs whose body velocities differ by at most [eps]: the tracks have the same times, attitudes, depths and altitudes and part by
    at most [eps] metres per second. *)
Theorem C233_drift : forall eps m os vs vs' alts depths v0 tr flag, ascending o_t os -> ascending v_t vs -> (2 <= length vs)%nat -> nth_error vs 0 = Some v0 -> 0 <= eps ->
  Forall2 (fun v v' => v_t v = v_t v' /\ norm2 (minus (v_body v) (v_body v')) <= eps * eps) vs vs' ->
  dead_reckoned m os vs alts depths = Some (tr, flag) ->
  exists tr' first, dead_reckoned m os vs' alts depths = Some (tr', flag) /\ nth_error tr 0 = Some first /\
    Forall2 (fun s s' => at_t s = at_t s' /\ att s = att s' /\ depth s = depth s' /\ altitude s = altitude s' /\
      sqrt ((north s - north s') * (north s - north s') + (east s - east s') * (east s - east s')) <= eps * (at_t s - at_t first)) tr tr'.
Proof.
  intros eps m os vs vs' alts depths v0 tr flag Ao Av L2 H0 Ep F E. unfold dead_reckoned, prev in E. rewrite H0 in E.
  destruct (nth_some vs (length vs - 1) ltac:(lia)) as [vl Hl]. rewrite Hl in E.
  pose proof (Forall2_length _ _ _ F) as Len. destruct (nth_some vs' 0 ltac:(lia)) as [v0' H0']. destruct (nth_some vs' (length vs' - 1) ltac:(lia)) as [vl' Hl'].
  unfold dead_reckoned, prev. rewrite H0', Hl'.
  assert (v_t v0 = v_t v0') as T0. { destruct F as [|v v' l l' [H _] _]; [discriminate|]. cbn in H0, H0'. congruence. }
  rewrite <- T0. destruct (start_index os (v_t v0)) as [s|] eqn:Hs; [|discriminate].
  destruct (sync_from (m_dvl m) os vs alts depths (v_t vl) 0 0 0 s (skipn s os)) as [ys|] eqn:Ey; [|discriminate].
  assert (ascending o_t (skipn s os)) as Ask by (intros i j a b I Ha Hb; rewrite nth_skipn in Ha, Hb; apply (Ao (s + i)%nat (s + j)%nat); [lia|exact Ha|exact Hb]).
  destruct (sync_close eps (m_dvl m) os vs vs' alts depths vl vl' Ao Av Hl Hl' F (skipn s os) 0 0 0 s ys) as (ys' & Ey' & N); [intros x; apply nth_skipn|lia| |exact Ey|].
  { intros a o Ha I. replace a with v0 by congruence. destruct (start_spec _ _ _ Hs) as [_ (x & Hx & T)].
    apply In_nth_error in I. destruct I as [p I]. rewrite nth_skipn in I. destruct p as [|p]; [rewrite Nat.add_0_r in I; replace o with x by congruence; exact T|].
    pose proof (Ao s (s + S p)%nat x o ltac:(lia) Hx I). lra. }
  rewrite Ey'. destruct ys as [|y ys]; [discriminate|]. inversion N as [|? y' ? ys2 N1 N2]; subst. cbn [dvl_track option_map] in *. injection E as <- <-.
  eexists. eexists. split; [reflexivity|]. split; [reflexivity|]. cbn [at_t]. destruct (sync_times _ _ _ _ _ _ _ _ _ _ _ _ Ey Ask) as [Ay _].
  assert (N1' := N1). destruct N1' as (T1 & W1 & Z1 & A1 & C1). constructor.
  { cbn [at_t att depth altitude north east]. repeat split; [exact T1|exact W1|exact Z1|exact A1|]. replace ((0 - 0) * (0 - 0) + (0 - 0) * (0 - 0)) with 0 by ring. rewrite sqrt_0. replace (y_t y - y_t y) with 0 by ring. lra. }
  assert (forall a b, a * a + b * b <= 1 -> Forall2 (fun s s' => at_t s = at_t s' /\ att s = att s' /\ depth s = depth s' /\ altitude s = altitude s' /\ a * (north s - north s') + b * (east s - east s') <= eps * (at_t s - y_t y)) (integrate y 0 0 ys) (integrate y' 0 0 ys2)) as D.
  { intros a b U. apply (integrate_close eps a b (y_t y) Ep U); [exact Ay|constructor; assumption|lra]. }
  pose proof (D 0 0 ltac:(lra)) as B. revert B D. generalize (integrate y 0 0 ys) (integrate y' 0 0 ys2). intros l l' B. induction B as [|p p' l l' H B IH]; intros D; constructor.
  - destruct H as (H1 & H2 & H3 & H4 & _). repeat split; try assumption. apply all_directions. intros a b U. specialize (D a b U). inversion D as [|? ? ? ? X _]; subst. tauto.
  - apply IH. intros a b U. specialize (D a b U). now inversion D.
Qed.
Print Assumptions C233_drift.

(** ** Turned headings and shifted clocks *)
(** All clocks ahead by [tau], all headings by [delta] degrees. *)
Definition turned (delta : R) (w : attitude) : attitude := mkatt (roll w) (pitch w) (yaw w + delta).
Definition moved_o (tau delta : R) (o : orientation) : orientation := mko (o_t o + tau) (turned delta (o_att o)).
Definition moved_v (tau : R) (v : velocity) : velocity := mkv (v_t v + tau) (v_body v).
Definition moved_r (tau : R) (r : reading) : reading := (fst r + tau, snd r).
Definition moved_n {N} (tau : R) (s : R * N) : R * N := (fst s + tau, snd s).
(** Turned about the start by [delta] degrees. *)
Definition turned_by (delta : R) (p : R * R) : R * R :=
  let a := degrees_to_radians delta in (cos a * fst p - sin a * snd p, sin a * fst p + cos a * snd p).
Definition moved_s (tau delta : R) (s : sample) : sample :=
  mksample (at_t s + tau) (turned delta (att s)) (fst (turned_by delta (north s, east s))) (snd (turned_by delta (north s, east s))) (depth s) (altitude s).
(** The same pose; the heading up to whole turns. *)
Definition moved_pose {L N} (m2ll : R -> R -> L) (tau delta : R) (x y : N * (sample * L)) : Prop :=
  let s := fst (snd x) in let s' := fst (snd y) in
  fst y = fst x /\ (exists k : Z, s' = mksample (at_t s + tau) (turned (delta + 360 * IZR k) (att s)) (fst (turned_by delta (north s, east s))) (snd (turned_by delta (north s, east s))) (depth s) (altitude s)) /\
  snd (snd y) = m2ll (east s') (north s').

Section Moved.
  Context (tau delta : R).
  Notation mo := (moved_o tau delta). Notation mv := (moved_v tau). Notation mr := (moved_r tau). Notation ms := (moved_s tau delta).
  Lemma rlt_shift a b : rlt (a + tau) (b + tau) = rlt a b.
  Proof. unfold rlt. destruct (Rlt_dec (a + tau) (b + tau)), (Rlt_dec a b); try reflexivity; lra. Qed.
  Lemma interp_shift t t1 t2 a b : interpolate (t + tau) (t1 + tau) (t2 + tau) a b = interpolate t t1 t2 a b.
  Proof.
    unfold interpolate. destruct (Req_EM_T (t2 + tau) (t1 + tau)), (Req_EM_T t2 t1); try reflexivity; try lra.
    replace (t2 + tau - (t1 + tau)) with (t2 - t1) by ring. now replace (t + tau - (t1 + tau)) with (t - t1) by ring.
  Qed.
  Lemma prev_map {A B} (f : A -> B) l n : prev (map f l) n = option_map f (prev l n).
  Proof. unfold prev. now rewrite map_length, nth_error_map. Qed.
  Lemma start_moved os t0 : start_index (map mo os) (t0 + tau) = start_index os t0.
  Proof. induction os as [|o os IH]; [reflexivity|]. cbn [map start_index moved_o o_t]. rewrite rlt_shift. now rewrite IH. Qed.
  Lemma adv_vel_moved vs t : forall fuel j, adv_vel fuel (map mv vs) (t + tau) j = adv_vel fuel vs t j.
  Proof. induction fuel as [|fuel IH]; intros j; [reflexivity|]. cbn [adv_vel]. rewrite nth_error_map. destruct (nth_error vs (S j)); [|reflexivity]. cbn [option_map moved_v v_t]. rewrite rlt_shift. now rewrite IH. Qed.
  Lemma adv_pair_moved l t : forall fuel n, adv_pair fuel (map mr l) (t + tau) n = adv_pair fuel l t n.
  Proof. induction fuel as [|fuel IH]; intros n; [reflexivity|]. cbn [adv_pair]. rewrite map_length, nth_error_map. destruct (S n <? length l)%nat; [|reflexivity]. destruct (nth_error l n); [|reflexivity]. cbn [option_map moved_r fst]. rewrite rlt_shift. now rewrite IH. Qed.
  Lemma at_pair_moved l t n : at_pair (map mr l) (t + tau) n = at_pair l t n.
  Proof. unfold at_pair. rewrite prev_map, nth_error_map. destruct (prev l n); [|reflexivity]. destruct (nth_error l n); [|reflexivity]. cbn [option_map moved_r fst snd]. now rewrite interp_shift. Qed.
  Lemma at_vel_moved vs t j : at_vel (map mv vs) (t + tau) j = at_vel vs t j.
  Proof. unfold at_vel. rewrite !nth_error_map. destruct (nth_error vs j); [|reflexivity]. destruct (nth_error vs (S j)); [|reflexivity]. cbn [option_map moved_v v_t v_body]. now rewrite !interp_shift. Qed.
  Lemma rates_moved os i : compute_angular_speeds (map mo os) i = compute_angular_speeds os i.
  Proof.
    unfold compute_angular_speeds. assert (rate_pair (map mo os) i = option_map (fun p => (mo (fst p), mo (snd p))) (rate_pair os i)) as ->.
    { unfold rate_pair. rewrite map_length, !nth_error_map. destruct ((1 <=? i)%nat && (i <? length os - 1)%nat)%bool; [|destruct ((1 <? i)%nat && (i =? length os - 1)%nat)%bool; [|destruct (i =? 0)%nat; [|reflexivity]]].
      - destruct (nth_error os (i - 1)), (nth_error os (i + 1)); reflexivity.
      - destruct (nth_error os (i - 1)), (nth_error os i); reflexivity.
      - destruct (nth_error os i), (nth_error os (i + 1)); reflexivity. }
    destruct (rate_pair os i) as [[a b]|]; [|reflexivity]. cbn [option_map fst snd moved_o o_t o_att turned roll pitch yaw].
    replace (o_t b + tau - (o_t a + tau)) with (o_t b - o_t a) by ring. replace (yaw (o_att b) + delta - (yaw (o_att a) + delta)) with (yaw (o_att b) - yaw (o_att a)) by ring. reflexivity.
  Qed.
  Lemma turn_turned d w v : turn (turned d w) v = rot_z (degrees_to_radians d) (turn w v).
  Proof.
    unfold turn, turned. cbn [roll pitch yaw]. rewrite !b2i_composition. set (u := rot_y _ _). clearbody u. replace (degrees_to_radians (yaw w + d)) with (degrees_to_radians (yaw w) + degrees_to_radians d) by (unfold degrees_to_radians; field).
    destruct u as [[u1 u2] u3]. unfold rot_z. rewrite sin_plus, cos_plus. apply vec_eq; unfold vx, vy, vz; cbn [fst snd]; ring.
  Qed.
  Definition moved_y (y : synced) : synced := mksync (y_t y + tau) (turned delta (y_att y)) (rot_z (degrees_to_radians delta) (y_vel y)) (y_depth y) (y_alt y).
  Lemma sync_moved dvl os vs alts depths tlast : forall rest j n k i,
    sync_from dvl (map mo os) (map mv vs) (map mr alts) (map mr depths) (tlast + tau) j n k i (map mo rest) = option_map (map moved_y) (sync_from dvl os vs alts depths tlast j n k i rest).
  Proof.
    induction rest as [|o rest IH]; intros j n k i; [reflexivity|]. cbn [map sync_from]. replace (o_t (mo o)) with (o_t o + tau) by reflexivity. rewrite rlt_shift. destruct (rlt tlast (o_t o)); [reflexivity|].
    cbv zeta. rewrite !map_length, adv_vel_moved, !adv_pair_moved, at_vel_moved, !at_pair_moved, rates_moved, IH.
    destruct (at_vel _ _ _); [|reflexivity]. destruct (compute_angular_speeds os i); [|reflexivity]. destruct (at_pair alts _ _); [|reflexivity]. destruct (at_pair depths _ _); [|reflexivity].
    destruct (sync_from _ _ _ _ _ _ _ _ _ _ _); [|reflexivity]. cbn [option_map map moved_y y_t y_att y_vel y_depth y_alt]. unfold track_velocity at 1. replace (o_att (mo o)) with (turned delta (o_att o)) by reflexivity. now rewrite turn_turned.
  Qed.
  Lemma integrate_moved l : forall p n e n' e', (n', e') = turned_by delta (n, e) -> integrate (moved_y p) n' e' (map moved_y l) = map ms (integrate p n e l).
  Proof.
    induction l as [|y l IH]; intros p n e n' e' H; [reflexivity|]. cbn [map integrate]. cbn [moved_y y_t y_att y_vel y_depth y_alt].
    unfold turned_by in H. cbn [fst snd] in H. injection H as -> ->.
    match goal with |- mksample _ _ ?a ?b _ _ :: _ = ms (mksample _ _ ?c ?d _ _) :: _ => assert ((a, b) = turned_by delta (c, d)) as K end.
    { unfold turned_by, rot_z, vx, vy. cbn [fst snd]. f_equal; field. }
    f_equal; [|apply (IH y); exact K]. unfold moved_s. cbn [at_t att north east depth altitude]. rewrite <- K. reflexivity.
  Qed.
  Lemma dead_reckoned_moved m os vs alts depths : dead_reckoned m (map mo os) (map mv vs) (map mr alts) (map mr depths) = option_map (fun tr => (map ms (fst tr), snd tr)) (dead_reckoned m os vs alts depths).
  Proof.
    unfold dead_reckoned. rewrite prev_map, nth_error_map. destruct (nth_error vs 0) as [v0|]; [|reflexivity]. destruct (prev vs 0) as [vl|]; [|reflexivity]. cbn [option_map].
    replace (v_t (mv v0)) with (v_t v0 + tau) by reflexivity. replace (v_t (mv vl)) with (v_t vl + tau) by reflexivity. rewrite start_moved.
    destruct (start_index os (v_t v0)) as [s|]; [|reflexivity]. rewrite skipn_map, sync_moved. destruct (sync_from _ _ _ _ _ _ _ _ _ _ _) as [ys|]; [|reflexivity]. cbn [option_map].
    destruct ys as [|y ys]; [reflexivity|]. cbn [map dvl_track option_map fst snd]. do 3 f_equal.
    - cbn [moved_y y_t y_att y_vel y_depth y_alt]. unfold moved_s, turned_by. cbn [at_t att north east depth altitude fst snd]. f_equal; ring.
    - apply integrate_moved. unfold turned_by. cbn [fst snd]. f_equal; ring.
  Qed.
  Lemma dr_centre_moved o d ds s : dr_centre o d ds (ms s) = ms (dr_centre o d ds s).
  Proof.
    unfold dr_centre. cbn [moved_s at_t att north east depth altitude]. rewrite !turn_turned.
    destruct (turn (att s) (minus o d)) as [[x y] a]. destruct (turn (att s) (minus o ds)) as [[x' y'] z]. unfold rot_z, vx, vy, vz, moved_s, turned_by. cbn [at_t att north east depth altitude fst snd]. f_equal; ring.
  Qed.
  Lemma centre_moved m u tr : centre_track m (turned_by delta u) (map ms (fst tr), snd tr) = map ms (centre_track m u tr).
  Proof.
    unfold centre_track. cbn [fst snd]. assert (forall l, map (dr_centre (m_origin m) (m_dvl m) (m_depth m)) (map ms l) = map ms (map (dr_centre (m_origin m) (m_dvl m) (m_depth m)) l)) as C.
    { intros l. rewrite !map_map. apply map_ext. intros s. apply dr_centre_moved. }
    rewrite C. assert (forall l, map (fun s => mksample (at_t s) (att s) (north s + fst (turned_by delta u)) (east s + snd (turned_by delta u)) (depth s) (altitude s)) (map ms l) =
      map ms (map (fun s => mksample (at_t s) (att s) (north s + fst u) (east s + snd u) (depth s) (altitude s)) l)) as D.
    { intros l. rewrite !map_map. apply map_ext. intros s. unfold moved_s, turned_by. cbn [at_t att north east depth altitude fst snd]. f_equal; ring. }
    destruct (snd tr); [|apply D]. destruct (map (dr_centre _ _ _) (fst tr)) as [|c l]; [reflexivity|]. cbn [map tl]. apply D.
  Qed.

  Lemma yaw_moved t t1 t2 y1 y2 : exists k : Z, interpolate_yaw (t + tau) (t1 + tau) (t2 + tau) (y1 + delta) (y2 + delta) = interpolate_yaw t t1 t2 y1 y2 + (delta + 360 * IZR k).
  Proof.
    unfold interpolate_yaw. rewrite !interp_shift. replace (y2 + delta - (y1 + delta)) with (y2 - y1) by ring.
    assert (forall a b, interpolate t t1 t2 (a + delta) (b + delta) = interpolate t t1 t2 a b + delta) as S.
    { intros a b. unfold interpolate. destruct (Req_EM_T t2 t1); [reflexivity|]. field. lra. }
    destruct (rlt 180 (Rabs (y2 - y1))); [|exists 0%Z; rewrite S; ring].
    replace (rlt (y1 + delta) (y2 + delta)) with (rlt y1 y2) by (unfold rlt; destruct (Rlt_dec y1 y2), (Rlt_dec (y1 + delta) (y2 + delta)); try reflexivity; lra).
    replace (y2 + delta - 360) with (y2 - 360 + delta) by ring. replace (y1 + delta - 360) with (y1 - 360 + delta) by ring. rewrite !S.
    destruct (rlt y1 y2); match goal with |- context [interpolate ?a ?b ?c ?d ?e + delta] => generalize (interpolate a b c d e) end; intros v;
      destruct (rlt (v + delta) 0), (rlt 360 (v + delta)), (rlt v 0), (rlt 360 v);
      solve [exists 0%Z; ring|exists 1%Z; ring|exists (-1)%Z; ring|exists 2%Z; ring|exists (-2)%Z; ring].
  Qed.
  Lemma turned_whole k w v : turn (turned (delta + 360 * IZR k) w) v = turn (turned delta w) v.
  Proof.
    unfold turn, turned. cbn [roll pitch yaw]. rewrite <- (b2i_periodic (roll w) (pitch w) (yaw w + delta) 0 0 k v). rewrite !Rmult_0_r, !Rplus_0_r. f_equal. ring.
  Qed.

  Context {L N : Type} (m2ll : R -> R -> L) (m : mounting).
  Lemma sensor_moved (nm : N) t a b : moved_pose m2ll tau delta (nm, sensor_at m2ll (m_origin m) (m_sensor m) t (attitude_between t a b) a b)
    (nm, sensor_at m2ll (m_origin m) (m_sensor m) (t + tau) (attitude_between (t + tau) (ms a) (ms b)) (ms a) (ms b)).
  Proof.
    destruct (yaw_moved t (at_t a) (at_t b) (yaw (att a)) (yaw (att b))) as [k K].
    assert (attitude_between (t + tau) (ms a) (ms b) = turned (delta + 360 * IZR k) (attitude_between t a b)) as ->.
    { unfold attitude_between, turned. cbn [moved_s at_t att turned roll pitch yaw]. rewrite !interp_shift. f_equal. exact K. }
    unfold moved_pose, sensor_at. rewrite turned_whole, turn_turned. destruct (turn (attitude_between t a b) (minus (m_origin m) (m_sensor m))) as [[x y] z]. unfold rot_z, vx, vy, vz. cbn [fst snd].
    split; [reflexivity|]. cbn [at_t att north east depth altitude]. split; [|reflexivity]. exists k. cbn [moved_s at_t att north east depth altitude]. rewrite !interp_shift. unfold turned_by. cbn [fst snd].
    f_equal; unfold interpolate; destruct (Req_EM_T (at_t b) (at_t a)); try ring; field; lra.
  Qed.
  Lemma advance_moved centre t tl_ : forall fuel j, advance fuel (map ms centre) (t + tau) (tl_ + tau) j = advance fuel centre t tl_ j.
  Proof.
    induction fuel as [|fuel IH]; intros j; [reflexivity|]. cbn [advance]. rewrite !nth_error_map. destruct (nth_error centre j); [|reflexivity]. destruct (nth_error centre (S j)); [|reflexivity].
    cbn [option_map moved_s at_t]. rewrite !rlt_shift. now rewrite IH.
  Qed.
  Definition same_outcome (a b : @outcome L N) : Prop :=
    match a, b with Raised, Raised | NoOverlap, NoOverlap => True | Interpolated l, Interpolated l' => Forall2 (moved_pose m2ll tau delta) l l' | _, _ => False end.
  Lemma scan_moved centre tl_ : forall (sensors : list (R * N)) j,
    match scan m2ll m centre tl_ j sensors, scan m2ll m (map ms centre) (tl_ + tau) j (map (moved_n tau) sensors) with
    | Some l, Some l' => Forall2 (moved_pose m2ll tau delta) l l' | None, None => True | _, _ => False end.
  Proof.
    induction sensors as [|[t nm] rest IH]; intros j; [constructor|]. cbn [map scan moved_n fst snd]. rewrite map_length. destruct (length centre - 1 <=? j)%nat; [constructor|].
    cbv zeta. rewrite advance_moved, prev_map, nth_error_map. destruct (prev centre _) as [a|]; [|exact I]. destruct (nth_error centre _) as [b|]; [|exact I]. cbn [option_map].
    specialize (IH (advance (length centre) centre t tl_ j)). destruct (scan m2ll m centre tl_ _ rest), (scan m2ll m (map ms centre) _ _ _); cbn [option_map]; try tauto.
    constructor; [apply sensor_moved|exact IH].
  Qed.
  Lemma isl_moved centre (sensors : list (R * N)) : same_outcome (interpolate_sensor_list m2ll m sensors centre) (interpolate_sensor_list m2ll m (map (moved_n tau) sensors) (map ms centre)).
  Proof.
    unfold interpolate_sensor_list. rewrite !prev_map, !nth_error_map. destruct (nth_error centre 0) as [c0|]; [|exact I]. destruct (prev centre 0) as [cn|]; [|exact I].
    destruct (nth_error sensors 0) as [s0|]; [|exact I]. destruct (prev sensors 0) as [sn|]; [|exact I]. cbn [option_map moved_s at_t moved_n fst]. rewrite !rlt_shift. destruct (_ || _)%bool; [exact I|].
    assert (drop_before (at_t c0 + tau) (map (moved_n tau) sensors) = map (moved_n tau) (drop_before (at_t c0) sensors)) as ->.
    { clear. induction sensors as [|s l IH]; [reflexivity|]. cbn [map drop_before moved_n fst]. rewrite rlt_shift. destruct (rlt _ _); [exact IH|reflexivity]. }
    pose proof (scan_moved centre (fst sn) (drop_before (at_t c0) sensors) 0) as X. cbn [fst] in X. destruct (scan m2ll m centre _ _ _), (scan m2ll m (map ms centre) _ _ _); cbn; tauto.
  Qed.
End Moved.

(** A heading offset [delta] of the whole log turns every pose about the start of the track by [delta]; a clock offset [tau] moves every
    time by [tau].  The offset to the fixes ([usbl]) must follow, as it does if there are none, or if they are moved too. *)
Theorem C233_turned : forall L N (m2ll : R -> R -> L) m usbl usbl' os vs alts depths (sensors : list (R * N)) tau delta,
  (forall tr, usbl' (map (moved_s tau delta) tr) = turned_by delta (usbl tr)) ->
  match poses m2ll m usbl os vs alts depths sensors, poses m2ll m usbl' (map (moved_o tau delta) os) (map (moved_v tau) vs) (map (moved_r tau) alts) (map (moved_r tau) depths) (map (moved_n tau) sensors) with
  | Interpolated out, Interpolated out' => Forall2 (moved_pose m2ll tau delta) out out'
  | NoOverlap, NoOverlap | Raised, Raised => True
  | _, _ => False
  end.
Proof.
  intros L N m2ll m usbl usbl' os vs alts depths sensors tau delta U. unfold poses. rewrite dead_reckoned_moved. destruct (dead_reckoned m os vs alts depths) as [tr|]; [|exact I]. cbn [option_map].
  assert (centre_track m (0, 0) (map (moved_s tau delta) (fst tr), snd tr) = map (moved_s tau delta) (centre_track m (0, 0) tr)) as ->.
  { rewrite <- centre_moved. f_equal. unfold turned_by. cbn [fst snd]. f_equal; ring. }
  rewrite U, centre_moved. apply isl_moved.
Qed.
Print Assumptions C233_turned.
