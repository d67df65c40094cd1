From Coq Require Import Qround.
From Verif Require Import PyBase InterpModel InterpSpec ListFacts PfProofs GapsModel.
Open Scope Q_scope.

(** ** Specification *)

Definition is_ship (l : line) : bool := match l with Ship _ => true | _ => false end.
Definition is_heading (l : line) : bool := match l with Heading _ => true | _ => false end.
Definition is_target (l : line) : bool := match l with Target _ _ _ => true | _ => false end.
Definition none {A} (p : A -> bool) (l : list A) : Prop := Forall (fun x => p x = false) l.

(** The last ship packet and the last heading of a stretch of lines. *)
Definition last_ship (ls : list line) (p : packet) : Prop := exists a b, ls = a ++ Ship p :: b /\ none is_ship b.
Definition last_heading (ls : list line) (h : Q) : Prop := exists a b, ls = a ++ Heading h :: b /\ none is_heading b.

(** One acoustic cycle: ship packets and headings, the target, then one ship packet and
    one heading (in either order). *)
Record cycle := mkcycle { before_ : list line; c_target : packet; c_depth : Q; after_ : list line }.
Definition lines_of (c : cycle) : list line := before_ c ++ Target true (c_target c) (c_depth c) :: after_ c.
Definition after_is (ls : list line) (b : packet) (hb : Q) : Prop :=
  exists o1 o2, none is_ship o1 /\ none is_heading o1 /\ none is_ship o2 /\ none is_heading o2 /\
    (ls = o1 ++ [Ship b] ++ o2 ++ [Heading hb] \/ ls = o1 ++ [Heading hb] ++ o2 ++ [Ship b]).
Definition cycle_is (c : cycle) (a : packet) (ha : Q) (b : packet) (hb : Q) : Prop :=
  none is_target (before_ c) /\ last_ship (before_ c) a /\ last_heading (before_ c) ha /\ after_is (after_ c) b hb.

(** The fix reported for a cycle. *)
Definition reports (c : cycle) (f : fix_) : Prop :=
  exists a ha b hb, cycle_is c a ha b hb /\
    f_t f = p_t (c_target c) /\ f_lat f = p_lat (c_target c) /\ f_lon f = p_lon (c_target c) /\ f_depth f = c_depth c /\
    on_line (p_t a) (p_lat a) (p_t b) (p_lat b) (f_t f) (f_ship_lat f) /\
    on_line (p_t a) (p_lon a) (p_t b) (p_lon b) (f_t f) (f_ship_lon f) /\
    0 <= f_ship_heading f <= 360 /\
    (Qabs (hb - ha) <= 180 -> on_short_arc (p_t a) ha (p_t b) hb (f_t f) (f_ship_heading f)).

(** ** Proofs *)

Lemma down_spec : forall n h, h <= inject_Z (Z.of_nat n) * 360 + 360 ->
  (down n h <= 360 /\ (0 <= h -> 0 <= down n h) /\ (h < 0 -> down n h = h)) /\ exists k, down n h == h + inject_Z (360 * k).
Proof.
  induction n; intros h H.
  - change (inject_Z (Z.of_nat 0)) with 0 in H. cbn [down]. split; [split; [lra|]; split; auto|]. exists 0%Z. cbn. ring.
  - cbn [down]. destruct (Qlt_le_dec 360 h).
    + rewrite Nat2Z.inj_succ in H. unfold Z.succ in H. rewrite inject_Z_plus in H. change (inject_Z 1) with 1 in H.
      destruct (IHn (h - 360)) as [[A [B C]] [k K]]; [lra|].
      split; [split; [exact A|]; split; [intro; apply B; lra|intro; lra]|].
      exists (k - 1)%Z. rewrite K. replace (360 * (k - 1))%Z with (360 * k + -360)%Z by ring. rewrite inject_Z_plus. cbn. ring.
    + split; [split; [exact q|]; split; auto|]. exists 0%Z. cbn. ring.
Qed.
Lemma up_spec : forall n h, - (inject_Z (Z.of_nat n) * 360) <= h ->
  (0 <= up n h /\ (h <= 360 -> up n h <= 360)) /\ exists k, up n h == h + inject_Z (360 * k).
Proof.
  induction n; intros h H.
  - change (inject_Z (Z.of_nat 0)) with 0 in H. cbn [up]. split; [split; [lra|auto]|]. exists 0%Z. cbn. ring.
  - cbn [up]. destruct (Qlt_le_dec h 0).
    + rewrite Nat2Z.inj_succ in H. unfold Z.succ in H. rewrite inject_Z_plus in H. change (inject_Z 1) with 1 in H.
      destruct (IHn (h + 360)) as [[A B] [k K]]; [lra|].
      split; [split; [exact A|intro; apply B; lra]|].
      exists (k + 1)%Z. rewrite K. replace (360 * (k + 1))%Z with (360 * k + 360)%Z by ring. rewrite inject_Z_plus. cbn. ring.
    + split; [split; [exact q|auto]|]. exists 0%Z. cbn. ring.
Qed.
Lemma turns_bound : forall h, Qabs h <= inject_Z (Z.of_nat (turns h)) * 360.
Proof.
  intro h. unfold turns. assert (0 <= Qabs h / 360) as P.
  { unfold Qdiv. apply Qmult_le_0_compat; [apply Qabs_nonneg|discriminate]. }
  pose proof (Qle_ceiling (Qabs h / 360)) as C.
  assert (0 <= Qceiling (Qabs h / 360))%Z as Z0.
  { rewrite Zle_Qle. change (inject_Z 0) with 0. lra. }
  rewrite Z2Nat.id by exact Z0.
  revert C. generalize (inject_Z (Qceiling (Qabs h / 360))). intros z C.
  assert (Qabs h == Qabs h / 360 * 360) as -> by field. lra.
Qed.
Lemma wrap_spec : forall h, 0 <= wrap h <= 360 /\ same_heading (wrap h) h.
Proof.
  intro h. unfold wrap. destruct (down_spec (turns h) h) as [[A [B C]] [k K]].
  { pose proof (turns_bound h). pose proof (Qle_Qabs h). lra. }
  destruct (up_spec (turns (down (turns h) h)) (down (turns h) h)) as [[D E] [k' K']].
  { pose proof (turns_bound (down (turns h) h)) as T. pose proof (Qle_Qabs (- down (turns h) h)) as Q1.
    rewrite Qabs_opp in Q1. lra. }
  split; [split; [exact D|apply E; exact A]|].
  exists (k + k')%Z. rewrite K', K. rewrite Z.mul_add_distr_l, inject_Z_plus. ring.
Qed.

Lemma run_app : forall a b s, run s (a ++ b) =
  match run s a with None => None | Some (s1, o1) => match run s1 b with None => None | Some (s2, o2) => Some (s2, o1 ++ o2) end end.
Proof.
  induction a as [|l a IH]; intros b s.
  - cbn. destruct (run s b) as [[? ?]|]; reflexivity.
  - cbn [app run]. destruct (step s l) as [[s1 o1]|]; [|reflexivity]. rewrite IH.
    destruct (run s1 a) as [[s2 o2]|]; [|reflexivity]. destruct (run s2 b) as [[s3 o3]|]; [|reflexivity].
    now rewrite app_assoc.
Qed.

(** Before the target: the flag counts up to 2 and the prior values are the last seen. *)
Definition lastS (d : option packet) (ls : list line) : option packet :=
  fold_left (fun d l => match l with Ship p => Some p | _ => d end) ls d.
Definition lastH (d : option Q) (ls : list line) : option Q :=
  fold_left (fun d l => match l with Heading p => Some p | _ => d end) ls d.
Definition count (ls : list line) : nat := length (filter (fun l => is_ship l || is_heading l) ls).

Lemma run_before : forall ls s, none is_target ls -> (flag s <= 2)%nat ->
  run s ls = Some (mkstate (Nat.min 2 (flag s + count ls)) (lastS (prior s) ls) (lastH (heading_prior s) ls) (target s)
                           (posterior s) (heading_posterior s), []).
Proof.
  induction ls as [|l r IH]; intros s N F.
  - unfold count, lastS, lastH. cbn [run fold_left filter length]. rewrite Nat.add_0_r, Nat.min_r by exact F. destruct s; reflexivity.
  - inversion N as [|x y Hl Hr E]; subst. destruct s as [f p hp t q hq]. cbn [flag prior heading_prior target posterior heading_posterior] in *.
    destruct l as [ok pk dp|pk|h|]; [discriminate| | |]; cbn [run]; unfold step, read; cbn [flag prior heading_prior target posterior heading_posterior].
    + assert ((f <? 3)%nat = true) as -> by (apply Nat.ltb_lt; lia). cbn [flag].
      destruct (f <? 2)%nat eqn:L.
      * apply Nat.ltb_lt in L. assert ((5 <=? f + 1)%nat = false) as -> by (apply Nat.leb_gt; lia).
        rewrite IH by (auto; cbn; lia). cbn [flag prior heading_prior target posterior heading_posterior lastS lastH fold_left app].
        unfold count. cbn [filter is_ship orb length]. do 3 f_equal; lia.
      * apply Nat.ltb_ge in L. assert (f = 2)%nat by lia. subst f. cbn [Nat.leb].
        rewrite IH by (auto; cbn; lia). cbn [flag prior heading_prior target posterior heading_posterior lastS lastH fold_left app].
        unfold count. cbn [filter is_ship orb length]. do 3 f_equal; lia.
    + assert ((f <? 3)%nat = true) as -> by (apply Nat.ltb_lt; lia). cbn [flag].
      destruct (f <? 2)%nat eqn:L.
      * apply Nat.ltb_lt in L. assert ((5 <=? f + 1)%nat = false) as -> by (apply Nat.leb_gt; lia).
        rewrite IH by (auto; cbn; lia). cbn [flag prior heading_prior target posterior heading_posterior lastS lastH fold_left app].
        unfold count. cbn [filter is_ship is_heading orb length]. do 3 f_equal; lia.
      * apply Nat.ltb_ge in L. assert (f = 2)%nat by lia. subst f. cbn [Nat.leb].
        rewrite IH by (auto; cbn; lia). cbn [flag prior heading_prior target posterior heading_posterior lastS lastH fold_left app].
        unfold count. cbn [filter is_ship is_heading orb length]. do 3 f_equal; lia.
    + assert ((5 <=? f)%nat = false) as -> by (apply Nat.leb_gt; lia).
      rewrite IH by (auto; cbn; lia). reflexivity.
Qed.

Lemma run_idle : forall ls s, none is_ship ls -> none is_heading ls -> (3 <= flag s < 5)%nat -> run s ls = Some (s, []).
Proof.
  induction ls as [|l r IH]; intros s A B F; [reflexivity|].
  inversion A; subst. inversion B; subst. cbn [run].
  assert (step s l = Some (s, [])) as ->.
  { unfold step, read. destruct l; try discriminate.
    - assert ((flag s =? 2)%nat = false) as -> by (apply Nat.eqb_neq; lia).
      assert ((5 <=? flag s)%nat = false) as -> by (apply Nat.leb_gt; lia). reflexivity.
    - assert ((5 <=? flag s)%nat = false) as -> by (apply Nat.leb_gt; lia). reflexivity. }
  rewrite IH by assumption. reflexivity.
Qed.

Lemma lastS_last : forall ls d p, last_ship ls p -> lastS d ls = Some p.
Proof.
  intros ls d p (a & b & -> & N). unfold lastS. rewrite fold_left_app. cbn [fold_left].
  clear a. induction b as [|l b IH]; [reflexivity|]. inversion N; subst. cbn [fold_left].
  destruct l; try discriminate; apply IH; assumption.
Qed.
Lemma lastH_last : forall ls d p, last_heading ls p -> lastH d ls = Some p.
Proof.
  intros ls d p (a & b & -> & N). unfold lastH. rewrite fold_left_app. cbn [fold_left].
  clear a. induction b as [|l b IH]; [reflexivity|]. inversion N; subst. cbn [fold_left].
  destruct l; try discriminate; apply IH; assumption.
Qed.
Lemma count_two : forall ls p h, last_ship ls p -> last_heading ls h -> (2 <= count ls)%nat.
Proof.
  intros ls p h (a & b & -> & _) (a' & b' & E & _). unfold count.
  assert (In (Heading h) (a ++ b)) as I.
  { assert (In (Heading h) (a ++ Ship p :: b)) as I by (rewrite E; apply in_app_iff; right; left; reflexivity).
    apply in_app_iff in I as [I|[I|I]]; [apply in_app_iff; auto|discriminate|apply in_app_iff; auto]. }
  rewrite filter_app. cbn [filter is_ship orb]. rewrite app_length. cbn [length].
  assert (In (Heading h) (filter (fun l => is_ship l || is_heading l) (a ++ b))) as J by (apply filter_In; auto).
  rewrite filter_app in J. destruct (filter _ a ++ filter _ b) eqn:F; [contradiction|].
  apply (f_equal (@length line)) in F. rewrite app_length in F. cbn in F. lia.
Qed.

Lemma complete_reports : forall c a ha b hb s f, cycle_is c a ha b hb ->
  s = mkstate f (Some a) (Some ha) (Some (c_target c, c_depth c)) (Some b) (Some hb) ->
  ~ p_t a == p_t b -> exists x, complete false s = Some [x] /\ reports c x.
Proof.
  intros c a ha b hb s f C -> T. unfold complete. cbn [prior heading_prior target posterior heading_posterior].
  destruct (Qeq_dec (p_t b - p_t a) 0) as [E|E]; [exfalso; apply T; lra|].
  eexists. split; [reflexivity|]. exists a, ha, b, hb. split; [exact C|].
  cbn [f_t f_lat f_lon f_depth f_ship_lat f_ship_lon f_ship_heading].
  do 4 (split; [reflexivity|]).
  split; [unfold on_line; field; exact E|]. split; [unfold on_line; field; exact E|].
  destruct (wrap_spec ((p_t (c_target c) - p_t a) / (p_t b - p_t a) * (hb - ha) + ha)) as [W S].
  split; [exact W|]. intro A. exists (hb - ha). split; [exact A|]. split; [exists 0%Z; cbn; ring|].
  eexists. split; [exact S|]. unfold on_line. field. exact E.
Qed.

Theorem run_cycle : forall c a ha b hb s, flag s = O -> cycle_is c a ha b hb -> p_broken b = false -> ~ p_t a == p_t b ->
  exists s' x, run s (lines_of c) = Some (s', [x]) /\ flag s' = O /\ reports c x.
Proof.
  intros c a ha b hb s F C B T. pose proof C as (N & LS & LH & o1 & o2 & N1 & N2 & N3 & N4 & O).
  destruct s as [f pr hp tg po hpo]. cbn in F. subst f.
  unfold lines_of. rewrite run_app, run_before by (auto; cbn; lia).
  cbn [flag prior heading_prior target posterior heading_posterior].
  rewrite (lastS_last _ _ _ LS), (lastH_last _ _ _ LH).
  pose proof (count_two _ _ _ LS LH). rewrite Nat.min_l by lia.
  cbn [run]. unfold step, read. cbn [flag prior heading_prior target posterior heading_posterior Nat.eqb Nat.leb].
  destruct O as [-> | ->].
  - rewrite run_app, run_idle by (auto; cbn; lia). cbn [app run]. unfold step at 1, read at 1. cbn [flag Nat.ltb Nat.leb]. rewrite B.
    cbn [flag prior heading_prior target posterior heading_posterior Nat.add Nat.leb].
    rewrite run_app, run_idle by (auto; cbn; lia). cbn [run]. unfold step, read.
    cbn [flag prior heading_prior target posterior heading_posterior Nat.add Nat.leb Nat.ltb].
    edestruct (complete_reports c a ha b hb) as (x & -> & R); [exact C|reflexivity|exact T|].
    eexists _, x. split; [reflexivity|]. split; [reflexivity|exact R].
  - rewrite run_app, run_idle by (auto; cbn; lia). cbn [app run]. unfold step at 1, read at 1. cbn [flag Nat.ltb Nat.leb].
    cbn [flag prior heading_prior target posterior heading_posterior Nat.add Nat.leb].
    rewrite run_app, run_idle by (auto; cbn; lia). cbn [run]. unfold step, read.
    cbn [flag prior heading_prior target posterior heading_posterior Nat.add Nat.leb Nat.ltb]. rewrite B.
    cbn [flag prior heading_prior target posterior heading_posterior Nat.add Nat.leb Nat.ltb].
    edestruct (complete_reports c a ha b hb) as (x & -> & R); [exact C|reflexivity|exact T|].
    eexists _, x. split; [reflexivity|]. split; [reflexivity|exact R].
Qed.

Definition regular (c : cycle) : Prop := exists a ha b hb, cycle_is c a ha b hb /\ p_broken b = false /\ ~ p_t a == p_t b.

Lemma run_cycles : forall cs s, flag s = O -> Forall regular cs ->
  exists s' xs, run s (flat_map lines_of cs) = Some (s', xs) /\ flag s' = O /\ Forall2 reports cs xs.
Proof.
  induction cs as [|c cs IH]; intros s F H.
  - exists s, []. split; [reflexivity|]. split; [exact F|constructor].
  - inversion H as [|x y (a & ha & b & hb & C & B & T) Hr]; subst.
    destruct (run_cycle c a ha b hb s F C B T) as (s1 & x & R & F1 & X).
    destruct (IH s1 F1 Hr) as (s2 & xs & R2 & F2 & X2).
    exists s2, (x :: xs). cbn [flat_map]. rewrite run_app, R, R2. split; [reflexivity|]. split; [exact F2|constructor; assumption].
Qed.

(** The tail of a file in which the next cycle never gets its target. *)
Lemma files_cycles : forall fs s, Forall (fun f => Forall regular (fst f) /\ none is_target (snd f)) fs ->
  exists s' xs, files s (map (fun f => flat_map lines_of (fst f) ++ snd f) fs) = Some (s', xs) /\
    Forall2 reports (flat_map fst fs) xs.
Proof.
  induction fs as [|[cs tl] fs IH]; intros s H.
  - exists s, []. split; [reflexivity|constructor].
  - inversion H as [|x y [HC HT] Hr]; subst. cbn [fst snd] in HC, HT.
    destruct (run_cycles cs (reset s) eq_refl HC) as (s1 & xs & R & F1 & X).
    cbn [map files fst snd]. rewrite run_app, R, run_before by (auto; rewrite F1; lia).
    match goal with |- context [files ?q (map _ fs)] => destruct (IH q Hr) as (s2 & ys & R2 & X2) end.
    rewrite R2. exists s2, (xs ++ ys). rewrite app_nil_r. split; [reflexivity|]. cbn [flat_map fst]. apply Forall2_app; assumption.
Qed.

(** The check at 420 never fires: whenever five is reached the flag is that of a ship
    packet after the target, or of a heading, for which it is not set. *)
Lemma read_never_broken : forall s l s' b, (flag s < 5)%nat -> read s l = Some (s', b) -> (5 <= flag s')%nat -> b = false.
Proof.
  intros s l s' b F R G. unfold read in R. destruct l as [ok p d|p|h|].
  - destruct (flag s =? 2)%nat; [destruct ok|]; injection R as <- <-; cbn in G; try lia; reflexivity.
  - destruct (flag s <? 3)%nat eqn:L.
    + injection R as <- <-. apply Nat.ltb_lt in L. cbn [flag] in G. revert G. destruct (flag s <? 2)%nat; intro; lia.
    + destruct (p_broken p); [discriminate|]. now injection R as <- <-.
  - destruct (flag s <? 3)%nat; now injection R as <- <-.
  - now injection R as <- <-.
Qed.
