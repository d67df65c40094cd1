(** C255/C256: colour correction over whole arrays (TrainModel). *)
From Coq Require Import Reals List Arith Lia Lra Psatz ZArith.
From Verif Require Import TrainModel TrainProofs.
Import ListNotations.
Open Scope R_scope.

(** ** What the correction should be, one pixel and channel at a time *)
Definition total (l : list R) : R := fold_right Rplus 0 l.
Definition average (l : list R) : R := total l / INR (length l).
Definition squares (l : list R) : R := total (map (fun x => (x - average l) * (x - average l)) l).
Definition deviation (l : list R) : R := sqrt (squares l / INR (length l)).
(** Values above 0.95 count as the average of what came before them. *)
Fixpoint kept (done l : list R) : list R :=
  match l with [] => done | x :: l => kept (done ++ [if Rlt_dec (95 / 100) x then average done else x]) l end.
Definition bounded (x : R) : R := Rmax 0 (Rmin 1 x).
(** Row [y], column [x], channel [ch] of an array of rows of [w] pixels of [c] channels *)
Definition value (w c : nat) (a : array) (y x ch : nat) : R := nth ((y * w + x) * c + ch) (data a) 0.
Definition right_size (h w c : nat) (a : array) : Prop := shape a = (if (c =? 1)%nat then [h; w] else [h; w; c]) /\ length (data a) = (h * w * c)%nat.
Section Spec.
Variable fit : list R -> list R -> R * R * R.
Variables h w c : nat.
Variable bins : list (option (array * array)).
Variable target : R.
Variable images : list (array * array).
Definition light (y x ch : nat) (d : R) : R :=
  let '(a, b, k) := fit (map (fun o => match o with Some (dist, _) => value w 1 dist y x 0 | None => 0 end) bins)
                        (map (fun o => match o with Some (_, img) => value w c img y x ch | None => 0 end) bins) in
  a * exp (b * d) + k.
Definition evened (y x ch : nat) (i : array * array) : R := light y x ch target / light y x ch (value w 1 (snd i) y x 0) * value w c (fst i) y x ch.
Definition history (y x ch : nat) : list R := kept [] (map (evened y x ch) images).
Definition rescaled (brightness contrast : R) (y x ch : nat) (i : array * array) : R :=
  (evened y x ch i - average (history y x ch)) / Rmax (1 / 1000000) (deviation (history y x ch)) * (contrast / 100) + brightness / 100.
End Spec.

(** ** Running statistics *)
Lemma total_app : forall l m, total (l ++ m) = total l + total m.
Proof. unfold total. induction l as [|x l IH]; intros m; cbn [fold_right app]; [ring|]. rewrite IH. ring. Qed.
Lemma total_average : forall l, total l = INR (length l) * average l.
Proof. intros [|x l]; [cbn; lra|]. unfold average. field. apply not_0_INR. discriminate. Qed.
Lemma squares_eq : forall l, squares l = total (map (fun x => x * x) l) - INR (length l) * (average l * average l).
Proof.
  intros l. unfold squares. generalize (total_average l). generalize (average l) as m. intros m H.
  assert (total (map (fun x => (x - m) * (x - m)) l) = total (map (fun x => x * x) l) - 2 * m * total l + INR (length l) * (m * m)) as E.
  { clear H. induction l as [|x l IH]; [cbn; ring|]. cbn [map total fold_right length]. fold (total l) (total (map (fun x => (x - m) * (x - m)) l)) (total (map (fun x => x * x) l)).
    rewrite IH, S_INR. ring. }
  rewrite E, H. ring.
Qed.
Lemma average_snoc : forall l x, average (l ++ [x]) = average l + (x - average l) / INR (S (length l)).
Proof.
  intros l x. unfold average at 1. rewrite total_app, app_length, Nat.add_comm, total_average. cbn [length total fold_right Nat.add]. rewrite S_INR.
  pose proof (pos_INR (length l)). field. lra.
Qed.
Lemma squares_snoc : forall l x, squares (l ++ [x]) = squares l + (x - average l) * (x - average (l ++ [x])).
Proof.
  intros l x. rewrite !squares_eq, map_app, total_app, average_snoc, app_length, Nat.add_comm. cbn [length map total fold_right Nat.add]. rewrite S_INR.
  pose proof (pos_INR (length l)). field. lra.
Qed.
Lemma squares_nonneg : forall l, 0 <= squares l.
Proof.
  intros l. unfold squares. generalize (average l) as m. intros m. unfold total. induction l as [|x l IH]; [cbn; lra|]. cbn [map fold_right].
  pose proof (Rle_0_sqr (x - m)). unfold Rsqr in *. lra.
Qed.
Lemma kept_length : forall l done, length (kept done l) = (length done + length l)%nat.
Proof. induction l as [|x l IH]; intros done; cbn [kept length]; [lia|]. rewrite IH, app_length. cbn [length]. lia. Qed.
Lemma kept_all : forall l done, (forall x, In x l -> x <= 95 / 100) -> kept done l = done ++ l.
Proof.
  induction l as [|x l IH]; intros done H; cbn [kept]; [now rewrite app_nil_r|]. destruct (Rlt_dec (95 / 100) x) as [L|_].
  - specialize (H x (or_introl eq_refl)). lra.
  - rewrite IH, <- app_assoc; [reflexivity|]. intros; apply H; now right.
Qed.

Definition tracks (sh : list nat) (r : runner) (ks : list nat -> list R) : Prop :=
  like sh (r_mean r) /\ like sh (r_mean2 r) /\
  forall idx, valid sh idx -> length (ks idx) = r_count r /\ get (r_mean r) idx = average (ks idx) /\ get (r_mean2 r) idx = squares (ks idx).
Lemma compute_tracks : forall sh r ks i, tracks sh r ks -> like sh (squeeze i) -> exists r', compute r i = Some r' /\ r_count r' = S (r_count r) /\
    tracks sh r' (fun idx => ks idx ++ [if Rlt_dec (95 / 100) (get (squeeze i) idx) then average (ks idx) else get (squeeze i) idx]).
Proof.
  intros sh r ks i (M & M2 & T) I. unfold compute. generalize dependent (squeeze i). clear i. intros i I.
  pose proof I as (SI & LI). pose proof M as (SM & LM). rewrite LI, LM, Nat.eqb_refl, SI.
  set (im := mkarray sh (map (fun p => if Rltb (95 / 100) (fst p) then snd p else fst p) (combine (data i) (data (r_mean r))))).
  assert (like sh im) as K by (split; [reflexivity|]; cbn [data im]; rewrite map_length, combine_length, LI, LM; apply Nat.min_id).
  assert (forall idx, valid sh idx -> get im idx = if Rlt_dec (95 / 100) (get i idx) then average (ks idx) else get i idx) as G.
  { intros idx V. unfold get at 1. cbn [shape data im]. set (g := fun p : R * R => if Rltb (95 / 100) (fst p) then snd p else fst p).
    rewrite (nth_indep _ 0 (g (0, 0))) by (rewrite map_length, combine_length, LI, LM, Nat.min_id; now apply flat_bound).
    rewrite map_nth, combine_nth by congruence. unfold g, Rltb. cbn [fst snd]. destruct (T idx V) as (_ & A & _). unfold get in A |- *. rewrite SI. rewrite SM in A. rewrite <- A.
    now destruct (Rlt_dec (95 / 100) (nth (flat sh idx) (data i) 0)). }
  clearbody im. destruct (broadcast_same Rminus sh im (r_mean r) K M) as (delta & -> & LD & GD).
  destruct (in_place_same Rplus sh (r_mean r) _ M (mapped_like (fun x => x / INR (S (r_count r))) sh delta LD)) as (m' & -> & LM' & GM').
  destruct (broadcast_same Rminus sh im m' K LM') as (rest & -> & LR & GR).
  destruct (broadcast_same Rmult sh delta rest LD LR) as (pr & -> & LP & GP).
  destruct (in_place_same Rplus sh (r_mean2 r) pr M2 LP) as (m2' & -> & LM2' & GM2').
  eexists. split; [reflexivity|]. split; [reflexivity|]. split; [exact LM'|]. split; [exact LM2'|]. intros idx V. cbn [r_count r_mean r_mean2].
  destruct (T idx V) as (N & A & S2). rewrite <- (G idx V). split; [rewrite app_length, N; cbn [length]; lia|].
  assert (get m' idx = average (ks idx ++ [get im idx])) as E.
  { rewrite GM', (get_mapped _ sh) by assumption. rewrite GD, A, average_snoc, N by exact V. reflexivity. }
  split; [exact E|]. rewrite GM2', GP, GR, GD, A, E, S2 by exact V. now rewrite squares_snoc.
Qed.
Lemma run_tracks : forall sh l r ks, tracks sh r ks -> Forall (fun i => like sh (squeeze i)) l ->
  exists r', run r l = Some r' /\ r_count r' = (r_count r + length l)%nat /\ tracks sh r' (fun idx => kept (ks idx) (map (fun i => get (squeeze i) idx) l)).
Proof.
  intros sh l. induction l as [|i l IH]; intros r ks T F; cbn [run].
  - exists r. cbn [length map kept]. split; [reflexivity|]. split; [lia|exact T].
  - inversion F as [|? ? Li Ll]; subst. destruct (compute_tracks sh r ks i T Li) as (r1 & -> & C1 & T1). destruct (IH r1 _ T1 Ll) as (r2 & -> & C2 & T2).
    exists r2. split; [reflexivity|]. split; [cbn [length]; lia|]. exact T2.
Qed.
Lemma new_tracks : forall h w c, h <> 1%nat -> w <> 1%nat -> tracks (flat_shape h w c) (new_runner h w c) (fun _ => []).
Proof.
  intros h w c H W. unfold new_runner, filled. rewrite squeeze_shape by assumption.
  assert (size [h; w; c] = size (flat_shape h w c)) as E by (rewrite flat_size; cbn; lia). rewrite E.
  assert (like (flat_shape h w c) (filled (flat_shape h w c) 0)) as L by apply filled_like. split; [exact L|]. split; [exact L|]. intros idx V. cbn [r_count r_mean r_mean2 length].
  split; [reflexivity|]. assert (forall n k, nth n (repeat 0 k) 0 = 0) as Z by (induction n; destruct k; cbn; auto).
  unfold get. cbn [shape data]. rewrite Z. unfold average, squares, total. cbn [map fold_right length]. split; [unfold Rdiv; ring|reflexivity].
Qed.

(** ** Parameters and gains *)
Section Camera.
Variable fit : list R -> list R -> R * R * R.
Variables h w c : nat.
Notation sh := (flat_shape h w c).
Definition good_bin (b : option (array * array)) : Prop := match b with Some (d, i) => right_size h w 1 d /\ right_size h w c i | None => True end.
Lemma right_like : forall a, right_size h w c a -> like sh a.
Proof. intros a (S & L). split; [exact S|]. now rewrite flat_size. Qed.
Lemma get_value : forall a y x ch, like sh a -> (ch < c)%nat -> get a (at_pixel c y x ch) = value w c a y x ch.
Proof. intros a y x ch (S & L) C. unfold get, value. now rewrite S, flat_at. Qed.
Definition row_of (n : nat) (a : option array) : list R := match a with Some a => data a | None => repeat 0 n end.
Lemma rows_some : forall n (part : array * array -> array) bins, (forall p, In (Some p) bins -> length (data (part p)) = n) ->
  each (fun b => row n (option_map part b)) bins = Some (map (fun b => row_of n (option_map part b)) bins) /\
  forall r, In r (map (fun b => row_of n (option_map part b)) bins) -> length r = n.
Proof.
  intros n part bins H. split.
  - apply each_some. intros [p|] I; cbn [option_map row row_of]; [|reflexivity]. rewrite (H p I), Nat.eqb_refl. reflexivity.
  - intros r I. apply in_map_iff in I. destruct I as ([p|] & <- & I); cbn [option_map row_of]; [now apply H|apply repeat_length].
Qed.
Lemma nth_zero : forall n k, nth n (repeat 0 k) 0 = 0.
Proof. induction n; destruct k; cbn; auto. Qed.
Lemma map_seq_nth {A B} : forall (l : list A) (f : nat -> B) (g : A -> B) d, (forall k, (k < length l)%nat -> f k = g (nth k l d)) -> map f (seq 0 (length l)) = map g l.
Proof.
  intros l f g d H. assert (forall s, (forall k, (k < length l)%nat -> f (s + k)%nat = g (nth k l d)) -> map f (seq s (length l)) = map g l) as G; [|now apply G].
  clear H. induction l as [|a l IH]; intros s H; [reflexivity|]. cbn [length seq map]. f_equal.
  - rewrite <- (Nat.add_0_r s). apply (H 0%nat). cbn. lia.
  - apply IH. intros k K. rewrite Nat.add_succ_comm. apply (H (S k)). cbn. lia.
Qed.
Lemma params_at : forall bins im dm y x ch k, Forall good_bin bins -> images_map h w c bins = Some im -> distances_map h w bins = Some dm ->
  (y < h)%nat -> (x < w)%nat -> (ch < c)%nat -> (k < 3)%nat ->
  get (attenuation_parameters fit h w c im dm) [ch; y; x; k] =
  (let '(a, b, q) := fit (map (fun o => match o with Some (dist, _) => value w 1 dist y x 0 | None => 0 end) bins)
                         (map (fun o => match o with Some (_, img) => value w c img y x ch | None => 0 end) bins) in nth k [a; b; q] 0).
Proof.
  intros bins im dm y x ch k GB IM DM Y X C K. rewrite Forall_forall in GB.
  destruct (rows_some (h * w * c) snd bins) as (E1 & R1). { intros [d i] I. cbn [snd]. now destruct (GB _ I) as (_ & _ & L). }
  destruct (rows_some (h * w) fst bins) as (E2 & R2). { intros [d i] I. cbn [fst]. destruct (GB _ I) as ((_ & L) & _). now rewrite Nat.mul_1_r in L. }
  unfold images_map in IM. rewrite E1 in IM. unfold distances_map in DM. rewrite E2 in DM. 
  assert (im = mkarray [length bins; (h * w)%nat; c] (concat (map (fun b => row_of (h * w * c) (option_map snd b)) bins))) as EI by congruence.
  assert (dm = mkarray [length bins; (h * w)%nat] (concat (map (fun b => row_of (h * w) (option_map fst b)) bins))) as ED by congruence. clear IM DM.
  assert (y * w + x < h * w)%nat as P by nia.
  assert (forall ch, forall r, In r (map (fit_pixel fit im dm ch) (seq 0 (h * w))) -> length r = 3%nat) as L3.
  { intros ch' r I. apply in_map_iff in I. destruct I as (p & <- & _). unfold fit_pixel. now destruct (fit _ _) as [[a b] q]. }
  unfold get, attenuation_parameters. cbn [shape data]. cbn [flat size fold_right].
  replace (ch * (h * (w * (3 * 1))) + (y * (w * (3 * 1)) + (x * (3 * 1) + (k * 1 + 0))))%nat with (ch * (h * w * 3) + ((y * w + x) * 3 + k))%nat by nia.
  rewrite (nth_concat (h * w * 3)); [| |now rewrite map_length, seq_length|nia].
  2:{ intros r I. apply in_map_iff in I. destruct I as (ch' & <- & _). rewrite (concat_length 3); [now rewrite map_length, seq_length|apply L3]. }
  rewrite (nth_indep _ [] ((fun ch => concat (map (fit_pixel fit im dm ch) (seq 0 (h * w)))) 0%nat)) by now rewrite map_length, seq_length.
  rewrite (map_nth (fun ch => concat (map (fit_pixel fit im dm ch) (seq 0 (h * w))))), seq_nth by exact C. cbn [Nat.add].
  rewrite (nth_concat 3); [|apply L3|now rewrite map_length, seq_length|exact K].
  rewrite (nth_indep _ [] (fit_pixel fit im dm ch 0)) by now rewrite map_length, seq_length. rewrite map_nth, seq_nth by exact P. cbn [Nat.add].
  unfold fit_pixel. assert (hd 0%nat (shape dm) = length bins) as -> by now rewrite ED.
  erewrite (map_seq_nth bins (fun k => get dm [k; (y * w + x)%nat]) (fun o => match o with Some (dist, _) => value w 1 dist y x 0 | None => 0 end) None).
  2:{ intros j J. unfold get. rewrite ED. cbn [shape data flat size fold_right]. replace (j * (h * w * 1) + ((y * w + x) * 1 + 0))%nat with (j * (h * w) + (y * w + x))%nat by lia.
      rewrite (nth_concat (h * w)); [|exact R2|now rewrite map_length|exact P]. rewrite (nth_indep _ [] ((fun b : option (array * array) => row_of (h * w) (option_map fst b)) None)) by now rewrite map_length.
      rewrite (map_nth (fun b => row_of (h * w) (option_map fst b))). destruct (nth j bins None) as [[d i]|]; cbn [option_map row_of fst]; [|apply nth_zero].
      unfold value. now rewrite Nat.mul_1_r, Nat.add_0_r. }
  erewrite (map_seq_nth bins (fun k => get im [k; (y * w + x)%nat; ch]) (fun o => match o with Some (_, img) => value w c img y x ch | None => 0 end) None).
  2:{ intros j J. unfold get. rewrite EI. cbn [shape data flat size fold_right]. replace (j * (h * w * (c * 1)) + ((y * w + x) * (c * 1) + (ch * 1 + 0)))%nat with (j * (h * w * c) + ((y * w + x) * c + ch))%nat by lia.
      rewrite (nth_concat (h * w * c)); [|exact R1|now rewrite map_length|nia]. rewrite (nth_indep _ [] ((fun b : option (array * array) => row_of (h * w * c) (option_map snd b)) None)) by now rewrite map_length.
      rewrite (map_nth (fun b => row_of (h * w * c) (option_map snd b))). destruct (nth j bins None) as [[d i]|]; cbn [option_map row_of snd]; [|apply nth_zero]. reflexivity. }
  now destruct (fit _ _) as [[a b] q].
Qed.
Lemma curve_at : forall bins im dm y x ch d, Forall good_bin bins -> images_map h w c bins = Some im -> distances_map h w bins = Some dm ->
  (y < h)%nat -> (x < w)%nat -> (ch < c)%nat -> curve (attenuation_parameters fit h w c im dm) ch y x d = light fit w c bins y x ch d.
Proof.
  intros bins im dm y x ch d GB IM DM Y X C. unfold curve, light. rewrite !(params_at bins im dm) by (auto; lia). now destruct (fit _ _) as [[a b] q].
Qed.
Lemma correct_at : forall bins im dm target i, Forall good_bin bins -> images_map h w c bins = Some im -> distances_map h w bins = Some dm ->
  (1 <= c)%nat -> right_size h w c (fst i) -> right_size h w 1 (snd i) -> let p := attenuation_parameters fit h w c im dm in
  exists r, attenuation_correct h w c (fst i) (snd i) p (correction_gains h w c target p) = Some r /\ like sh r /\ forall y x ch, (y < h)%nat -> (x < w)%nat -> (ch < c)%nat -> get r (at_pixel c y x ch) = evened fit w c bins target y x ch i.
Proof.
  intros bins im dm target i GB IM DM C1 RI RD p. pose proof (right_like _ RI) as LI. destruct RI as (SI & _). destruct RD as (SD & LD). cbn [Nat.eqb] in SD.
  unfold attenuation_correct. rewrite SD. destruct (list_eq_dec Nat.eq_dec [h; w] [h; w]) as [_|N]; [|congruence].
  assert (forall y x ch, (y < h)%nat -> (x < w)%nat -> (ch < c)%nat -> get (correction_gains h w c target p) [ch; y; x] = light fit w c bins y x ch target) as GG.
  { intros y x ch Y X C. unfold correction_gains. rewrite get_build by (repeat constructor; auto). unfold p. now apply curve_at. }
  assert (forall y x, get (snd i) [y; x] = value w 1 (snd i) y x 0) as GD.
  { intros y x. unfold get, value. rewrite SD. f_equal. cbn. lia. }
  assert (forall y x ch, (ch < c)%nat -> get (fst i) (at_pixel c y x ch) = value w c (fst i) y x ch) as GI by (intros; now apply get_value).
  rewrite SI. unfold flat_shape, at_pixel in *. destruct (Nat.eqb_spec c 1) as [E|N1].
  - rewrite !Nat.eqb_refl. cbn [andb]. eexists. split; [reflexivity|]. split; [apply build_like|]. intros y x ch Y X C. assert (ch = 0)%nat as -> by lia.
    rewrite get_build by (repeat constructor; auto). unfold evened. rewrite GG, GD by auto. unfold p. rewrite (curve_at bins) by auto. now rewrite (GI y x 0%nat).
  - rewrite !Nat.eqb_refl, Nat.leb_refl. cbn [andb]. eexists. split; [reflexivity|]. split; [apply build_like|]. intros y x ch Y X C.
    rewrite get_build by (repeat constructor; auto). destruct (Nat.ltb_spec ch c) as [_|]; [|lia]. unfold evened. rewrite GG, GD by auto. unfold p. rewrite (curve_at bins) by auto. now rewrite GI.
Qed.
End Camera.
Lemma std_of_eq : forall l, std_of (length l) (squares l) = Rmax (1 / 1000000) (deviation l).
Proof. intros l. unfold std_of, deviation, Rltb. destruct (Rlt_dec _ _) as [L|L]; [rewrite Rmax_left|rewrite Rmax_right]; lra. Qed.
Lemma clip01_eq : forall x, clip01 x = bounded x.
Proof.
  intros x. unfold clip01, bounded. destruct (Rlt_dec x 0) as [L|L]; [|destruct (Rlt_dec 1 x) as [M|M]].
  - rewrite Rmin_right by lra. now rewrite Rmax_left by lra.
  - rewrite Rmin_left by lra. now rewrite Rmax_right by lra.
  - rewrite Rmin_right by lra. now rewrite Rmax_right by lra.
Qed.

(** ** C255 *)
(** Training succeeds and every value of every image developed afterwards depends on its own pixel and channel only: the law fitted through
    that pixel's bins, the training images' values there, the value itself and its distance. *)
Theorem C255_pixel : forall fit h w c bins target images,
  (2 <= h)%nat -> (2 <= w)%nat -> (1 <= c)%nat -> (100 <= h * w)%nat -> (2 <= length images)%nat ->
  (forall d i, In (Some (d, i)) bins -> right_size h w 1 d /\ right_size h w c i) ->
  (forall i, In i images -> right_size h w c (fst i) /\ right_size h w 1 (snd i)) ->
  exists t, train fit h w c bins target images = Some t /\
    forall brightness contrast img dist, right_size h w c img -> right_size h w 1 dist ->
    exists out, develop h w c t brightness contrast img dist = Some out /\ right_size h w c out /\
      forall y x ch, (y < h)%nat -> (x < w)%nat -> (ch < c)%nat ->
        value w c out y x ch = bounded (rescaled fit w c bins target images brightness contrast y x ch (img, dist)).
Proof.
  intros fit h w c bins target images H W C N100 N2 GB GI.
  assert (Forall (good_bin h w c) bins) as FB. { apply Forall_forall. intros [[d i]|] I; cbn; [now apply GB|trivial]. }
  unfold train. destruct (rows_some (h * w * c) snd bins) as (E1 & _). { intros [d i] I. cbn [snd]. now destruct (GB d i I) as (_ & _ & L). }
  destruct (rows_some (h * w) fst bins) as (E2 & _). { intros [d i] I. cbn [fst]. destruct (GB d i I) as ((_ & L) & _). now rewrite Nat.mul_1_r in L. }
  destruct (images_map h w c bins) as [im|] eqn:IM; [|unfold images_map in IM; rewrite E1 in IM; discriminate].
  destruct (distances_map h w bins) as [dm|] eqn:DM; [|unfold distances_map in DM; rewrite E2 in DM; discriminate].
  assert (1 <= h * w / 100)%nat as D by (apply Nat.div_le_lower_bound; lia). destruct (Nat.eqb_spec (h * w / 100) 0) as [Z|_]; [lia|].
  set (p := attenuation_parameters fit h w c im dm). set (g := correction_gains h w c target p). set (sh := flat_shape h w c).
  assert (h <> 1%nat /\ w <> 1%nat) as (H1 & W1) by lia.
  destruct (each_rel (fun i => attenuation_correct h w c (fst i) (snd i) p g)
    (fun i r => like sh r /\ forall y x ch, (y < h)%nat -> (x < w)%nat -> (ch < c)%nat -> get r (at_pixel c y x ch) = evened fit w c bins target y x ch i) images) as (cs & -> & F).
  { intros i I. destruct (GI i I) as (RI & RD). exact (correct_at fit h w c bins im dm target i FB IM DM C RI RD). }
  assert (Forall (fun i => like sh (squeeze i)) cs) as LC.
  { clear -F H1 W1. induction F as [|i r l cs (L & _) F IH]; constructor; auto. unfold sh. now rewrite (squeeze_flat h w c). }
  destruct (run_tracks sh cs _ _ (new_tracks h w c H1 W1) LC) as (r & -> & CR & (LM & LM2 & T)).
  assert (length cs = length images) as LL by (clear -F; induction F; cbn [length]; congruence).
  cbn [r_count new_runner Nat.add] in CR. destruct (Nat.ltb_spec 1 (r_count r)) as [_|]; [|lia].
  assert (size [h; w; c] = size sh) as ES by (unfold sh; rewrite flat_size; cbn; lia).
  pose proof LM as (SM & DMn). pose proof (mapped_like (std_of (r_count r)) _ _ LM2) as LS. pose proof LS as (SS & DS).
  unfold reshape. rewrite ES, DMn, DS. fold sh. rewrite Nat.eqb_refl.
  eexists. split; [reflexivity|]. intros br co img dist RI RD. unfold develop. cbn [t_params t_gains t_mean t_std].
  destruct (correct_at fit h w c bins im dm target (img, dist) FB IM DM C RI RD) as (cr & EC & LCr & GC). cbn [fst snd] in EC. fold p in EC. fold g in EC. rewrite EC.
  rewrite !squeeze_shape by assumption. unfold pixel_stat.
  fold sh. assert (mkarray sh (data (r_mean r)) = r_mean r) as -> by (destruct (r_mean r) as [s0 d0]; cbn [shape data] in *; congruence).
  assert (mkarray sh (data (mapped (std_of (r_count r)) (r_mean2 r))) = mapped (std_of (r_count r)) (r_mean2 r)) as -> by (destruct (mapped (std_of (r_count r)) (r_mean2 r)) as [s0 d0]; cbn [shape data] in *; congruence).
  destruct (broadcast_same Rminus sh cr (r_mean r) LCr LM) as (ce & -> & LCe & GCe).
  destruct (broadcast_same Rdiv sh ce _ LCe LS) as (ra & -> & LRa & GRa).
  set (q := fun x => clip01 (x * (co / 100) + br / 100)). pose proof (mapped_like q sh ra LRa) as LQ.
  eexists. split; [reflexivity|]. split; [destruct LQ as (A & B); split; [exact A|rewrite B; apply flat_size]|].
  intros y x ch Y X Ch. assert (valid sh (at_pixel c y x ch)) as V by now apply at_valid.
  rewrite <- (get_value h w c _ y x ch LQ Ch), (get_mapped q sh ra _ LRa V), GRa, GCe by exact V. rewrite (get_mapped _ sh (r_mean2 r)) by assumption.
  destruct (T _ V) as (TL & TM & TS). rewrite TM, TS, <- TL, std_of_eq, (GC y x ch Y X Ch). unfold q. rewrite clip01_eq. unfold rescaled, history.
  assert (map (fun i => get (squeeze i) (at_pixel c y x ch)) cs = map (evened fit w c bins target y x ch) images) as ->; [|reflexivity].
  clear -F Y X Ch H1 W1. induction F as [|i r l cs (L & G) F IH]; [reflexivity|]. cbn [map]. f_equal; auto. rewrite (squeeze_flat h w c) by assumption. auto.
Qed.
Print Assumptions C255_pixel.

Lemma average_affine : forall a b l, l <> [] -> average (map (fun v => v * a + b) l) = average l * a + b.
Proof.
  intros a b l N. assert (total (map (fun v => v * a + b) l) = total l * a + INR (length l) * b) as E.
  { unfold total. clear N. induction l as [|x l IH]; [cbn; ring|]. cbn [map fold_right length]. rewrite IH, S_INR. ring. }
  unfold average. rewrite E, map_length. field. apply not_0_INR. now destruct l.
Qed.
Lemma squares_affine : forall a b l, l <> [] -> squares (map (fun v => v * a + b) l) = a * a * squares l.
Proof.
  intros a b l N. unfold squares. rewrite (average_affine a b l N). generalize (average l) as m. intros m. rewrite map_map. unfold total. clear N.
  induction l as [|x l IH]; [cbn; ring|]. cbn [map fold_right]. rewrite IH. ring.
Qed.
(** Over the training images themselves, a pixel whose corrected values stay up to 0.95 and whose results need no clipping gets exactly the average
    and the standard deviation asked for. *)
Theorem C255_target : forall fit h w c bins target images t,
  (2 <= h)%nat -> (2 <= w)%nat -> (1 <= c)%nat -> (100 <= h * w)%nat -> (2 <= length images)%nat ->
  (forall d i, In (Some (d, i)) bins -> right_size h w 1 d /\ right_size h w c i) ->
  (forall i, In i images -> right_size h w c (fst i) /\ right_size h w 1 (snd i)) ->
  train fit h w c bins target images = Some t ->
  forall brightness contrast y x ch outs, 0 <= contrast -> (y < h)%nat -> (x < w)%nat -> (ch < c)%nat ->
  (forall i, In i images -> evened fit w c bins target y x ch i <= 95 / 100) ->
  1 / 1000000 <= deviation (map (evened fit w c bins target y x ch) images) ->
  Forall2 (fun i o => develop h w c t brightness contrast (fst i) (snd i) = Some o) images outs ->
  (forall o, In o outs -> 0 < value w c o y x ch < 1) ->
  average (map (fun o => value w c o y x ch) outs) = brightness / 100 /\ deviation (map (fun o => value w c o y x ch) outs) = contrast / 100.
Proof.
  intros fit h w c bins target images t H W C N100 N2 GB GI T br co y x ch outs CO Y X Ch B D F U.
  destruct (C255_pixel fit h w c bins target images H W C N100 N2 GB GI) as (t' & T' & P). assert (t' = t) as -> by congruence. clear T T'.
  set (vals := map (evened fit w c bins target y x ch) images) in *.
  assert (history fit w c bins target images y x ch = vals) as K.
  { unfold history. rewrite kept_all; [reflexivity|]. intros v I. apply in_map_iff in I. destruct I as (i & <- & I). now apply B. }
  assert (vals <> []) as NV by (unfold vals; destruct images; [cbn in N2; lia|discriminate]).
  set (a := / deviation vals * (co / 100)). set (b := br / 100 - average vals * a).
  assert (map (fun o => value w c o y x ch) outs = map (fun v => v * a + b) vals) as ->.
  { unfold vals. rewrite map_map. assert (forall i o, In (i, o) (combine images outs) -> value w c o y x ch = evened fit w c bins target y x ch i * a + b) as E.
    { intros i o I. pose proof (in_combine_l _ _ _ _ I) as Ii. pose proof (in_combine_r _ _ _ _ I) as Io. destruct (GI i Ii) as (RI & RD).
      destruct (P br co (fst i) (snd i) RI RD) as (o' & Do & _ & V). assert (o' = o) as ->.
      { assert (develop h w c t br co (fst i) (snd i) = Some o) as Do'; [|congruence]. clear -F I. revert I. induction F as [|i0 o0 l m G F IH]; cbn [combine In]; [tauto|].
        intros [E|I]; [injection E as -> ->; exact G|now apply IH]. }
      specialize (V y x ch Y X Ch). specialize (U o Io). rewrite V in U |- *. unfold bounded in U |- *.
      assert (evened fit w c bins target y x ch i * a + b = rescaled fit w c bins target images br co y x ch (fst i, snd i)) as ->.
      { unfold rescaled. rewrite K, Rmax_right by exact D. unfold b, a. destruct i as [i1 i2]. cbn [fst snd]. field. lra. }
      destruct (Rle_lt_dec 1 (rescaled fit w c bins target images br co y x ch (fst i, snd i))) as [L|L].
      - rewrite Rmin_left in U by exact L. rewrite Rmax_right in U; lra.
      - rewrite Rmin_right in U |- * by lra. destruct (Rle_lt_dec (rescaled fit w c bins target images br co y x ch (fst i, snd i)) 0) as [M|M].
        + rewrite Rmax_left in U; lra.
        + rewrite Rmax_right; lra. }
    clearbody b a. clear -F E. induction F as [|i o l m _ F IH]; [reflexivity|]. cbn [map]. f_equal; [apply E; now left|]. apply IH. intros; apply E; now right. }
  split; [rewrite average_affine by exact NV; unfold b; ring|].
  unfold deviation at 1. rewrite squares_affine, map_length by exact NV. unfold a.
  set (s := deviation vals) in *. assert (squares vals / INR (length vals) = s * s) as E.
  { unfold s, deviation. rewrite sqrt_sqrt; [reflexivity|]. apply Rmult_le_pos; [apply squares_nonneg|]. apply Rlt_le, Rinv_0_lt_compat, lt_0_INR. destruct vals; [congruence|cbn; lia]. }
  assert (/ s * (co / 100) * (/ s * (co / 100)) * squares vals / INR (length vals) = co / 100 * (co / 100)) as ->.
  { transitivity (/ s * (co / 100) * (/ s * (co / 100)) * (squares vals / INR (length vals))); [unfold Rdiv; ring|]. rewrite E. field. lra. }
  apply sqrt_square. lra.
Qed.
Print Assumptions C255_target.

(** At least one job, and not all processors, on a machine with two or more; more than one only where twice the free memory holds their copies of the bins. *)
Theorem C255_jobs : forall available required cpus, (0 <= available -> 0 < required -> 2 <= cpus ->
  1 <= jobs available required cpus < cpus /\ (jobs available required cpus = 1 \/ jobs available required cpus * required <= 2 * available))%Z.
Proof.
  intros av re cp A R C. unfold jobs. pose proof (Z.mul_div_le av re R) as M. pose proof (Z.div_pos av re A R) as P.
  set (n := (av / re)%Z) in *. rewrite Z.gtb_ltb. destruct (Z.ltb_spec (cp - 1) (n * 2)).
  - split; [lia|]. right. nia.
  - destruct (Z.leb_spec (n * 2) 0); (split; [lia|]); [now left|]. right. nia.
Qed.
Print Assumptions C255_jobs.

Lemma drawn_in : forall h w y x, In (y, x) (drawn h w) <-> (y < h)%nat /\ (x < w)%nat /\ x = round_half_even (y * w) h.
Proof.
  intros h w y x. unfold drawn. rewrite in_flat_map. split.
  - intros (y' & Y & I). apply in_map_iff in I. destruct I as (x' & E & I). injection E as -> ->. apply filter_In in I. destruct I as (I & Q). apply Nat.eqb_eq in Q. apply in_seq in I, Y. repeat split; lia.
  - intros (Y & X & E). exists y. split; [apply in_seq; lia|]. apply in_map_iff. exists x. split; [reflexivity|]. apply filter_In. split; [apply in_seq; lia|]. now apply Nat.eqb_eq.
Qed.
Lemma round_nearest : forall n d, (0 < d)%nat -> (2 * n <= (2 * round_half_even n d + 1) * d /\ 2 * round_half_even n d * d <= 2 * n + d)%nat.
Proof.
  intros n d D. unfold round_half_even. pose proof (Nat.div_mod n d) as E. specialize (E ltac:(lia)). pose proof (Nat.mod_upper_bound n d ltac:(lia)) as B.
  set (q := (n / d)%nat) in *. set (r := (n mod d)%nat) in *. destruct (Nat.ltb_spec (2 * r) d); [nia|]. destruct (Nat.ltb_spec d (2 * r)); [nia|]. destruct (Nat.even q); nia.
Qed.
(** The figures lie on the diagonal of the image, at most half a column away and not more than one per row; if the image is less than twice as high as
    wide every row has one. *)
Theorem C255_figures : forall h w y, (0 < h)%nat -> (y < h)%nat ->
  (forall x, In (y, x) (drawn h w) -> (x < w)%nat /\ Rabs (INR x - INR y * INR w / INR h) <= 1 / 2) /\
  (forall x x', In (y, x) (drawn h w) -> In (y, x') (drawn h w) -> x = x') /\
  ((h < 2 * w)%nat -> exists x, In (y, x) (drawn h w)).
Proof.
  intros h w y H Y. split; [|split].
  - intros x I. apply drawn_in in I. destruct I as (_ & X & E). split; [exact X|]. destruct (round_nearest (y * w) h H) as (A & B). rewrite <- E in A, B.
    apply le_INR in A, B. repeat rewrite ?mult_INR, ?plus_INR in A. repeat rewrite ?mult_INR, ?plus_INR in B. cbn [INR] in A, B. assert (0 < INR h) as P by now apply lt_0_INR.
    replace (INR x - INR y * INR w / INR h) with ((2 * INR x * INR h - 2 * (INR y * INR w)) / (2 * INR h)) by (field; lra).
    unfold Rdiv. rewrite Rabs_mult, (Rabs_pos_eq (/ (2 * INR h))) by (apply Rlt_le, Rinv_0_lt_compat; lra).
    apply (Rmult_le_reg_r (2 * INR h)); [lra|]. rewrite Rmult_assoc, Rinv_l, Rmult_1_r by lra. apply Rabs_le. lra.
  - intros x x' I J. apply drawn_in in I, J. lia.
  - intros L. exists (round_half_even (y * w) h). apply drawn_in. split; [exact Y|]. split; [|reflexivity]. destruct (round_nearest (y * w) h H) as (_ & B). nia.
Qed.
Print Assumptions C255_figures.

(** ** Witnesses *)
Definition level_law (_ _ : list R) : R * R * R := (1, 0, 0).
Lemma level_light : forall w c bins y x ch d, light level_law w c bins y x ch d = 1.
Proof. intros. unfold light, level_law. rewrite Rmult_0_l, exp_0. ring. Qed.
Lemma level_evened : forall w c bins target y x ch i, evened level_law w c bins target y x ch i = value w c (fst i) y x ch.
Proof. intros. unfold evened. rewrite !level_light. field. Qed.
Definition plain (h w : nat) (v : R) : array := filled [h; w] v.
Lemma plain_right : forall h w v, right_size h w 1 (plain h w v).
Proof. intros. split; [reflexivity|]. cbn [data plain filled]. rewrite repeat_length. cbn. lia. Qed.
Lemma plain_value : forall h w v y x, (y < h)%nat -> (x < w)%nat -> value w 1 (plain h w v) y x 0 = v.
Proof.
  intros h w v y x Y X. unfold value, plain, filled. cbn [data]. apply (repeat_spec (size [h; w])). apply nth_In. rewrite repeat_length. cbn [size fold_right]. nia.
Qed.
(** Two images of 10 by 10 pixels of value 2/10 and 4/10 and brightness 30, contrast 10 *)
Example two_levels : exists t, train level_law 10 10 1 [] 1 [(plain 10 10 (2 / 10), plain 10 10 1); (plain 10 10 (4 / 10), plain 10 10 1)] = Some t /\
  exists out, develop 10 10 1 t 30 10 (plain 10 10 (4 / 10)) (plain 10 10 1) = Some out /\ value 10 1 out 3 7 0 = 4 / 10.
Proof.
  destruct (C255_pixel level_law 10 10 1 [] 1 [(plain 10 10 (2 / 10), plain 10 10 1); (plain 10 10 (4 / 10), plain 10 10 1)]) as (t & T & P); try (cbn [length]; lia); [intros d i []| |].
  { intros i [<-|[<-|[]]]; (split; apply plain_right). }
  exists t. split; [exact T|]. destruct (P 30 10 (plain 10 10 (4 / 10)) (plain 10 10 1) (plain_right _ _ _) (plain_right _ _ _)) as (out & D & _ & V).
  exists out. split; [exact D|]. rewrite V by lia. unfold rescaled, history. rewrite level_evened. cbn [map]. rewrite !level_evened. cbn [fst]. rewrite !plain_value by lia.
  rewrite kept_all by (intros v [<-|[<-|[]]]; lra). cbn [app].
  assert (average [2 / 10; 4 / 10] = 3 / 10) as -> by (unfold average, total; cbn [fold_right length INR]; lra).
  assert (deviation [2 / 10; 4 / 10] = 1 / 10) as ->.
  { unfold deviation, squares. assert (average [2 / 10; 4 / 10] = 3 / 10) as -> by (unfold average, total; cbn [fold_right length INR]; lra).
    unfold total. cbn [map fold_right length INR]. rewrite <- (sqrt_square (1 / 10)) by lra. f_equal. lra. }
  rewrite Rmax_right by lra. unfold bounded. rewrite Rmin_right by lra. rewrite Rmax_right; lra.
Qed.
Example jobs_example : (jobs 8000000000 1000000000 12 = 11 /\ jobs 3000000000 1000000000 12 = 6 /\ jobs 500000 1000000000 12 = 1)%Z.
Proof. vm_compute. auto. Qed.
Example drawn_example : drawn 3 6 = [(0, 0); (1, 2); (2, 4)]%nat.
Proof. reflexivity. Qed.

(** ** C256 *)
(** Pixels that are bright in the training images (corrected values above 0.95) count as black: the developed training images come out white, not of the brightness asked for. *)
Theorem C256_bright_refuted : exists fit h w c bins target images t brightness contrast outs y x ch,
  (100 <= h * w)%nat /\ (y < h)%nat /\ (x < w)%nat /\ (ch < c)%nat /\
  (forall i, In i images -> right_size h w c (fst i) /\ right_size h w 1 (snd i)) /\
  train fit h w c bins target images = Some t /\ brightness = 30 /\
  Forall2 (fun i o => develop h w c t brightness contrast (fst i) (snd i) = Some o) images outs /\
  average (map (fun o => value w c o y x ch) outs) = 1.
Proof.
  set (i := (plain 10 10 1, plain 10 10 1)).
  destruct (C255_pixel level_law 10 10 1 [] 1 [i; i]) as (t & T & P); try (cbn [length]; lia); [intros ? ? []| |].
  { intros j [<-|[<-|[]]]; (split; apply plain_right). }
  destruct (P 30 10 (fst i) (snd i) (plain_right _ _ _) (plain_right _ _ _)) as (out & D & _ & V).
  exists level_law, 10%nat, 10%nat, 1%nat, [], 1, [i; i], t, 30, 10, [out; out], 0%nat, 0%nat, 0%nat.
  split; [lia|]. split; [lia|]. split; [lia|]. split; [lia|]. split; [intros j [<-|[<-|[]]]; (split; apply plain_right)|]. split; [exact T|]. split; [reflexivity|].
  split; [repeat constructor; exact D|]. cbn [map]. rewrite V by lia. unfold rescaled, history. rewrite level_evened. cbn [map]. rewrite !level_evened. cbn [fst i]. rewrite !plain_value by lia.
  assert (kept [] [1; 1] = [0; 0]) as ->.
  { cbn [kept app]. destruct (Rlt_dec (95 / 100) 1) as [_|]; [|lra]. assert (average [] = 0) as -> by (unfold average, total; cbn [fold_right length INR]; unfold Rdiv; ring).
    assert (average [0] = 0) as -> by (unfold average, total; cbn [fold_right length INR]; field). reflexivity. }
  assert (average [0; 0] = 0) as E by (unfold average, total; cbn [fold_right length INR]; field).
  assert (deviation [0; 0] = 0) as ->.
  { unfold deviation, squares. rewrite E. unfold total. cbn [map fold_right length INR]. transitivity (sqrt 0); [f_equal; field|apply sqrt_0]. }
  rewrite E, Rmax_left by lra. unfold bounded. rewrite Rmin_left by lra. rewrite Rmax_right by lra. unfold average, total. cbn [fold_right length INR]. field.
Qed.
Print Assumptions C256_bright_refuted.
(** Images of fewer than 100 pixels cannot be trained on (the step of the plotted pixels is 0). *)
Theorem C256_small_refuted : exists fit h w c bins target images, (2 <= h)%nat /\ (2 <= w)%nat /\ (2 <= length images)%nat /\
  (forall i, In i images -> right_size h w c (fst i) /\ right_size h w 1 (snd i)) /\ train fit h w c bins target images = None.
Proof.
  exists level_law, 9%nat, 11%nat, 1%nat, [], 1, [(plain 9 11 (2 / 10), plain 9 11 1); (plain 9 11 (4 / 10), plain 9 11 1)].
  split; [lia|]. split; [lia|]. split; [cbn; lia|]. split; [intros i [<-|[<-|[]]]; (split; apply plain_right)|]. reflexivity.
Qed.
Print Assumptions C256_small_refuted.
(** One processor: no job at all (joblib refuses n_jobs = 0), with memory enough. *)
Theorem C256_one_cpu_refuted : exists available required, (0 < required <= available /\ jobs available required 1 = 0)%Z.
Proof. exists 2%Z, 1%Z. vm_compute. repeat split; discriminate. Qed.
Print Assumptions C256_one_cpu_refuted.
(** Rows without a figure in a high image *)
Theorem C256_figures_refuted : exists h w y, (0 < w)%nat /\ (y < h)%nat /\ forall x, ~ In (y, x) (drawn h w).
Proof.
  exists 8%nat, 2%nat, 7%nat. split; [lia|]. split; [lia|]. intros x I. apply drawn_in in I. destruct I as (_ & X & E). vm_compute in E. lia.
Qed.
Print Assumptions C256_figures_refuted.
(** Images one pixel wide come out as wide as they are high. *)
Theorem C256_width_refuted : exists fit h w c bins target images t brightness contrast img dist out,
  right_size h w c img /\ right_size h w 1 dist /\ In (img, dist) images /\ (forall i, In i images -> right_size h w c (fst i) /\ right_size h w 1 (snd i)) /\
  train fit h w c bins target images = Some t /\ develop h w c t brightness contrast img dist = Some out /\ shape out <> shape img.
Proof.
  set (i := (plain 100 1 (1 / 2), plain 100 1 1)). set (im := mkarray [0; 100; 1]%nat []). set (dm := mkarray [0; 100]%nat []).
  assert (forall j, In j [i; i] -> right_size 100 1 1 (fst j) /\ right_size 100 1 1 (snd j)) as G by (intros j [<-|[<-|[]]]; (split; apply plain_right)).
  destruct (correct_at level_law 100 1 1 [] im dm 1 i (Forall_nil _) eq_refl eq_refl ltac:(lia) (plain_right _ _ _) (plain_right _ _ _)) as (r & E & (SR & LR) & _).
  set (p := attenuation_parameters level_law 100 1 1 im dm) in *. set (g := correction_gains 100 1 1 1 p) in *. cbn [flat_shape Nat.eqb] in SR, LR.
  assert (size [100; 1]%nat = 100%nat) as S1 by reflexivity. rewrite S1 in LR. clear S1.
  assert (like [100%nat] (squeeze r)) as L by (split; [unfold squeeze; cbn [shape]; rewrite SR; reflexivity|exact LR]).
  assert (tracks [100%nat] (new_runner 100 1 1) (fun _ => [])) as N.
  { split; [split; reflexivity|]. split; [split; reflexivity|]. intros idx _. split; [reflexivity|]. unfold get. cbn [r_mean r_mean2 new_runner squeeze filled data].
    rewrite nth_zero. unfold average, squares, total. cbn [map fold_right length]. split; [unfold Rdiv; ring|reflexivity]. }
  destruct (run_tracks [100%nat] [r; r] _ _ N ltac:(repeat constructor; apply L)) as (r' & ER & CR & ((SM & LM) & (S2 & L2) & _)).
  cbn [r_count new_runner length Nat.add] in CR.
  set (mean := mkarray [100; 1; 1]%nat (data (r_mean r'))). set (std := mkarray [100; 1; 1]%nat (data (mapped (std_of 2) (r_mean2 r')))).
  exists level_law, 100%nat, 1%nat, 1%nat, [], 1, [i; i], (mktrained p g mean std), 30, 10, (fst i), (snd i).
  assert (develop 100 1 1 (mktrained p g mean std) 30 10 (fst i) (snd i) = pixel_stat r (squeeze mean) (squeeze std) 30 10) as D by (unfold develop; cbn [t_params t_gains t_mean t_std]; now rewrite E).
  unfold pixel_stat, broadcast in D. cbn [shape squeeze mean std] in D. rewrite SR in D. cbn [filter Nat.eqb negb rev app common_shape option_map shape build] in D.
  rewrite D. eexists. split; [apply plain_right|]. split; [apply plain_right|]. split; [now left|]. split; [exact G|]. split; [|split; [reflexivity|discriminate]].
  unfold train. cbn [images_map distances_map each length concat]. change (mkarray [0; 100 * 1; 1]%nat []) with im. change (mkarray [0; 100 * 1]%nat []) with dm. fold p.
  change (100 * 1 / 100 =? 0)%nat with false. cbv iota. fold g. cbn [each]. rewrite E. rewrite ER, CR. cbn [Nat.ltb Nat.leb].
  unfold reshape. cbn [mapped data]. rewrite map_length, LM, L2. reflexivity.
Qed.
Print Assumptions C256_width_refuted.
