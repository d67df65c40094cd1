(** Arrays of TrainModel: what the operations do to the element at a valid index. *)
From Coq Require Import Reals List Arith Lia Lra Psatz.
From Verif Require Import TrainModel.
Import ListNotations.
Open Scope R_scope.

Definition valid (sh idx : list nat) : Prop := Forall2 (fun n i => (i < n)%nat) sh idx.
Definition like (sh : list nat) (a : array) : Prop := shape a = sh /\ length (data a) = size sh.

Lemma nth_concat {A} : forall (n : nat) (rows : list (list A)) i j d, (forall r, In r rows -> length r = n) -> (i < length rows)%nat -> (j < n)%nat ->
  nth (i * n + j) (concat rows) d = nth j (nth i rows []) d.
Proof.
  intros n rows. induction rows as [|r rows IH]; intros i j d L I J; cbn [length] in I; [lia|]. cbn [concat].
  assert (length r = n) as E by (apply L; now left). destruct i as [|i]; cbn [nth Nat.mul Nat.add].
  - rewrite app_nth1 by lia. reflexivity.
  - rewrite app_nth2 by lia. replace (n + i * n + j - length r)%nat with (i * n + j)%nat by lia. apply IH; [|lia|lia]. intros; apply L; now right.
Qed.
Lemma concat_length {A} : forall (n : nat) (rows : list (list A)), (forall r, In r rows -> length r = n) -> length (concat rows) = (length rows * n)%nat.
Proof. intros n rows. induction rows as [|r rows IH]; intros L; [reflexivity|]. cbn [concat length]. rewrite app_length, IH, (L r); [lia|now left|]. intros; apply L; now right. Qed.
Lemma indices_length : forall sh, length (indices sh) = size sh.
Proof.
  induction sh as [|n sh IH]; [reflexivity|]. cbn [indices]. rewrite flat_map_concat_map, (concat_length (size sh)).
  - now rewrite map_length, seq_length.
  - intros r H. apply in_map_iff in H. destruct H as (i & <- & _). now rewrite map_length, IH.
Qed.
Lemma flat_bound : forall sh idx, valid sh idx -> (flat sh idx < size sh)%nat.
Proof.
  intros sh idx V. induction V as [|n i sh idx L V IH]; [cbn; lia|]. cbn [flat size fold_right]. fold (size sh). nia.
Qed.
Lemma nth_indices : forall sh idx, valid sh idx -> nth (flat sh idx) (indices sh) [] = idx.
Proof.
  intros sh idx V. induction V as [|n i sh idx L V IH]; [reflexivity|]. cbn [flat indices]. pose proof (flat_bound _ _ V) as B.
  rewrite flat_map_concat_map, (nth_concat (size sh)); [|intros r H; apply in_map_iff in H; destruct H as (k & <- & _); now rewrite map_length, indices_length|now rewrite map_length, seq_length|exact B].
  rewrite (nth_indep _ [] (map (cons 0%nat) (indices sh))) by now rewrite map_length, seq_length.
  rewrite (map_nth (fun k => map (cons k) (indices sh))), seq_nth by exact L.
  rewrite (nth_indep _ [] (cons (0 + i)%nat [])) by now rewrite map_length, indices_length. rewrite map_nth, IH. reflexivity.
Qed.
Lemma build_like : forall sh f, like sh (build sh f).
Proof. intros. split; [reflexivity|]. cbn [data build]. now rewrite map_length, indices_length. Qed.
Lemma get_build : forall sh f idx, valid sh idx -> get (build sh f) idx = f idx.
Proof.
  intros sh f idx V. unfold get. cbn [shape data build]. rewrite (nth_indep _ 0 (f [])) by (rewrite map_length, indices_length; now apply flat_bound).
  now rewrite map_nth, nth_indices.
Qed.
Lemma common_same : forall sh, common_shape sh sh = Some sh.
Proof. induction sh as [|n sh IH]; [reflexivity|]. cbn [common_shape]. now rewrite IH, Nat.eqb_refl. Qed.
Lemma pick_valid : forall sh idx, valid sh idx -> pick sh idx = idx.
Proof. intros sh idx V. induction V as [|n i sh idx L V IH]; [reflexivity|]. cbn [pick]. rewrite IH. destruct (Nat.eqb_spec n 1); [|reflexivity]. f_equal. lia. Qed.
Lemma valid_length : forall sh idx, valid sh idx -> length sh = length idx.
Proof. intros sh idx V. induction V; cbn [length]; congruence. Qed.
Lemma seen_valid : forall sh a idx, like sh a -> valid sh idx -> seen a idx = get a idx.
Proof.
  intros sh a idx (S & _) V. unfold seen. rewrite S. rewrite (valid_length _ _ V), Nat.sub_diag. cbn [skipn]. now rewrite pick_valid.
Qed.
Lemma broadcast_same : forall f sh a b, like sh a -> like sh b ->
  exists r, broadcast f a b = Some r /\ like sh r /\ forall idx, valid sh idx -> get r idx = f (get a idx) (get b idx).
Proof.
  intros f sh a b A B. unfold broadcast. destruct A as (SA & LA), B as (SB & LB). rewrite SA, SB, common_same. cbn [option_map]. rewrite rev_involutive.
  eexists. split; [reflexivity|]. split; [apply build_like|]. intros idx V. rewrite get_build by exact V. now rewrite !(seen_valid sh).
Qed.
Lemma in_place_same : forall f sh a b, like sh a -> like sh b ->
  exists r, in_place f a b = Some r /\ like sh r /\ forall idx, valid sh idx -> get r idx = f (get a idx) (get b idx).
Proof.
  intros f sh a b A B. destruct (broadcast_same f sh a b A B) as (r & E & L & G). unfold in_place. rewrite E. destruct A as (SA & _). rewrite SA.
  destruct L as (SL & LL). rewrite SL. destruct (list_eq_dec Nat.eq_dec sh sh) as [_|N]; [|congruence]. exists r. repeat split; auto.
Qed.
Lemma mapped_like : forall f sh a, like sh a -> like sh (mapped f a).
Proof. intros f sh a (S & L). split; [exact S|]. cbn [data mapped]. now rewrite map_length. Qed.
Lemma get_mapped : forall f sh a idx, like sh a -> valid sh idx -> get (mapped f a) idx = f (get a idx).
Proof.
  intros f sh a idx (S & L) V. unfold get. cbn [shape data mapped]. rewrite S. rewrite (nth_indep _ 0 (f 0)) by (rewrite map_length, L; now apply flat_bound). apply map_nth.
Qed.
Lemma filled_like : forall sh x, like sh (filled sh x).
Proof. intros. split; [reflexivity|]. apply repeat_length. Qed.
Lemma nth_combine : forall (A B : Type) (l : list A) (m : list B) i a b, length l = length m -> nth i (combine l m) (a, b) = (nth i l a, nth i m b).
Proof. intros. now apply combine_nth. Qed.

Lemma each_some {A B} : forall (f : A -> option B) (g : A -> B) l, (forall x, In x l -> f x = Some (g x)) -> each f l = Some (map g l).
Proof.
  intros f g l. induction l as [|x l IH]; intros H; [reflexivity|]. cbn [each map]. rewrite H by now left. rewrite IH; [reflexivity|]. intros; apply H; now right.
Qed.
Lemma each_rel {A B} : forall (f : A -> option B) (P : A -> B -> Prop) l, (forall x, In x l -> exists y, f x = Some y /\ P x y) -> exists ys, each f l = Some ys /\ Forall2 P l ys.
Proof.
  intros f P l. induction l as [|x l IH]; intros H; [exists []; split; [reflexivity|constructor]|]. destruct (H x (or_introl eq_refl)) as (y & E & Y).
  destruct IH as (ys & F & R); [intros; apply H; now right|]. exists (y :: ys). cbn [each]. rewrite E, F. split; [reflexivity|now constructor].
Qed.

(** Shapes of the camera: without the dimensions of size 1. *)
Definition flat_shape (h w c : nat) : list nat := if (c =? 1)%nat then [h; w] else [h; w; c].
Definition at_pixel (c y x ch : nat) : list nat := if (c =? 1)%nat then [y; x] else [y; x; ch].
Lemma at_valid : forall h w c y x ch, (y < h)%nat -> (x < w)%nat -> (ch < c)%nat -> valid (flat_shape h w c) (at_pixel c y x ch).
Proof. intros. unfold flat_shape, at_pixel, valid. destruct (c =? 1)%nat; repeat constructor; auto. Qed.
Lemma flat_size : forall h w c, size (flat_shape h w c) = (h * w * c)%nat.
Proof. intros. unfold flat_shape. destruct (Nat.eqb_spec c 1) as [->|_]; cbn [size fold_right]; lia. Qed.
Lemma flat_at : forall h w c y x ch, (ch < c)%nat -> flat (flat_shape h w c) (at_pixel c y x ch) = ((y * w + x) * c + ch)%nat.
Proof. intros. unfold flat_shape, at_pixel. destruct (Nat.eqb_spec c 1) as [->|_]; cbn [flat size fold_right]; nia. Qed.
Lemma squeeze_flat : forall h w c a, h <> 1%nat -> w <> 1%nat -> like (flat_shape h w c) a -> squeeze a = a.
Proof.
  intros h w c [sh d] H W (S & L). cbn [shape] in S. subst sh. unfold squeeze. cbn [shape data]. f_equal. unfold flat_shape.
  apply Nat.eqb_neq in H, W. destruct (c =? 1)%nat eqn:C; cbn [filter]; rewrite ?H, ?W, ?C; reflexivity.
Qed.
Lemma squeeze_shape : forall h w c d, h <> 1%nat -> w <> 1%nat -> squeeze (mkarray [h; w; c] d) = mkarray (flat_shape h w c) d.
Proof.
  intros h w c d H W. unfold squeeze, flat_shape. cbn [shape data]. f_equal. apply Nat.eqb_neq in H, W. cbn [filter]. rewrite H, W. now destruct (c =? 1)%nat.
Qed.
