(** C301, C302: the size that the corrector takes for a camera's images. *)
From Coq Require Import List NArith String Bool Lia.
From Verif Require Import ImgSizeModel.
Import ListNotations.
Open Scope string_scope.
Open Scope list_scope.

(** ** Specification *)
(** Rows, columns and channels of an image *)
Inductive measures : shape -> N * N * N -> Prop :=
| grey : forall h w, measures [h; w] (h, w, 1%N)
| colour : forall h w c, measures [h; w; c] (h, w, c).
(** [a] is the first of [l] with [P]. *)
Definition first_with {A} (P : A -> Prop) (a : A) (l : list A) : Prop := exists l1 l2, l = l1 ++ a :: l2 /\ P a /\ forall b, In b l1 -> ~ P b.
Definition on (topic : string) (m : string * shape) : Prop := fst m = topic.
Definition has (topic : string) (f : file) : Prop := match f with Bag msgs => exists m, In m msgs /\ on topic m | Picture _ => False end.

Lemma find_first : forall A (p : A -> bool) (P : A -> Prop), (forall a, p a = true <-> P a) -> forall l a, find p l = Some a <-> first_with P a l.
Proof.
  intros A p P E. induction l as [|b l IH]; intros a; cbn.
  - split; [discriminate|]. intros ([|] & l2 & X & _); discriminate X.
  - destruct (p b) eqn:K.
    + split.
      * intros X. injection X as <-. exists [], l. repeat split; [now apply E|intros ? []].
      * intros ([|c l1] & l2 & X & Pa & N); injection X as -> ->; [reflexivity|]. exfalso. apply (N c); [now left|]. now apply E.
    + rewrite IH. split.
      * intros (l1 & l2 & -> & Pa & N). exists (b :: l1), l2. repeat split; [exact Pa|]. intros c [ -> |I]; [|now apply N]. intros X. apply E in X. now rewrite X in K.
      * intros ([|c l1] & l2 & X & Pa & N); injection X as -> ->; [apply E in Pa; now rewrite Pa in K|]. exists l1, l2. repeat split; [exact Pa|]. intros e I. apply N. now right.
Qed.
Lemma size_measures : forall s h w c, measures s (h, w, c) -> get_image_size s = Ok [h; w; c].
Proof. intros s h w c M. inversion M; reflexivity. Qed.

(** ** C301 *)
(** An image file's size is that of the first image, in the order of the list. *)
Theorem C301_pictures : forall name own ext mission s rest h w c, In ext ["tif"; "jpg"; "JPG"; "png"; "PNG"] -> measures s (h, w, c) ->
  set_up name own ext mission (Picture s :: rest) = Ok (h, w, c).
Proof.
  intros name own ext mission s rest h w c E M. apply size_measures in M.
  cbn in E. repeat destruct E as [ <- |E]; try (now destruct E); unfold set_up; cbn; now rewrite M.
Qed.
Print Assumptions C301_pictures.

(** The size is that of all images if they are of one size. *)
Theorem C301_all : forall name own ext mission images h w c, In ext ["tif"; "jpg"; "JPG"; "png"; "PNG"] -> images <> [] ->
  (forall f, In f images -> exists s, f = Picture s /\ measures s (h, w, c)) ->
  exists size, set_up name own ext mission images = Ok size /\ forall f, In f images -> exists s, f = Picture s /\ measures s size.
Proof.
  intros name own ext mission images h w c E N A. destruct images as [|f l]; [now destruct N|]. destruct (A f (or_introl eq_refl)) as (s & -> & M).
  exists (h, w, c). split; [now apply C301_pictures|exact A].
Qed.
Print Assumptions C301_all.

(** In bags, the size is that of the first message with the camera's topic, in the first bag with such a message. *)
Theorem C301_bags : forall name own mission bagfiles msgs m h w c, (forall f, In f bagfiles -> exists l, f = Bag l) ->
  first_with (has (topic_of name own mission)) (Bag msgs) bagfiles -> first_with (on (topic_of name own mission)) m msgs -> measures (snd m) (h, w, c) ->
  set_up name own "bag" mission bagfiles = Ok (h, w, c).
Proof.
  intros name own mission bagfiles msgs m h w c A (l1 & l2 & -> & P & N) F M. unfold set_up. set (t := topic_of name own mission) in *. clearbody t.
  apply size_measures in M.
  assert (forall before, bags t before (l1 ++ Bag msgs :: l2) = Ok [h; w; c]) as E.
  { intros before. induction l1 as [|f l1 IH]; cbn [bags app rosbag_image_loader].
    - assert (find (fun m => fst m =? t) msgs = Some m) as -> by (apply (find_first _ _ (on t)); [intros a; apply String.eqb_eq|exact F]). exact M.
    - destruct (A f (or_introl eq_refl)) as [l ->]. cbn [rosbag_image_loader].
      assert (find (fun m => fst m =? t) l = None) as ->.
      { destruct (find (fun m => fst m =? t) l) as [m'|] eqn:K; [|reflexivity]. apply find_some in K as [I K]. apply String.eqb_eq in K. exfalso.
        apply (N (Bag l)); [now left|]. now exists m'. }
      cbn. apply IH; [intros f I; apply A; now right|intros f I; apply N; now right]. }
  unfold image_properties. destruct (l1 ++ Bag msgs :: l2) as [|f l] eqn:K; [now destruct l1|]. cbn [String.eqb Ascii.eqb Bool.eqb orb]. rewrite E. reflexivity.
Qed.
Print Assumptions C301_bags.

(** Raw images are taken for 1024 rows of 1280 grey pixels. *)
Theorem C301_raw : forall name own mission f rest, set_up name own "raw" mission (f :: rest) = Ok (1024, 1280, 1)%N.
Proof. reflexivity. Qed.
Print Assumptions C301_raw.
(** The topic is that of the mission's first camera of the name that has one, and otherwise the camera's own. *)
Theorem C301_topic : forall name own mission t, topic_of name own mission = t <->
  (exists n, first_with (fun c => fst c = name /\ snd c <> None) (n, Some t) mission) \/ ((forall c, In c mission -> fst c = name -> snd c = None) /\ t = own).
Proof.
  intros name own mission t. unfold topic_of.
  set (p := fun c : string * option string => (fst c =? name) && match snd c with Some _ => true | None => false end).
  assert (forall a, p a = true <-> (fst a = name /\ snd a <> None)) as E.
  { intros [n o]. unfold p. cbn. rewrite andb_true_iff, String.eqb_eq. destruct o; split; intros [A B]; split; trivial; try discriminate; now destruct B. }
  destruct (find p mission) as [[n [t'|]]|] eqn:K.
  - pose proof (proj1 (find_first _ p _ E mission _) K) as F. split.
    + intros <-. left. now exists n.
    + intros [[n' F']|[A _]].
      * pose proof (proj2 (find_first _ p _ E mission _) F') as K'. rewrite K in K'. now injection K'.
      * destruct F as (l1 & l2 & -> & [X Y] & _). exfalso. apply Y. apply A; [apply in_or_app; right; now left|exact X].
  - apply find_some in K as [_ K]. apply E in K as [_ K]. now destruct K.
  - pose proof (find_none p mission K) as N. split.
    + intros <-. right. split; [|reflexivity]. intros c I X. specialize (N c I). destruct (snd c) eqn:S; [|reflexivity]. assert (p c = true) as Y by (apply E; split; [exact X|now rewrite S]). now rewrite Y in N.
    + intros [[n' F']|[_ ->]]; [|reflexivity]. pose proof (proj2 (find_first _ p _ E mission _) F') as K'. now rewrite K in K'.
Qed.
Print Assumptions C301_topic.

(** ** C302 *)
(** False: "all images of the camera have the size". *)
Theorem C302_sizes_refuted : exists images size s, set_up "c" "c" "png" [] images = Ok size /\ In (Picture s) images /\ forall z, measures s z -> z <> size.
Proof. exists [Picture [4; 6]%N; Picture [8; 6]%N]. do 2 eexists. split; [reflexivity|]. split; [right; now left|]. intros z M. inversion M. discriminate. Qed.
Print Assumptions C302_sizes_refuted.
(** False: "the size of raw images is read". *)
Theorem C302_raw_refuted : exists s z size, measures s z /\ set_up "c" "c" "raw" [] [Picture s] = Ok size /\ size <> z.
Proof. exists [2048; 2560]%N. do 2 eexists. split; [constructor|]. split; [reflexivity|discriminate]. Qed.
Print Assumptions C302_raw_refuted.
(** False: "images with any extension can be corrected": TIFF images called tiff or TIF cannot. *)
Theorem C302_extension_refuted : exists exts, In "tiff" exts /\ In "TIF" exts /\ In "jpeg" exts /\
  forall e name own mission images, In e exts -> set_up name own e mission images = Fails.
Proof.
  exists ["tiff"; "TIF"; "jpeg"]. repeat split; cbn; auto. intros e name own mission images [ <- |[ <- |[ <- |[]]]]; destruct images; reflexivity.
Qed.
Print Assumptions C302_extension_refuted.
(** False: "bags without images of the camera are reported": the corrector fails on an empty list. *)
Theorem C302_empty_refuted : exists bagfiles, bagfiles <> [] /\ image_properties "bag" "/cam" bagfiles [] = Ok [] /\ set_up "cam" "/cam" "bag" [] bagfiles = Fails.
Proof. exists [Bag [("/other", [4; 6]%N)]]. repeat split. discriminate. Qed.
Print Assumptions C302_empty_refuted.

(** ** Examples *)
Example second_bag : set_up "cam" "/own" "bag" [("cam", None); ("cam", Some "/image")] [Bag [("/own", [1; 1]%N)]; Bag [("/imu", []); ("/image", [4; 6; 3]%N); ("/image", [2; 2]%N)]] = Ok (4, 6, 3)%N.
Proof. reflexivity. Qed.
Example own_topic : set_up "cam" "/own" "bag" [("other", Some "/image")] [Bag [("/own", [5; 7]%N)]] = Ok (5, 7, 1)%N.
Proof. reflexivity. Qed.
Example no_images : set_up "cam" "/own" "png" [] [] = Fails.
Proof. reflexivity. Qed.
