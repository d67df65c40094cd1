(** C303, C304: the images on which the laser detections are drawn. *)
From Verif Require Import PyBase DrawModel.
From Coq Require Import NArith.
Open Scope Z_scope.

(** ** Specification *)
(** A pixel is painted for one of the detections. *)
Definition marked (near : Z -> Z -> bool) (ps : list peak) (r c : Z) : Prop :=
  exists y x, In (y, x) ps /\ near (r - py_trunc y) (c - py_trunc x) = true.
(** The picture shows the bottom line over the top line over the image in green. *)
Definition shows (near : Z -> Z -> bool) (i : image) (top bottom : list peak) (k kb : colour) (o : overlay) : Prop :=
  forall r c, (marked near bottom r c -> o r c = kb) /\ (~ marked near bottom r c -> marked near top r c -> o r c = k) /\
              (~ marked near bottom r c -> ~ marked near top r c -> (i r c < 256)%N -> o r c = (0%N, i r c, 0%N)).
Definition shows_pair (near : Z -> Z -> bool) (f : files) (p : pair) : Prop :=
  exists o o', f (l_file p) = Some o /\ f (r_file p) = Some o' /\
    shows near (l_image p) (top_left p) (bottom_left p) (0, 0, 255)%N (255, 0, 127)%N o /\
    shows near (r_image p) (top_right p) (bottom_right p) (255, 0, 0)%N (0, 255, 127)%N o'.
Definition files_of (p : pair) : list Z := [l_file p; r_file p].

Section Draw.
  Variable near : Z -> Z -> bool.
  Lemma fold_marks : forall ps k o r c, (marked near ps r c -> fold_left (fun o p => circle near o p k) ps o r c = k) /\
    (~ marked near ps r c -> fold_left (fun o p => circle near o p k) ps o r c = o r c).
  Proof.
    induction ps as [|[y x] ps IH]; intros k o r c; cbn [fold_left].
    - split; [intros (y & x & [] & _)|reflexivity].
    - specialize (IH k (circle near o (y, x) k) r c). destruct IH as [A B].
      assert (marked near ps r c \/ ~ marked near ps r c) as [M|M].
      { destruct (existsb (fun p => near (r - py_trunc (fst p)) (c - py_trunc (snd p))) ps) eqn:E.
        - left. apply existsb_exists in E as ([y' x'] & I & E). now exists y', x'.
        - right. intros (y' & x' & I & E'). assert (existsb (fun p => near (r - py_trunc (fst p)) (c - py_trunc (snd p))) ps = true) as X by (apply existsb_exists; now exists (y', x')). congruence. }
      + split; [intros _; now apply A|]. intros N. exfalso. apply N. destruct M as (y' & x' & I & E). exists y', x'. split; [now right|exact E].
      + rewrite (B M). unfold circle. cbn [fst snd]. destruct (near (r - py_trunc y) (c - py_trunc x)) eqn:E; split; intros X; try reflexivity.
        * exfalso. apply X. exists y, x. split; [now left|exact E].
        * destruct X as (y' & x' & [I|I] & E'); [injection I as -> ->; congruence|]. exfalso. apply M. now exists y', x'.
  Qed.
  Lemma drawn_shows : forall i top bottom k kb, shows near i top bottom k kb (drawn near i top bottom k kb).
  Proof.
    intros i top bottom k kb r c. unfold drawn. destruct (fold_marks bottom kb (fold_left (fun o p => circle near o p k) top (green i)) r c) as [A B].
    destruct (fold_marks top k (green i) r c) as [C D]. split; [exact A|]. split; [intros N M; now rewrite (B N), (C M)|].
    intros N M S. rewrite (B N), (D M). unfold green. now rewrite N.mod_small.
  Qed.
  Lemma draw_one : forall f p, l_file p <> r_file p -> (f (l_file p) = None \/ f (r_file p) = None) -> shows_pair near (draw_laser near f p) p.
  Proof.
    intros f p D E. unfold shows_pair, draw_laser.
    assert (forall X (a b : X), match f (l_file p), f (r_file p) with Some _, Some _ => a | _, _ => b end = b) as -> by (intros X a b; destruct E as [ -> | -> ]; [reflexivity|now destruct (f (l_file p))]).
    do 2 eexists. unfold put. rewrite Z.eqb_refl. replace (l_file p =? r_file p) with false by (symmetry; now apply Z.eqb_neq).
    rewrite Z.eqb_refl. repeat split; apply drawn_shows; assumption.
  Qed.
  Lemma draw_other : forall f p n, ~ In n (files_of p) -> draw_laser near f p n = f n.
  Proof.
    intros f p n N. unfold draw_laser. assert (n =? l_file p = false /\ n =? r_file p = false) as [A B].
    { split; apply Z.eqb_neq; intros ->; apply N; cbn; auto. }
    destruct (f (l_file p)), (f (r_file p)); unfold put; rewrite ?A, ?B; reflexivity.
  Qed.
  Lemma draw_all_other : forall ps f n, (forall p, In p ps -> ~ In n (files_of p)) -> draw_all near f ps n = f n.
  Proof.
    induction ps as [|p ps IH]; intros f n N; [reflexivity|]. cbn. change (draw_all near (draw_laser near f p) ps n = f n).
    rewrite IH by (intros q I; apply N; now right). apply draw_other, N. now left.
  Qed.
End Draw.

(** ** C303 *)
(** In a folder that has none of the pictures yet, every pair gets its pictures, and they show its detections. *)
Theorem C303_drawn : forall near f ps, NoDup (flat_map files_of ps) -> (forall n, In n (flat_map files_of ps) -> f n = None) ->
  forall p, In p ps -> shows_pair near (draw_all near f ps) p.
Proof.
  intros near f ps. revert f. induction ps as [|q ps IH]; intros f D E p I; [destruct I|].
  change (flat_map files_of (q :: ps)) with (l_file q :: r_file q :: flat_map files_of ps) in *. change (draw_all near f (q :: ps)) with (draw_all near (draw_laser near f q) ps).
  inversion D as [|? ? N1 D1]; subst. inversion D1 as [|? ? N2 D2]; subst.
  destruct I as [ <- |I].
  - assert (forall n, In n (files_of q) -> draw_all near (draw_laser near f q) ps n = draw_laser near f q n) as K.
    { intros n J. apply draw_all_other. intros p' I' J'. assert (In n (flat_map files_of ps)) as X by (apply in_flat_map; now exists p').
      destruct J as [ <- |[ <- |[]]]; [apply N1; now right|now apply N2]. }
    destruct (draw_one near f q) as (o & o' & A & B & S); [intros X; apply N1; left; now symmetry|left; apply E; now left|].
    exists o, o'. rewrite !K by (cbn; auto). now split.
  - apply IH; [exact D2| |exact I]. intros n J. rewrite draw_other; [apply E; right; now right|].
    intros [ <- |[ <- |[]]]; [apply N1; now right|now apply N2].
Qed.
Print Assumptions C303_drawn.
(** Pictures of other images stay as they are, and so do those of a pair that has both. *)
Theorem C303_kept : forall near f ps n, ((forall p, In p ps -> ~ In n (files_of p)) \/ (forall p m, In p ps -> In m (files_of p) -> f m <> None)) ->
  draw_all near f ps n = f n.
Proof.
  intros near f ps n [N|N]; [now apply draw_all_other|]. induction ps as [|p ps IH]; [reflexivity|]. change (draw_all near (draw_laser near f p) ps n = f n).
  assert (draw_laser near f p = f) as ->.
  { unfold draw_laser. pose proof (N p (l_file p) (or_introl eq_refl) (or_introl eq_refl)) as A. pose proof (N p (r_file p) (or_introl eq_refl) (or_intror (or_introl eq_refl))) as B.
    destruct (f (l_file p)); [|now destruct A]. destruct (f (r_file p)); [reflexivity|now destruct B]. }
  apply IH. intros q m I J. apply (N q m); [now right|exact J].
Qed.
Print Assumptions C303_kept.
(** A detection is drawn at the pixel that contains it. *)
Theorem C303_pixel : forall y, (0 <= y)%Q -> (inject_Z (py_trunc y) <= y)%Q /\ (y < inject_Z (py_trunc y + 1))%Q.
Proof.
  intros [n d] P. unfold Qle in P. cbn in P. unfold py_trunc, Qle, Qlt, inject_Z. cbn [Qnum Qden].
  assert (0 <= n) as P' by lia. pose proof (Z.quot_rem' n (Zpos d)) as E. pose proof (Z.rem_bound_pos n (Zpos d) P' eq_refl) as B. nia.
Qed.
Print Assumptions C303_pixel.

(** ** C304 *)
Definition plus (r c : Z) : bool := (Z.abs r + Z.abs c <=? 1).
Definition black : image := fun _ _ => 0%N.
Definition pair_of (y x : Q) : pair := mkpair 1 2 black black [(y, x)] [] [] [].
(** False: "the pictures show the detections of the last run".  They are drawn once, also when the laser is detected again. *)
Theorem C304_stale_refuted : exists near f p p', shows_pair near (draw_all near f [p]) p /\ files_of p = files_of p' /\
  ~ shows_pair near (draw_all near (draw_all near f [p]) [p']) p'.
Proof.
  exists plus, (fun _ => None), (pair_of 10 10), (pair_of 20 20). split; [apply C303_drawn; [cbn; repeat constructor; cbn; intuition discriminate|reflexivity|now left]|]. split; [reflexivity|].
  intros (o & o' & A & B & S & _). assert (A' : draw_all plus (draw_all plus (fun _ => None) [pair_of 10 10]) [pair_of 20 20] 1 = Some (drawn plus black [(10, 10)%Q] [] (0, 0, 255)%N (255, 0, 127)%N)) by reflexivity.
  cbn [pair_of l_file] in A. rewrite A' in A. injection A as <-. destruct (S 20 20) as (_ & C & _).
  discriminate C; [intros (y & x & [] & _)|]. exists 20%Q, 20%Q. split; [now left|reflexivity].
Qed.
Print Assumptions C304_stale_refuted.
(** False: "the image is seen under the detections".  Values of 16 bits lose their upper half. *)
Theorem C304_bits_refuted : exists near (i j : image) o, i 0 0 = 25600%N /\ j 0 0 = 0%N /\ drawn near i [] [] (0, 0, 255)%N (255, 0, 127)%N 0 0 = o /\
  drawn near j [] [] (0, 0, 255)%N (255, 0, 127)%N 0 0 = o.
Proof. exists plus, (fun _ _ => 25600%N), black. eexists. repeat split. Qed.
Print Assumptions C304_bits_refuted.
(** False: "the pictures of two images are two files".  Images of one name in one folder share theirs, and the right one is left. *)
Theorem C304_same_refuted : exists near p, (forall f, f (l_file p) = None -> ~ shows_pair near (draw_all near f [p]) p) /\ l_file p = r_file p.
Proof.
  exists plus, (mkpair 1 1 black black [(10, 10)%Q] [] [] []). split; [|reflexivity]. intros f E (o & o' & A & B & S & _). cbn [draw_all fold_left l_file] in *.
  unfold draw_laser in A. cbn [l_file r_file] in A. rewrite E in A. unfold put in A. cbn in A. injection A as <-.
  destruct (S 10 10) as (_ & C & _). discriminate C; [intros (y & x & [] & _)|]. exists 10%Q, 10%Q. split; [now left|reflexivity].
Qed.
Print Assumptions C304_same_refuted.

(** ** Examples *)
Example cross : let o := drawn plus (fun _ _ => 7%N) [(5 # 2, 7 # 2)%Q] [(4 # 1, 3 # 1)%Q] (0, 0, 255)%N (255, 0, 127)%N in
  (o 2 3, o 3 3, o 4 3, o 2 5) = ((0, 0, 255), (255, 0, 127), (255, 0, 127), (0, 7, 0))%N.
Proof. reflexivity. Qed.
Example half_missing : let f := draw_all plus (fun n => if n =? 1 then Some (green black) else None) [pair_of 3 4] in
  option_map (fun o => o 3 4) (f 1) = Some (0, 0, 255)%N.
Proof. reflexivity. Qed.
