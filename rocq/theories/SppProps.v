(** C38: the SLAM export; C70: its edges. *)
From Coq Require Import Ascii String.
From Verif Require Import PyBase NmeaModel CsvModel SppModel.

(** ** Specification *)
(** x, y, z, roll, pitch, yaw to x, y, z, yaw, pitch, roll. *)
Definition perm (i : nat) : nat := match i with 3 => 5 | 5 => 3 | _ => i end%nat.
(** The places on and above the diagonal, row by row. *)
Definition upper : list (nat * nat) := flat_map (fun i => map (fun j => (i, j)) (seq i (6 - i))) (seq 0 6).
(** Where entry (i, j), i <= j < 6, is in that list. *)
Definition place (i j : nat) : nat := (i * (13 - i) / 2 + (j - i))%nat.

Theorem C38_upper_triangle : forall A (d : A) m, spp_row d m = map (fun ij => m (perm (fst ij)) (perm (snd ij))) upper.
Proof. reflexivity. Qed.
Print Assumptions C38_upper_triangle.

(** [upper] is what it says: every pair i <= j < 6, once. *)
Theorem C38_exactly_once : length upper = 21%nat /\ NoDup upper /\ forall i j, In (i, j) upper <-> (i <= j /\ j < 6)%nat.
Proof.
  split; [reflexivity|]. split.
  - vm_compute. repeat (constructor; [cbn; intuition discriminate|]). constructor.
  - intros i j. unfold upper. rewrite in_flat_map. split.
    + intros (k & I & J). apply in_seq in I. apply in_map_iff in J as (l & E & J). apply in_seq in J. injection E as -> ->. lia.
    + intros [H1 H2]. exists i. split; [apply in_seq; lia|]. apply in_map_iff. exists j. split; [reflexivity|]. apply in_seq. lia.
Qed.
Print Assumptions C38_exactly_once.

(** The whole symmetric matrix can be read back. *)
Theorem C38_recover : forall A (d : A) m, (forall i j, m i j = m j i) -> forall i j, (i < 6 -> j < 6 ->
  m (perm i) (perm j) = nth (place (Nat.min i j) (Nat.max i j)) (spp_row d m) d)%nat.
Proof.
  intros A d m S i j Hi Hj. rewrite C38_upper_triangle.
  do 6 (destruct i as [|i]; [do 6 (destruct j as [|j]; [try reflexivity; apply S|]); lia|]). lia.
Qed.
Print Assumptions C38_recover.
(** Different information matrices give different rows. *)
Theorem C38_injective : forall A (d : A) m n, (forall i j, m i j = m j i) -> (forall i j, n i j = n j i) ->
  spp_row d m = spp_row d n -> forall i j, (i < 6 -> j < 6 -> m i j = n i j)%nat.
Proof.
  intros A d m n Sm Sn E i j Hi Hj.
  assert (forall k, (k < 6)%nat -> perm (perm k) = k /\ (perm k < 6)%nat) as P.
  { intros k Hk. do 6 (destruct k as [|k]; [cbn; lia|]). lia. }
  destruct (P i Hi) as [Ei Li], (P j Hj) as [Ej Lj]. rewrite <- Ei, <- Ej.
  rewrite (C38_recover A d m Sm), (C38_recover A d n Sn), E by assumption. reflexivity.
Qed.
Print Assumptions C38_injective.

(** ** C70: edges *)
(** The edges make one chain 0 -> 1 -> 2 ... *)
Definition chain (e : list (Z * Z)) : Prop := forall i a b, nth_error e i = Some (a, b) -> a = Z.of_nat i /\ b = (Z.of_nat i + 1)%Z.

Lemma edges_from_spec : forall o files e, edges_from o files = Some e ->
  length e = length files /\ forall i f, nth_error files i = Some f -> exists n, number f = Some n /\ nth_error e i = Some (n - o, n - o + 1)%Z.
Proof.
  induction files as [|f files IH]; intros e H; cbn [edges_from] in H.
  - assert (e = []) as -> by congruence. split; [reflexivity|]. intros [|i] f E; discriminate.
  - destruct (number f) as [n|] eqn:N; [|discriminate]. destruct (edges_from o files) as [e'|]; [|discriminate].
    assert (e = (n - o, n - o + 1)%Z :: e') as -> by congruence. destruct (IH _ eq_refl) as [L S]. split; [cbn; now rewrite L|].
    intros [|i] g E; cbn [nth_error] in *.
    + assert (g = f) as -> by congruence. now exists n.
    + now apply S.
Qed.
Lemma edges_from_some : forall o files, (forall f, In f files -> number f <> None) -> edges_from o files <> None.
Proof.
  induction files as [|f files IH]; intros H; cbn [edges_from]; [discriminate|].
  destruct (number f) eqn:N; [|exfalso; apply (H f); [now left|exact N]].
  destruct (edges_from o files) eqn:E; [discriminate|]. exfalso. apply IH; [|reflexivity]. intros g I. apply H. now right.
Qed.
Theorem C70_chain : forall files n0, (2 <= length files)%nat ->
  (forall i f, nth_error files i = Some f -> number f = Some (n0 + Z.of_nat i)%Z) ->
  exists e, edges files = Some e /\ length e = length files /\ chain e.
Proof.
  intros files n0 L H. destruct files as [|f [|g files]]; try (cbn in L; lia).
  unfold edges. pose proof (H 0%nat f eq_refl) as H0. rewrite H0. rewrite Z.add_0_r.
  destruct (edges_from n0 (f :: g :: files)) as [e|] eqn:E.
  - exists e. destruct (edges_from_spec _ _ _ E) as [LE S]. split; [reflexivity|]. split; [exact LE|].
    intros i a b N. destruct (nth_error (f :: g :: files) i) as [h|] eqn:F.
    + destruct (S i h F) as (n & N1 & N2). rewrite (H i h F) in N1. assert (n = n0 + Z.of_nat i)%Z as -> by congruence.
      rewrite N in N2. injection N2 as -> ->. lia.
    + apply nth_error_None in F. assert (nth_error e i <> None) as C by congruence. apply nth_error_Some in C. lia.
  - exfalso. revert E. apply edges_from_some. intros h I. apply In_nth_error in I as [i I]. rewrite (H i h I). discriminate.
Qed.
Print Assumptions C70_chain.
(** One image missing from the sequence and the graph falls apart: nothing reaches the
    node after the gap. *)
Theorem C170_gap_refuted : exists files e, edges files = Some e /\ (2 <= length files)%nat /\ ~ chain e /\
  exists a b, In (a, b) e /\ (0 < a)%Z /\ ~ (exists c, In (c, a) e).
Proof.
  exists (map txt ["a/0000001.tif"; "a/0000002.tif"; "a/0000005.tif"]%string), [(0, 1); (1, 2); (4, 5)]%Z.
  split; [vm_compute; reflexivity|]. split; [cbn; lia|]. split.
  - intros C. destruct (C 2%nat 4%Z 5%Z eq_refl) as [E _]. discriminate.
  - exists 4%Z, 5%Z. split; [cbn; tauto|]. split; [lia|]. intros [c I]. cbn in I. intuition congruence.
Qed.
Print Assumptions C170_gap_refuted.
(** File names that do not end in seven digits stop the export. *)
Theorem C170_names_refuted : exists files, (2 <= length files)%nat /\ edges files = None.
Proof. exists (map txt ["a/20180101_1_LC16.tif"; "a/20180101_2_LC16.tif"]%string). split; [cbn; lia|vm_compute; reflexivity]. Qed.
Print Assumptions C170_names_refuted.

(** The exported displacement is exactly the reverse of the motion to the next image; the
    information is that of the next image; the last image has no edge. *)
Theorem C70_displacement : forall l, length (relative l) = (length l - 1)%nat /\
  forall i a b, nth_error l i = Some a -> nth_error l (S i) = Some b ->
    nth_error (relative l) i = Some (mkpose (at_ a - at_ b) (info b)).
Proof.
  induction l as [|x l [L IH]]; [split; [reflexivity|intros [|i] a b E; discriminate]|]. destruct l as [|y l].
  - split; [reflexivity|]. intros i a b _ E. destruct i as [|i]; cbn in E; [discriminate|]. destruct i; discriminate.
  - change (relative (x :: y :: l)) with (mkpose (at_ x - at_ y) (info y) :: relative (y :: l)). split.
    + cbn [length] in *. rewrite L. lia.
    + intros [|i] a b E F.
      * cbn [nth_error] in E, F. assert (a = x /\ b = y) as [-> ->] by (split; congruence). reflexivity.
      * cbn [nth_error]. apply IH; assumption.
Qed.
Print Assumptions C70_displacement.
Theorem C170_sign_refuted : exists l a b r, nth_error l 0 = Some a /\ nth_error l 1 = Some b /\ nth_error (relative l) 0 = Some r /\
  ~ (at_ a + at_ r == at_ b)%Q.
Proof.
  exists [mkpose 1 0; mkpose 3 1], (mkpose 1 0), (mkpose 3 1), (mkpose (1 - 3) 1). repeat split. cbn. unfold Qeq. cbn. discriminate.
Qed.
Print Assumptions C170_sign_refuted.

Example C38_example : spp_row 0%nat (fun i j => 100 * Nat.min i j + Nat.max i j)%nat =
  [0; 1; 2; 5; 4; 3; 101; 102; 105; 104; 103; 202; 205; 204; 203; 505; 405; 305; 404; 304; 303]%nat.
Proof. vm_compute. reflexivity. Qed.
Example C70_example : edges (map txt ["a/0000011.tif"; "a/0000012.tif"; "a/0000013.tif"]%string) = Some [(0, 1); (1, 2); (2, 3)]%Z /\
  map at_ (relative [mkpose 1 0; mkpose 3 1; mkpose 7 2]) = [1 - 3; 3 - 7]%Q.
Proof. split; vm_compute; reflexivity. Qed.
