(** C11: raw / processed / configuration folders. *)
From Coq Require Import String.
From Verif Require Import PyBase PathsModel PathsSpec.
Local Open Scope string_scope.

Lemma in_parts_iff name p : in_parts name p = true <-> In name p.
Proof.
  unfold in_parts. rewrite existsb_exists. split.
  - intros (x & Hx & E). apply String.eqb_eq in E. now subst.
  - intro H. exists name. split; [exact H|apply String.eqb_refl].
Qed.

Lemma change_spec pre t post new : ~ In t pre ->
  change_subfolder (pre ++ t :: post)%list t new = (pre ++ new :: post)%list.
Proof.
  induction pre as [|c pre IH]; intro H; cbn.
  - now rewrite String.eqb_refl.
  - destruct (String.eqb_spec c t) as [->|N]; [exfalso; apply H; now left|].
    f_equal. apply IH. intro K. apply H. now right.
Qed.

Lemma not_in_parts pre t post p t' : located t pre post p -> In t' trees -> t' <> t -> in_parts t' p = false.
Proof.
  intros (-> & Ht & Hpre & Hpost) Ht' N. destruct (in_parts t' _) eqn:E; [|reflexivity].
  apply in_parts_iff, in_app_or in E. exfalso. destruct E as [E|[E|E]].
  - now apply (Hpre t' E).
  - congruence.
  - now apply (Hpost t' E).
Qed.

Lemma get_folder_moves t pre post p t' : located t pre post p -> In t' trees ->
  get_folder p t' = Some (pre ++ t' :: post)%list.
Proof.
  intros L Ht'. pose proof L as (Ep & Ht & Hpre & Hpost). unfold get_folder.
  destruct (String.eqb_spec t' t) as [->|N].
  - rewrite (proj2 (in_parts_iff t p)); [now rewrite Ep|]. rewrite Ep. apply in_or_app. right; now left.
  - rewrite (not_in_parts _ _ _ _ t' L Ht' N).
    assert (In_t : in_parts t p = true) by (apply in_parts_iff; rewrite Ep; apply in_or_app; right; now left).
    assert (Npre : ~ In t pre) by (intro K; now apply (Hpre t K)).
    assert (O : forall s, In s trees -> s <> t -> in_parts s p = false) by (intros; eapply not_in_parts; eassumption).
    destruct Ht as [E|[E|[E|[]]]]; subst t.
    + rewrite (O "processed"), In_t by (first [discriminate|cbn; tauto]). rewrite Ep, change_spec; [reflexivity|exact Npre].
    + rewrite In_t. rewrite Ep, change_spec; [reflexivity|exact Npre].
    + rewrite (O "processed"), (O "raw"), In_t by (first [discriminate|cbn; tauto]).
      rewrite Ep, change_spec; [reflexivity|exact Npre].
Qed.

(** Exactly one component is replaced; everything around it is kept. *)
Theorem C11_replaces_one_component : forall t pre post p t',
  located t pre post p -> In t' trees -> get_folder p t' = Some (pre ++ t' :: post)%list.
Proof. exact get_folder_moves. Qed.
Print Assumptions C11_replaces_one_component.

Lemma located_move t pre post p t' : located t pre post p -> In t' trees ->
  located t' pre post (pre ++ t' :: post)%list.
Proof. intros (_ & _ & A & B) H. repeat split; assumption. Qed.

Theorem C11_there_and_back : forall t pre post p t',
  located t pre post p -> In t' trees ->
  exists q, get_folder p t' = Some q /\ get_folder q t = Some p /\ get_folder q t' = Some q.
Proof.
  intros t pre post p t' L H. exists (pre ++ t' :: post)%list.
  split; [now apply (get_folder_moves t pre post p t')|].
  pose proof (located_move _ _ _ _ _ L H) as L'. pose proof L as (Ep & Ht & _).
  split; [rewrite (get_folder_moves _ _ _ _ t L' Ht); now rewrite Ep|].
  now apply (get_folder_moves _ _ _ _ t' L' H).
Qed.
Print Assumptions C11_there_and_back.

(** Different data never share a folder in the other tree. *)
Theorem C11_one_to_one : forall t pre post p pre' post' p' t' q,
  located t pre post p -> located t pre' post' p' -> In t' trees ->
  get_folder p t' = Some q -> get_folder p' t' = Some q -> p = p'.
Proof.
  intros t pre post p pre' post' p' t' q L L' H E E'.
  destruct (C11_there_and_back _ _ _ _ t' L H) as (a & Ea & Ba & _).
  destruct (C11_there_and_back _ _ _ _ t' L' H) as (b & Eb & Bb & _).
  rewrite E in Ea. injection Ea as ->. rewrite E' in Eb. injection Eb as ->. congruence.
Qed.
Print Assumptions C11_one_to_one.

Theorem C11_outside_is_rejected : forall p t, In t trees ->
  (forall c, In c p -> ~ In c trees) -> get_folder p t = None.
Proof.
  intros p t Ht H.
  assert (O : forall s, In s trees -> in_parts s p = false).
  { intros s Hs. destruct (in_parts s p) eqn:E; [|reflexivity]. apply in_parts_iff in E. exfalso. exact (H s E Hs). }
  unfold get_folder. rewrite (O t Ht), (O "processed"), (O "raw"), (O "configuration") by (cbn; tauto). reflexivity.
Qed.
Print Assumptions C11_outside_is_rejected.

(** Without the "exactly one" condition the request is silently ignored: below
    a folder called raw, the raw counterpart of a processed path is itself. *)
Theorem C111_nested_names_refuted : exists p q, In "processed" p /\
  get_raw_folder p = Some q /\ In "processed" q /\ q = p.
Proof.
  exists ["/"; "raw"; "2020"; "processed"; "dive"], ["/"; "raw"; "2020"; "processed"; "dive"].
  cbn. tauto.
Qed.
Print Assumptions C111_nested_names_refuted.

(** The file listing finds every file below a directory and nothing else. *)
Theorem C11_file_list_complete : forall prefix children p,
  In p (get_file_list prefix children) <-> exists e, In e children /\ below prefix e p.
Proof.
  assert (F : forall e prefix p, In p (files_of prefix e) <-> below prefix e p).
  { fix IH 1. intros [n|n ch] prefix p; cbn [files_of].
    - split; [intros [<-|[]]; constructor|]. intro H. inversion H; subst. now left.
    - rewrite in_flat_map. split.
      + intros (e & He & Hp). econstructor; [exact He|].
        clear -IH He Hp. revert e He Hp. induction ch as [|x ch IHch]; [intros e []|].
        intros e [<-|He] Hp; [now apply IH|]. now apply (IHch e).
      + intro H. inversion H; subst. exists e. split; [assumption|].
        clear -IH H3 H5. revert e H3 H5. induction ch as [|x ch IHch]; [intros e []|].
        intros e [<-|He] Hp; [now apply IH|]. now apply (IHch e). }
  intros prefix children p. unfold get_file_list. rewrite in_flat_map.
  split; intros (e & He & Hp); exists e; split; try assumption; now apply F.
Qed.
Print Assumptions C11_file_list_complete.

Example C11_example :
  get_processed_folder ["/"; "data"; "raw"; "2020"; "dive1"] = Some ["/"; "data"; "processed"; "2020"; "dive1"] /\
  located "raw" ["/"; "data"] ["2020"; "dive1"] ["/"; "data"; "raw"; "2020"; "dive1"].
Proof.
  split; [reflexivity|]. split; [reflexivity|]. split; [cbn; tauto|].
  split; intros c Hc K; cbn in Hc, K; intuition (subst; discriminate).
Qed.
