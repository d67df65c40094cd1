(** C271, C272: removing a folder. *)
From Coq Require Import NArith List Bool Arith Lia Permutation.
From Verif Require Import TreeModel TreeProps.
Import ListNotations.

(** ** Specification *)
Definition below (f p : path) : Prop := exists r, p = f ++ r.
(** Nothing is there twice, and everything is in a folder that is there. *)
Definition sound (d : disk) : Prop := NoDup (map fst d) /\ forall p x k, p <> [] -> In (p ++ [x], k) d -> In (p, ADir) d.
(** No link on the way to a folder, and none in it that leads to a folder. *)
Definition unlinked (d : disk) (f : path) : Prop :=
  forall q t, In (q, ALink t) d -> ~ below q f /\ (below f q -> ~ In (t, ADir) d).

(** ** Lookups *)
Lemma lookup_in : forall d p k, lookup d p = Some k -> In (p, k) d.
Proof. induction d as [|[q c] d IH]; intros p k H; [discriminate|]. cbn [lookup] in H. destruct (path_dec q p) as [->|]; [injection H as ->; now left|right; now apply IH]. Qed.
Lemma in_lookup : forall d p k, NoDup (map fst d) -> In (p, k) d -> lookup d p = Some k.
Proof.
  induction d as [|[q c] d IH]; intros p k N I; [destruct I|]. cbn [map fst] in N. inversion N as [|? ? NI N']; subst. cbn [lookup]. destruct I as [E|I]; [injection E as -> ->; now destruct (path_dec p p)|].
  destruct (path_dec q p) as [->|]; [|now apply IH]. elim NI. apply in_map_iff. now exists (p, k).
Qed.
Fixpoint beneath (f p : path) : bool :=
  match f, p with [], _ => true | _ :: _, [] => false | x :: f, y :: p => if text_dec x y then beneath f p else false end.
Lemma beneath_iff : forall f p, beneath f p = true <-> below f p.
Proof.
  induction f as [|x f IH]; intros p; cbn [beneath].
  - split; intros; [now exists p|reflexivity].
  - destruct p as [|y p]; [split; [discriminate|intros [r E]; discriminate]|]. destruct (text_dec x y) as [->|D].
    + rewrite IH. split; intros [r E]; exists r; cbn in *; congruence.
    + split; [discriminate|]. intros [r E]. cbn in E. congruence.
Qed.
Definition drop (f : path) (d : disk) : disk := filter (fun e => negb (beneath f (fst e))) d.
Lemma in_drop : forall f d p k, In (p, k) (drop f d) <-> In (p, k) d /\ ~ below f p.
Proof.
  intros f d p k. unfold drop. rewrite filter_In. cbn [fst]. rewrite negb_true_iff, <- beneath_iff. destruct (beneath f p); split; intros [H K]; split; congruence.
Qed.
Lemma nodup_filter : forall (g : path * kind -> bool) d, NoDup (map fst d) -> NoDup (map fst (filter g d)).
Proof.
  intros g. induction d as [|e d IH]; intros N; [constructor|]. cbn [map] in N. inversion N as [|? ? NI N']; subst. cbn [filter]. destruct (g e); [|now apply IH]. cbn [map]. constructor; [|now apply IH].
  intros I. apply NI. apply in_map_iff in I. destruct I as (z & <- & I). apply filter_In in I. now apply in_map.
Qed.
Lemma below_trans : forall a b c, below a b -> below b c -> below a c.
Proof. intros a b c [r ->] [s ->]. exists (r ++ s). now rewrite app_assoc. Qed.
Lemma below_self : forall a, below a a. Proof. intros a. exists []. now rewrite app_nil_r. Qed.
Lemma below_snoc : forall a b x, below a (b ++ [x]) -> a = b ++ [x] \/ below a b.
Proof.
  intros a b x [r E]. destruct r as [|y r _] using rev_ind; [left; now rewrite app_nil_r in E|]. right. rewrite app_assoc in E. apply app_inj_tail in E. destruct E as [-> _]. now exists r.
Qed.
Lemma in_names : forall d p x, In x (names d p) <-> exists k, In (p ++ [x], k) d.
Proof.
  intros d p x. unfold names. rewrite in_flat_map. split.
  - intros ([q k] & I & H). cbn [fst] in H. destruct q as [|a q]; [destruct H|]. destruct (path_dec (removelast (a :: q)) p) as [E|]; [|destruct H]. destruct H as [H|[]]. exists k. rewrite <- E, <- H, <- app_removelast_last; [exact I|discriminate].
  - intros [k I]. exists (p ++ [x], k). split; [exact I|]. cbn [fst]. destruct (p ++ [x]) as [|a q] eqn:E; [now destruct p|]. rewrite <- E, removelast_last. destruct (path_dec p p); [|congruence]. left. apply last_last.
Qed.
Lemma names_nodup : forall d p, NoDup (map fst d) -> NoDup (names d p).
Proof.
  intros d p. induction d as [|[q k] d IH]; intros N; [constructor|]. cbn [map fst] in N. inversion N as [|? ? NI N']; subst. specialize (IH N'). unfold names. cbn [flat_map fst]. fold (names d p). destruct q as [|a q]; [exact IH|].
  destruct (path_dec (removelast (a :: q)) p) as [E|]; [|exact IH]. cbn [app]. constructor; [|exact IH]. intros I. apply in_names in I. destruct I as [c I]. apply NI. apply in_map_iff. exists (p ++ [last (a :: q) []], c). split; [|exact I].
  cbn [fst]. rewrite <- E. symmetry. apply app_removelast_last. discriminate.
Qed.
Definition clear_way (d : disk) (f : path) : Prop := forall q t, In (q, ALink t) d -> ~ below q f.
Lemma walk_plain : forall d rest at_, (forall q r t, rest = q ++ r -> q <> [] -> lookup d (at_ ++ q) <> Some (ALink t)) -> walk d at_ rest = at_ ++ rest.
Proof.
  intros d. induction rest as [|x rest IH]; intros at_ H; cbn [walk]; [now rewrite app_nil_r|].
  assert (forall q r t, rest = q ++ r -> q <> [] -> lookup d ((at_ ++ [x]) ++ q) <> Some (ALink t)) as H' by (intros q r t E N; rewrite <- app_assoc; apply (H (x :: q) r t); [cbn; congruence|discriminate]).
  pose proof (IH (at_ ++ [x]) H') as W. rewrite <- app_assoc in W. cbn [app] in W. destruct (lookup d (at_ ++ [x])) as [[| |t]|] eqn:E; try exact W. exfalso. apply (H [x] rest t); [reflexivity|discriminate|exact E].
Qed.
Lemma follow_clear : forall d f, clear_way d f -> follow d f = f.
Proof. intros d f U. unfold follow. rewrite walk_plain; [reflexivity|]. intros q r t E N L. apply lookup_in in L. apply (U _ _ L). now exists r. Qed.
Lemma follow_plain : forall d f, unlinked d f -> follow d f = f.
Proof. intros d f U. apply follow_clear. intros q t I. now destruct (U q t I). Qed.
Lemma walk_snoc : forall d rest at_ x, walk d at_ (rest ++ [x]) = match lookup d (walk d at_ rest ++ [x]) with Some (ALink t) => t | _ => walk d at_ rest ++ [x] end.
Proof. intros d. induction rest as [|y rest IH]; intros at_ x; [reflexivity|]. cbn [walk app]. now rewrite IH. Qed.
Lemma spot_snoc : forall d f x, spot d (f ++ [x]) = follow d f ++ [x].
Proof. intros d f x. unfold spot. destruct (f ++ [x]) as [|a q] eqn:E; [now destruct f|]. now rewrite <- E, removelast_last, last_last. Qed.
(** What is below something is below a folder. *)
Lemma sound_dir : forall d p r k, sound d -> p <> [] -> r <> [] -> In (p ++ r, k) d -> In (p, ADir) d.
Proof.
  intros d p r k [_ C] P. revert k. induction r as [|x r IH] using rev_ind; intros k N I; [congruence|]. rewrite app_assoc in I. destruct r as [|y r].
  - rewrite app_nil_r in I. now apply C in I.
  - apply C in I; [|destruct p; discriminate]. apply IH in I; [exact I|discriminate].
Qed.
Lemma sound_drop : forall d f, sound d -> sound (drop f d).
Proof.
  intros d f [N C]. split; [now apply nodup_filter|]. intros p x k P I. apply in_drop in I. destruct I as [I B]. apply in_drop. split; [now apply (C p x k)|]. intros B'. apply B. destruct B' as [r ->]. exists (r ++ [x]). now rewrite app_assoc.
Qed.
Lemma unlinked_drop : forall d f g, unlinked d f -> unlinked (drop g d) f.
Proof. intros d f g U q t I. apply in_drop in I. destruct I as [I _]. destruct (U q t I) as [A B]. split; [exact A|]. intros K J. apply in_drop in J. now apply (B K). Qed.
Lemma unlinked_sub : forall d f x, sound d -> unlinked d f -> In (f ++ [x], ADir) d -> unlinked d (f ++ [x]).
Proof.
  intros d f x [N _] U I q t J. destruct (U q t J) as [A B]. split.
  - intros K. apply below_snoc in K. destruct K as [->|K]; [|now apply A]. apply (in_lookup d _ _ N) in I, J. congruence.
  - intros K. apply B. eapply below_trans; [|exact K]. now exists [x].
Qed.

Lemma dropped : forall xs f d, fold_left (fun d x => drop (f ++ [x]) d) xs d = filter (fun e => forallb (fun x => negb (beneath (f ++ [x]) (fst e))) xs) d.
Proof.
  induction xs as [|x xs IH]; intros f d; cbn [fold_left forallb].
  - symmetry. induction d as [|e d IH]; [reflexivity|]. cbn [filter]. now rewrite IH.
  - rewrite IH. unfold drop. induction d as [|e d IHd]; [reflexivity|]. cbn [filter]. destruct (negb (beneath (f ++ [x]) (fst e))) eqn:E; cbn [filter andb]; [|exact IHd]. now rewrite IHd.
Qed.
Lemma filter_twice : forall {A} (g h : A -> bool) l, filter g (filter h l) = filter (fun x => h x && g x) l.
Proof. intros A g h. induction l as [|x l IH]; [reflexivity|]. cbn [filter]. destruct (h x); cbn [filter andb]; now rewrite IH. Qed.
Lemma removes : forall n d f, sound d -> unlinked d f -> f <> [] -> In (f, ADir) d -> (forall p k, In (p, k) d -> length p < length f + n) -> remove_directory n d f = (drop f d, false).
Proof.
  induction n as [|n IH]; intros d f S U F D L; [apply L in D; lia|]. cbn [remove_directory].
  assert (forall d f, sound d -> unlinked d f -> In (f, ADir) d -> dir_at d f = true) as DA by (clear; intros d f [N _] U D; unfold dir_at; rewrite follow_plain by exact U; now rewrite (in_lookup d f ADir N D)).
  rewrite (DA d f S U D), follow_plain by exact U.
  set (step := fun '(d, raised) x => if raised : bool then (d, raised) else if dir_at d (f ++ [x]) then remove_directory n d (f ++ [x]) else unlink d (f ++ [x])).
  assert (forall xs d, sound d -> unlinked d f -> In (f, ADir) d -> (forall p k, In (p, k) d -> length p < length f + Datatypes.S n) -> NoDup xs -> (forall x, In x xs -> exists k, In (f ++ [x], k) d) ->
    fold_left step xs (d, false) = (fold_left (fun d x => drop (f ++ [x]) d) xs d, false)) as FO.
  { clear d S U D L. induction xs as [|x xs IHx]; intros d S U D L N X; [reflexivity|]. cbn [fold_left]. destruct (X x (or_introl eq_refl)) as [k I]. inversion N as [|? ? NI N']; subst.
    assert (step (d, false) x = (drop (f ++ [x]) d, false)) as E.
    { cbn [step]. unfold dir_at. unfold follow. rewrite walk_snoc. fold (follow d f). rewrite follow_plain by exact U. pose proof (in_lookup d _ _ (proj1 S) I) as E. rewrite E. destruct k as [| |t].
      - rewrite E. unfold unlink. rewrite spot_snoc, follow_plain by exact U. rewrite E. f_equal. unfold erase, drop. apply filter_ext_in. intros [p c] J. cbn [fst]. destruct (path_dec p (f ++ [x])) as [->|NE]; [rewrite (proj2 (beneath_iff _ _) (below_self _)); reflexivity|].
        destruct (beneath (f ++ [x]) p) eqn:B; [|reflexivity]. apply beneath_iff in B. destruct B as [[|y r] ->]; [now rewrite app_nil_r in NE|]. apply sound_dir in J; [|exact S|destruct f; discriminate|discriminate]. apply (in_lookup d _ _ (proj1 S)) in J. congruence.
      - rewrite E. rewrite <- (Nat.add_1_r n) in L. apply IH; [exact S|now apply unlinked_sub|destruct f; discriminate|exact I|]. intros p c J. rewrite app_length. apply L in J. cbn [length]. lia.
      - destruct (U _ _ I) as [_ T]. specialize (T (ex_intro _ [x] eq_refl)). destruct (lookup d t) as [[| |]|] eqn:E'; try (apply lookup_in in E'; contradiction); clear E'.
        all: unfold unlink; rewrite spot_snoc, follow_plain by exact U; rewrite E; f_equal; unfold erase, drop; apply filter_ext_in; intros [p c] J; cbn [fst]; destruct (path_dec p (f ++ [x])) as [->|NE]; [rewrite (proj2 (beneath_iff _ _) (below_self _)); reflexivity|].
        all: destruct (beneath (f ++ [x]) p) eqn:B; [|reflexivity]; apply beneath_iff in B; destruct B as [[|y r] ->]; [now rewrite app_nil_r in NE|]; apply sound_dir in J; [|exact S|destruct f; discriminate|discriminate]; apply (in_lookup d _ _ (proj1 S)) in J; congruence. }
    rewrite E. apply IHx; [now apply sound_drop|now apply unlinked_drop| | |exact N'|].
    - apply in_drop. split; [exact D|]. intros [r B]. apply (f_equal (@length _)) in B. rewrite !app_length in B. cbn in B. lia.
    - intros p c J. apply in_drop in J. now apply (L p c).
    - intros y Y. destruct (X y (or_intror Y)) as [c J]. exists c. apply in_drop. split; [exact J|]. intros B. apply below_snoc in B. destruct B as [B|[r B]]; [apply app_inj_tail in B; destruct B as [_ ->]; contradiction|].
      apply (f_equal (@length _)) in B. rewrite !app_length in B. cbn in B. lia. }
  fold step. rewrite (FO (names d f) d S U D L (names_nodup d f (proj1 S))) by (intros x I; now apply in_names). set (e := fold_left _ (names d f) d).
  assert (forall p c, In (p, c) e <-> In (p, c) d /\ (below f p -> p = f)) as E.
  { intros p c. unfold e. rewrite dropped, filter_In. cbn [fst]. rewrite forallb_forall. split; intros [I H]; (split; [exact I|]).
    - intros [[|x r] ->]; [apply app_nil_r|]. exfalso. assert (In x (names d f)) as X.
      { apply in_names. destruct r as [|y r]; [now exists c|]. exists ADir. apply (sound_dir d (f ++ [x]) (y :: r) c); [exact S|destruct f; discriminate|discriminate|]. now rewrite <- app_assoc. }
      apply H in X. rewrite (proj2 (beneath_iff (f ++ [x]) (f ++ x :: r))) in X; [discriminate|]. exists r. now rewrite <- app_assoc.
    - intros x X. apply negb_true_iff. destruct (beneath (f ++ [x]) p) eqn:B; [|reflexivity]. apply beneath_iff in B. assert (p = f) as -> by (apply H; eapply below_trans; [|exact B]; now exists [x]). destruct B as [r B]. apply (f_equal (@length _)) in B. rewrite !app_length in B. cbn in B. lia. }
  assert (NoDup (map fst e)) as NE by (unfold e; rewrite dropped; apply nodup_filter, S).
  assert (unlinked e f) as UE by (intros q t I; apply E in I; destruct I as [I _]; destruct (U q t I) as [A B]; split; [exact A|]; intros K J; apply E in J; now apply (B K)).
  assert (spot e f = f) as SP.
  { destruct f as [|x g _] using rev_ind; [congruence|]. rewrite spot_snoc. f_equal. apply follow_clear. intros q t I K. destruct (UE q t I) as [A _]. apply A. eapply below_trans; [exact K|]. now exists [x]. }
  unfold rmdir. rewrite SP, (in_lookup e f ADir NE) by (apply E; now split).
  destruct (names e f) as [|x l] eqn:NM.
  - f_equal. unfold erase, e. rewrite dropped, filter_twice. apply filter_ext_in. intros [p c] I. cbn [fst].
    assert (In (p, c) e <-> forallb (fun x => negb (beneath (f ++ [x]) p)) (names d f) = true) as W by (unfold e; rewrite dropped, filter_In; cbn [fst]; tauto).
    destruct (beneath f p) eqn:B; cbn [negb].
    + apply andb_false_iff. destruct (path_dec p f) as [->|N]; [now right|left]. apply not_true_iff_false. intros T. apply W, E in T. destruct T as [_ T]. apply N, T. now apply beneath_iff.
    + apply andb_true_iff. split; [apply W, E; split; [exact I|]; intros K; apply beneath_iff in K; congruence|]. destruct (path_dec p f) as [->|N]; [|reflexivity]. rewrite (proj2 (beneath_iff f f) (below_self f)) in B. discriminate.
  - exfalso. assert (In x (names e f)) as X by (rewrite NM; now left). apply in_names in X. destruct X as [c X]. apply E in X. destruct X as [_ X]. specialize (X (ex_intro _ [x] eq_refl)). apply (f_equal (@length _)) in X. rewrite app_length in X. cbn in X. lia.
Qed.
Theorem C271_removed : forall d f, sound d -> unlinked d f -> f <> [] -> In (f, ADir) d -> exists enough, forall fuel, enough <= fuel ->
  exists d', remove_directory fuel d f = (d', false) /\ (forall p k, In (p, k) d' <-> In (p, k) d /\ ~ below f p) /\ sound d'.
Proof.
  intros d f S U F D. exists (Datatypes.S (list_max (map (fun e => length (fst e)) d))). intros n N. exists (drop f d). split; [|split; [apply in_drop|now apply sound_drop]]. apply removes; try assumption.
  intros p k I. assert (length p <= list_max (map (fun e => length (fst e)) d)) as L; [|lia].
  pose proof (proj1 (list_max_le (map (fun e => length (fst e)) d) _) (le_n _)) as A. rewrite Forall_forall in A. apply A. apply in_map_iff. now exists (p, k).
Qed.

(** ** C272 *)
Definition letter (n : N) : text := [n].
Definition shared : disk := [([letter 97], ADir); ([letter 97; letter 108], ALink [letter 98]); ([letter 98], ADir); ([letter 98; letter 102], AFile)].
(** A link in the folder to a folder elsewhere: what is in that one is gone, the folder still there,
    and an exception raised. *)
Theorem C272_link_refuted : exists d f p, sound d /\ In (f, ADir) d /\ In (p, AFile) d /\ ~ below f p /\ forall fuel, 2 <= fuel ->
  exists d', remove_directory fuel d f = (d', true) /\ In (f, ADir) d' /\ ~ In (p, AFile) d'.
Proof.
  exists shared, [letter 97], [letter 98; letter 102]. split; [|split; [now left|split; [now do 3 right; left|split]]].
  - split; [unfold shared; cbn [map fst]; repeat (apply NoDup_cons; [cbn; intuition discriminate|]); apply NoDup_nil|]. intros p x k P I. unfold shared in *. cbn [In] in I.
    repeat match goal with H : _ \/ _ |- _ => destruct H as [I|I] | H : False |- _ => destruct H end; injection I as E _.
    + destruct p as [|y [|z p]]; try discriminate. congruence.
    + destruct p as [|y [|z [|u p]]]; try discriminate. injection E as <- _. now left.
    + destruct p as [|y [|z p]]; try discriminate. congruence.
    + destruct p as [|y [|z [|u p]]]; try discriminate. injection E as <- _. now do 2 right; left.
  - intros [r E]. discriminate.
  - intros [|[|fuel]] L; try lia. exists [([letter 97], ADir); ([letter 97; letter 108], ALink [letter 98]); ([letter 98], ADir)]. split; [reflexivity|]. split; [now left|]. cbn. intuition congruence.
Qed.

Definition low_of (c : N) : N := if ((65 <=? c) && (c <=? 90))%N then (c + 32)%N else c.
Definition named (n : N) (kids : list tree) : tree := Dir [n] kids.
Definition wide : tree := named 114 [named 97 [File [120%N]]; named 98 [File [120%N]]; named 99 [File [120%N]]; named 100 [File [121%N]]; named 101 [File [120%N]]].
(** All of the folder is less deep than [max_depth], but not all of it is shown. *)
Theorem C272_hidden_refuted : exists t m lines, cut t m = t /\ arrange low_of t = t /\ show_tree low_of m t = Some lines /\
  (exists l, In l (outline t) /\ ~ In l lines).
Proof.
  exists wide, 3. eexists. split; [reflexivity|]. split; [reflexivity|]. split; [vm_compute; reflexivity|]. exists (beam false ++ branch true ++ [121%N]). split; [vm_compute; tauto|]. cbn. intuition congruence.
Qed.
(** Folders at the end of others are opened without end. *)
Theorem C272_deep_refuted : exists m, forall n, exists t s, In s (make_tree m (arrange low_of t) [] 0) /\ depth s = n.
Proof.
  exists 1. intros n. set (chain := fix chain n := match n with O => named 97 [] | Datatypes.S n => named 97 [chain n] end). exists (chain n).
  assert (forall n, arrange low_of (chain n) = chain n) as A by (clear; induction n as [|n IH]; [reflexivity|]; cbn [chain arrange map sorted insert]; unfold named at 1; cbn [arrange map sorted insert]; now rewrite IH).
  rewrite A. clear A. exists (mkshown [97%N] true (repeat true n)). split; [|apply repeat_length].
  assert (forall n c, In (mkshown [97%N] true (repeat true n ++ c)) (make_tree 1 (chain n) c 0)) as G.
  { clear. induction n as [|n IH]; intros c; [now left|]. cbn [chain]. unfold named. rewrite make_dir. right. cbn [makes none]. replace (is_dir (chain n)) with true by now destruct n. cbn [andb Nat.ltb Nat.leb]. cbv zeta. apply in_or_app. left.
    replace (repeat true (Datatypes.S n) ++ c) with (repeat true n ++ true :: c) by (cbn [repeat app]; clear; induction n as [|n IH]; [reflexivity|]; cbn [repeat app]; now rewrite <- IH). apply IH. }
  specialize (G n []). now rewrite app_nil_r in G.
Qed.
(** Names that differ in their case only come in the order in which the folder is read. *)
Theorem C272_case_refuted : exists t u, same t u /\ show_tree low_of 100 t <> show_tree low_of 100 u.
Proof.
  exists (named 114 [File [97%N]; File [65%N]]), (named 114 [File [65%N]; File [97%N]]). split.
  - apply same_dir with [File [65%N]; File [97%N]]; [apply perm_swap|repeat constructor].
  - vm_compute. intros H. discriminate.
Qed.

Example C271_example_lines : show_tree low_of 100 (named 114 [File [98%N]; named 97 [File [120%N]; named 89 []]; named 67 [File [122%N]]]) =
  Some [[114; 47]; [9500; 9472; 9472; 32; 97; 47]; [9474; 32; 32; 32; 9500; 9472; 9472; 32; 120]; [9474; 32; 32; 32; 9492; 9472; 9472; 32; 89; 47];
        [9500; 9472; 9472; 32; 98]; [9492; 9472; 9472; 32; 67; 47]; [32; 32; 32; 32; 9492; 9472; 9472; 32; 122]]%N.
Proof. reflexivity. Qed.
Example C271_example_removed : remove_directory 5 [([letter 97], ADir); ([letter 97; letter 98], ADir); ([letter 99], AFile); ([letter 97; letter 98; letter 100], ALink [letter 99])] [letter 97] =
  ([([letter 99], AFile)], false).
Proof. reflexivity. Qed.
Print Assumptions C271_order.
Print Assumptions C271_canonical.
Print Assumptions C271_lines.
Print Assumptions C271_some.
Print Assumptions C271_unique.
Print Assumptions C271_removed.
Print Assumptions C272_link_refuted.
Print Assumptions C272_hidden_refuted.
Print Assumptions C272_deep_refuted.
Print Assumptions C272_case_refuted.
