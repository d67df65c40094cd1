(** C271, C272: the printed tree of a folder, and removing a folder. *)
From Coq Require Import NArith List Bool Arith Lia Permutation Sorted.
From Verif Require Import TreeModel.
Import ListNotations.

Lemma tree_ind' : forall P : tree -> Prop, (forall n, P (File n)) -> (forall n kids, Forall P kids -> P (Dir n kids)) -> forall t, P t.
Proof.
  intros P F D. fix IH 1. intros [n|n kids]; [apply F|]. apply D. induction kids as [|k kids IHk]; constructor; [apply IH|exact IHk].
Qed.

(** ** Specification *)
(** The same folders with the same files, listed in any order. *)
Inductive same : tree -> tree -> Prop :=
| same_file : forall n, same (File n) (File n)
| same_dir : forall n ks ls ms, Permutation ks ls -> Forall2 same ls ms -> same (Dir n ks) (Dir n ms).
(** In every folder the names are in alphabetical order, but for their case. *)
Inductive alphabetic : text -> text -> Prop :=
| first_empty : forall b, alphabetic [] b
| first_smaller : forall x y a b, (x < y)%N -> alphabetic (x :: a) (y :: b)
| first_same : forall x a b, alphabetic a b -> alphabetic (x :: a) (x :: b).
Inductive ordered (low : N -> N) : tree -> Prop :=
| ordered_file : forall n, ordered low (File n)
| ordered_dir : forall n kids, StronglySorted (fun a b => alphabetic (map low (name_of a)) (map low (name_of b))) kids -> Forall (ordered low) kids -> ordered low (Dir n kids).
(** A tree drawn: every folder, a slash behind its name, is followed by the drawings of its
    contents, each of them joined by a branch and, below its first line, a beam while more of them
    come. *)
Definition branch (ends : bool) : text := if ends then [9492; 9472; 9472; 32]%N else [9500; 9472; 9472; 32]%N.
Definition beam (ends : bool) : text := if ends then [32; 32; 32; 32]%N else [9474; 32; 32; 32]%N.
Definition joined (ends : bool) (lines : list text) : list text :=
  match lines with [] => [] | first :: others => (branch ends ++ first) :: map (app (beam ends)) others end.
Definition none {A} (l : list A) : bool := match l with [] => true | _ => false end.
Fixpoint outline (t : tree) : list text :=
  match t with
  | File n => [n]
  | Dir n kids => (n ++ [47%N]) ::
      (fix all (kids : list tree) : list text := match kids with [] => [] | k :: rest => joined (none rest) (outline k) ++ all rest end) kids
  end.
Fixpoint outlines (kids : list tree) : list text := match kids with [] => [] | k :: rest => joined (none rest) (outline k) ++ outlines rest end.
(** What is less than [m] folders below. *)
Fixpoint cut (t : tree) (m : nat) : tree :=
  match t with File n => File n | Dir n kids => Dir n (match m with O | S O => [] | S m => map (fun k => cut k m) kids end) end.
(** The number of folders inside. *)
Fixpoint inside (t : tree) : nat :=
  match t with File _ => 0 | Dir _ kids => list_sum (map (fun k => (if is_dir k then 1 else 0) + inside k) kids) end.
(** Some of the elements, in their order. *)
Inductive among {A} : list A -> list A -> Prop :=
| among_nil : among [] []
| among_skip : forall x l m, among l m -> among l (x :: m)
| among_keep : forall x l m, among l m -> among (x :: l) (x :: m).
(** No slash in the names. *)
Inductive plain : tree -> Prop :=
| plain_file : forall n, ~ In 47%N n -> plain (File n)
| plain_dir : forall n kids, ~ In 47%N n -> Forall plain kids -> plain (Dir n kids).
(** In one folder no two names differ in their case only. *)
Inductive distinct (low : N -> N) : tree -> Prop :=
| distinct_file : forall n, distinct low (File n)
| distinct_dir : forall n kids, NoDup (map (fun k => map low (name_of k)) kids) -> Forall (distinct low) kids -> distinct low (Dir n kids).

(** ** The order *)
Lemma text_leb_iff : forall a b, text_leb a b = true <-> alphabetic a b.
Proof.
  induction a as [|x a IH]; intros b.
  - cbn. split; intros; [constructor|reflexivity].
  - destruct b as [|y b]; cbn [text_leb].
    + split; [discriminate|]. intros H. inversion H.
    + destruct (N.ltb_spec x y) as [L|L]; [split; intros; [now constructor|reflexivity]|]. destruct (N.eqb_spec x y) as [->|D].
      * rewrite IH. split; intros H; [now constructor|]. inversion H; subst; [lia|assumption].
      * split; [discriminate|]. intros H. inversion H; subst; [lia|congruence].
Qed.
Lemma alphabetic_total : forall a b, alphabetic a b \/ alphabetic b a.
Proof.
  induction a as [|x a IH]; intros b; [left; constructor|]. destruct b as [|y b]; [right; constructor|]. destruct (N.lt_trichotomy x y) as [L|[->|L]]; [left; now constructor| |right; now constructor].
  destruct (IH b); [left|right]; now constructor.
Qed.
Lemma alphabetic_trans : forall a b c, alphabetic a b -> alphabetic b c -> alphabetic a c.
Proof.
  intros a b c H. revert c. induction H as [b|x y a b L|x a b H IH]; intros c K; [constructor| |].
  - inversion K; subst; constructor; lia.
  - inversion K; subst; [now apply first_smaller|]. apply first_same. now apply IH.
Qed.
Lemma alphabetic_antisym : forall a b, alphabetic a b -> alphabetic b a -> a = b.
Proof.
  intros a b H. induction H as [b|x y a b L|x a b H IH]; intros K.
  - inversion K. reflexivity.
  - inversion K; subst; lia.
  - inversion K; subst; [lia|]. f_equal. now apply IH.
Qed.
Section Low.
Variable low : N -> N.
Let key (t : tree) : text := map low (name_of t).
Let le (a b : tree) : Prop := alphabetic (key a) (key b).
Lemma insert_perm : forall x l, Permutation (x :: l) (insert low x l).
Proof. intros x. induction l as [|y l IH]; [reflexivity|]. cbn [insert]. destruct (le_name low x y); [reflexivity|]. rewrite perm_swap. now constructor. Qed.
Lemma sorted_perm : forall l, Permutation l (sorted low l).
Proof. induction l as [|x l IH]; [reflexivity|]. cbn [sorted]. rewrite <- insert_perm. now constructor. Qed.
Lemma insert_sorted : forall x l, StronglySorted le l -> StronglySorted le (insert low x l).
Proof.
  intros x l H. induction H as [|y l S IH F]; [repeat constructor|]. cbn [insert]. unfold le_name. destruct (text_leb _ _) eqn:E.
  - apply text_leb_iff in E. constructor; [now constructor|]. constructor; [exact E|]. eapply Forall_impl; [|exact F]. intros z. now apply alphabetic_trans.
  - assert (le y x) as L by (destruct (alphabetic_total (key y) (key x)) as [H|H]; [exact H|]; apply text_leb_iff in H; unfold key in H; congruence).
    constructor; [exact IH|]. apply (Permutation_Forall (insert_perm x l)). now constructor.
Qed.
Lemma sorted_sorted : forall l, StronglySorted le (sorted low l).
Proof. induction l as [|x l IH]; [constructor|]. cbn [sorted]. now apply insert_sorted. Qed.
Lemma sorted_unique : forall l m, NoDup (map key l) -> Permutation l m -> StronglySorted le l -> StronglySorted le m -> l = m.
Proof.
  induction l as [|x l IH]; intros m N P S T; [apply Permutation_nil in P; now subst|]. destruct m as [|y m]; [apply Permutation_sym, Permutation_nil in P; discriminate|].
  assert (x = y) as ->.
  { inversion S as [|? ? S1 F1]; subst. inversion T as [|? ? T1 G1]; subst. rewrite Forall_forall in F1, G1.
    assert (In y (x :: l)) as I by (apply Permutation_in with (y :: m); [now apply Permutation_sym|now left]). assert (In x (y :: m)) as J by (apply Permutation_in with (x :: l); [assumption|now left]).
    destruct I as [->|I]; [reflexivity|]. destruct J as [->|J]; [reflexivity|]. exfalso. inversion N as [|? ? NI _]; subst. apply NI. apply in_map_iff. exists y. split; [|exact I].
    apply alphabetic_antisym; [apply (G1 x J)|apply (F1 y I)]. }
  f_equal. inversion N; inversion S; inversion T; subst. apply IH; try assumption. now apply Permutation_cons_inv with y.
Qed.
Lemma name_arrange : forall t, name_of (arrange low t) = name_of t. Proof. now intros [n|n kids]. Qed.
Theorem C271_order : forall t, same t (arrange low t) /\ ordered low (arrange low t).
Proof.
  induction t as [n|n kids IH] using tree_ind'; cbn [arrange]; [split; constructor|]. split.
  - assert (Forall2 same kids (map (arrange low) kids)) as F by (clear n; induction IH as [|k kids [H _] _ IH]; constructor; assumption).
    pose proof (sorted_perm (map (arrange low) kids)) as P. destruct (Permutation_map_inv _ _ (Permutation_sym P)) as (ls & E & Q). rewrite E. apply same_dir with ls; [exact Q|].
    clear E P F. assert (Forall (fun t => same t (arrange low t)) ls) as G by (eapply Permutation_Forall; [exact Q|]; eapply Forall_impl; [|exact IH]; intros t [H _]; exact H).
    clear - G. induction G as [|t l H G IH]; cbn [map]; constructor; assumption.
  - constructor; [apply sorted_sorted|]. eapply Permutation_Forall; [apply sorted_perm|]. apply Forall_map. eapply Forall_impl; [|exact IH]. intros t [_ H]. exact H.
Qed.
(** The order in which the folders are read makes no difference. *)
Theorem C271_canonical : forall t u, same t u -> distinct low t -> arrange low t = arrange low u.
Proof.
  induction t as [n|n kids IH] using tree_ind'; intros u S D; inversion S as [|? ? ls ms P F]; subst; [reflexivity|]. inversion D as [|? ? N DF]; subst. cbn [arrange]. f_equal.
  assert (map (arrange low) ls = map (arrange low) ms) as E.
  { pose proof (Permutation_Forall P IH) as IH'. pose proof (Permutation_Forall P DF) as DF'. clear - F IH' DF'. induction F as [|x y l m H F IHF]; [reflexivity|]. cbn [map]. inversion IH'; inversion DF'; subst. f_equal; auto. }
  rewrite <- E. apply sorted_unique.
  - assert (Permutation (map key kids) (map key (sorted low (map (arrange low) kids)))) as Q.
    { rewrite <- sorted_perm, map_map. erewrite (map_ext (fun x => key (arrange low x)) key); [reflexivity|]. intros x. unfold key. now rewrite name_arrange. }
    now apply (Permutation_NoDup Q).
  - rewrite <- !sorted_perm. now apply Permutation_map.
  - apply sorted_sorted.
  - apply sorted_sorted.
Qed.
End Low.

(** ** The lines *)
Fixpoint full (t : tree) (chain : list bool) : list shown :=
  match t with
  | File n => [mkshown n false chain]
  | Dir n kids => mkshown n true chain ::
      (fix all (kids : list tree) := match kids with [] => [] | k :: rest => full k (none rest :: chain) ++ all rest end) kids
  end.
Fixpoint fulls (kids : list tree) (chain : list bool) : list shown := match kids with [] => [] | k :: rest => full k (none rest :: chain) ++ fulls rest chain end.
Lemma full_dir : forall n kids chain, full (Dir n kids) chain = mkshown n true chain :: fulls kids chain.
Proof. intros n kids chain. cbn [full]. f_equal. induction kids as [|k rest IH]; [reflexivity|]. cbn [fulls]. now rewrite <- IH. Qed.
Lemma outline_dir : forall n kids, outline (Dir n kids) = (n ++ [47%N]) :: outlines kids.
Proof. reflexivity. Qed.
Fixpoint makes (m : nat) (kids : list tree) (chain : list bool) (this : nat) : list shown :=
  match kids with
  | [] => []
  | k :: rest => if is_dir k && (this <? m) then let this := if none rest then this else S this in make_tree m k (none rest :: chain) this ++ makes m rest chain this
                 else mkshown (name_of k) (is_dir k) (none rest :: chain) :: makes m rest chain this
  end.
Lemma make_dir : forall m n kids chain this, make_tree m (Dir n kids) chain this = mkshown n true chain :: makes m kids chain this.
Proof. intros m n kids chain this. cbn [make_tree]. f_equal. revert this. induction kids as [|k rest IH]; intros this; [reflexivity|]. cbn [makes]. unfold none at 1 2. destruct (is_dir k && (this <? m)); now rewrite <- IH. Qed.
Lemma make_full : forall m t chain this, this + inside t <= m -> make_tree m t chain this = full t chain.
Proof.
  intros m. induction t as [n|n kids IH] using tree_ind'; intros chain this H; [reflexivity|]. rewrite make_dir, full_dir. f_equal. cbn [inside] in H. revert this H.
  induction IH as [|k rest IHk _ IH]; intros this H; [reflexivity|]. cbn [makes fulls]. cbn [map list_sum fold_right] in H. fold (list_sum (map (fun k => (if is_dir k then 1 else 0) + inside k) rest)) in H.
  destruct (is_dir k) eqn:D; cbn [andb].
  - destruct (Nat.ltb_spec this m); [|lia]. cbv zeta. rewrite IHk, IH; [reflexivity| |]; destruct (none rest); lia.
  - destruct k; [|discriminate]. cbn [full app name_of]. f_equal. apply IH. lia.
Qed.
Definition shift (chain : list bool) (s : shown) : shown := mkshown (s_name s) (s_dir s) (s_chain s ++ chain).
Lemma full_shift : forall t c d, full t (c ++ d) = map (shift d) (full t c).
Proof.
  induction t as [n|n kids IH] using tree_ind'; intros c d; [reflexivity|]. rewrite !full_dir. cbn [map]. f_equal. induction IH as [|k rest IHk _ IH]; [reflexivity|]. cbn [fulls]. rewrite map_app, <- IH, <- (IHk (none rest :: c) d). reflexivity.
Qed.
Lemma concat_rev_snoc : forall (l : list text) x, concat (rev (l ++ [x])) = x ++ concat (rev l).
Proof. intros l x. now rewrite rev_app_distr. Qed.
Lemma shown_shift : forall b s, displayable (shift [b] s) = (if none (s_chain s) then branch b else beam b) ++ displayable s.
Proof.
  intros b [n dir [|l c]]; unfold displayable, shift; cbn [s_name s_dir s_chain app none].
  - unfold displayname. cbn [s_dir s_name map rev concat]. destruct b, dir; cbn; rewrite ?app_nil_r; reflexivity.
  - cbn [map]. rewrite map_app. cbn [map]. match goal with |- concat (rev (?x :: ?l ++ [?y])) = _ => change (x :: l ++ [y]) with ((x :: l) ++ [y]) end. rewrite concat_rev_snoc. unfold displayname. cbn [s_dir s_name]. reflexivity.
Qed.
Lemma fulls_deep : forall kids c s, In s (fulls kids c) -> none (s_chain s) = false.
Proof.
  assert (forall t c, c <> [] -> forall s, In s (full t c) -> none (s_chain s) = false) as H.
  { induction t as [n|n kids IH] using tree_ind'; intros c N s; [intros [<-|[]]; now destruct c|]. rewrite full_dir. intros [<-|I]; [now destruct c|].
    induction IH as [|k rest IHk _ IH]; [destruct I|]. cbn [fulls] in I. apply in_app_or in I. destruct I as [I|I]; [|now apply IH]. eapply IHk; [|exact I]. discriminate. }
  induction kids as [|k rest IH]; intros c s I; [destruct I|]. cbn [fulls] in I. apply in_app_or in I. destruct I as [I|I]; [|eapply IH; exact I]. eapply H; [|exact I]. discriminate.
Qed.
Lemma full_lines : forall t, map displayable (full t []) = outline t.
Proof.
  induction t as [n|n kids IH] using tree_ind'; [reflexivity|]. rewrite full_dir, outline_dir. cbn [map]. f_equal. induction IH as [|k rest IHk _ IH]; [reflexivity|]. cbn [fulls outlines]. rewrite map_app, IH. f_equal.
  change (none rest :: []) with ([] ++ [none rest]). rewrite full_shift, <- IHk. destruct k as [n'|n' ks]; [rewrite map_map; cbn [full map joined]; now rewrite shown_shift|].
  rewrite full_dir. cbn [map joined]. rewrite shown_shift. f_equal. rewrite !map_map. apply map_ext_in. intros s I. rewrite shown_shift. now rewrite (fulls_deep ks [] s I).
Qed.
Lemma none_map : forall {A B} (f : A -> B) l, none (map f l) = none l. Proof. now intros A B f [|x l]. Qed.
Lemma too_deep : forall t c m, m <= length c -> filter (fun s => depth s <? m) (full t c) = [].
Proof.
  induction t as [n|n kids IH] using tree_ind'; intros c m H.
  - cbn [full filter]. unfold depth. cbn [s_chain]. destruct (Nat.ltb_spec (length c) m); [lia|reflexivity].
  - rewrite full_dir. cbn [filter]. unfold depth at 1. cbn [s_chain]. destruct (Nat.ltb_spec (length c) m); [lia|]. induction IH as [|k rest IHk _ IH]; [reflexivity|]. cbn [fulls]. rewrite filter_app, IH, app_nil_r. apply IHk. cbn. lia.
Qed.
Lemma full_cut : forall t c m, length c < m -> filter (fun s => depth s <? m) (full t c) = full (cut t (m - length c)) c.
Proof.
  induction t as [n|n kids IH] using tree_ind'; intros c m H.
  - cbn [full filter cut]. unfold depth. cbn [s_chain]. destruct (Nat.ltb_spec (length c) m); [reflexivity|lia].
  - rewrite full_dir. cbn [cut]. rewrite full_dir. cbn [filter]. unfold depth at 1. cbn [s_chain]. destruct (Nat.ltb_spec (length c) m); [|lia]. f_equal.
    destruct (Nat.eq_dec m (S (length c))) as [->|N].
    + replace (S (length c) - length c) with 1 by lia. cbn [fulls]. clear IH. induction kids as [|k rest IH]; [reflexivity|]. cbn [fulls]. rewrite filter_app, IH, too_deep; [reflexivity|cbn; lia].
    + replace (m - length c) with (S (S (m - length c - 2))) by lia. induction IH as [|k rest IHk _ IH]; [reflexivity|]. cbn [fulls map]. rewrite filter_app, IH, none_map. f_equal. rewrite IHk by (cbn; lia). do 2 f_equal. cbn [length]. lia.
Qed.
(** With no more folders inside than [max_depth] allows, the tree is drawn down to that depth. *)
Theorem C271_lines : forall low m n kids, 0 < m -> inside (Dir n kids) <= m ->
  show_tree low m (Dir n kids) = Some (outline (cut (arrange low (Dir n kids)) m)).
Proof.
  intros low m n kids M H. unfold show_tree. cbn [is_dir]. rewrite make_full.
  - rewrite full_cut by exact M. cbn [length]. now rewrite Nat.sub_0_r, full_lines.
  - assert (forall t, inside (arrange low t) = inside t) as E.
    { clear. induction t as [n|n kids IH] using tree_ind'; [reflexivity|]. cbn [arrange inside].
      assert (forall l l', Permutation l l' -> list_sum (map (fun k => (if is_dir k then 1 else 0) + inside k) l) = list_sum (map (fun k => (if is_dir k then 1 else 0) + inside k) l')) as P by (intros l l' P; unfold list_sum in *; induction P; cbn [map fold_right]; lia).
      rewrite <- (P _ _ (sorted_perm low _)). clear P. induction IH as [|k rest IHk _ IH]; [reflexivity|]. cbn [map list_sum fold_right]. unfold list_sum in IH. rewrite IH, IHk. now destruct k. }
    rewrite E. lia.
Qed.

(** ** Some lines always, never others *)
Lemma among_refl : forall {A} (l : list A), among l l. Proof. intros A. induction l; now constructor. Qed.
Lemma among_none : forall {A} (l : list A), among [] l. Proof. intros A. induction l; now constructor. Qed.
Lemma among_app : forall {A} (l m l' m' : list A), among l m -> among l' m' -> among (l ++ l') (m ++ m').
Proof. intros A l m l' m' H K. induction H; cbn [app]; [exact K|now constructor|now constructor]. Qed.
Lemma among_trans : forall {A} (l m n : list A), among l m -> among m n -> among l n.
Proof. intros A l m n H K. revert l H. induction K as [|x l m K IH|x l m K IH]; intros k H; [exact H|constructor; now apply IH|]. inversion H; subst; constructor; now apply IH. Qed.
Lemma among_filter : forall {A} (f : A -> bool) l m, among l m -> among (filter f l) (filter f m).
Proof. intros A f l m H. induction H; cbn [filter]; [constructor| |]; destruct (f x); try constructor; assumption. Qed.
Lemma among_filtered : forall {A} (f : A -> bool) l, among (filter f l) l.
Proof. intros A f. induction l as [|x l IH]; cbn [filter]; [constructor|]. destruct (f x); now constructor. Qed.
Lemma among_map : forall {A B} (f : A -> B) l m, among l m -> among (map f l) (map f m).
Proof. intros A B f l m H. induction H; now constructor. Qed.
Lemma make_among : forall m t chain this, among (full (cut t 2) chain) (make_tree m t chain this) /\ among (make_tree m t chain this) (full t chain).
Proof.
  intros m. induction t as [n|n kids IH] using tree_ind'; intros chain this; [split; apply among_refl|]. cbn [cut]. rewrite make_dir, !full_dir.
  assert (forall this, among (fulls (map (fun k => cut k 1) kids) chain) (makes m kids chain this) /\ among (makes m kids chain this) (fulls kids chain)) as H.
  { clear this. induction IH as [|k rest IHk _ IH]; intros this; [split; constructor|]. cbn [makes map fulls]. rewrite none_map.
    assert (full (cut k 1) (none rest :: chain) = [mkshown (name_of k) (is_dir k) (none rest :: chain)]) as C by (destruct k; [reflexivity|]; cbn [cut]; now rewrite full_dir). rewrite C.
    destruct (is_dir k && (this <? m)); [cbv zeta; destruct (IH (if none rest then this else S this)) as [I1 I2]|destruct (IH this) as [I1 I2]]; (split; [change (fulls ?a ?b) with (fulls a b)|]).
    - apply among_app; [|exact I1]. destruct k as [n'|n' ks]; [apply among_refl|]. rewrite make_dir. apply among_keep. apply among_none.
    - apply among_app; [apply IHk|exact I2].
    - now constructor.
    - change (mkshown (name_of k) (is_dir k) (none rest :: chain) :: makes m rest chain this) with ([mkshown (name_of k) (is_dir k) (none rest :: chain)] ++ makes m rest chain this). apply among_app; [|exact I2].
      destruct k as [n'|n' ks]; [apply among_refl|]. rewrite full_dir. apply among_keep. apply among_none. }
  destruct (H this). split; now constructor.
Qed.
(** However many folders there are: the folder itself and all it holds are shown, and what is
    shown is part of the drawing and no deeper than allowed. *)
Theorem C271_some : forall low m n kids lines, 2 <= m -> show_tree low m (Dir n kids) = Some lines ->
  among (outline (cut (arrange low (Dir n kids)) 2)) lines /\ among lines (outline (cut (arrange low (Dir n kids)) m)).
Proof.
  intros low m n kids lines M H. unfold show_tree in H. change (is_dir (Dir n kids)) with true in H. cbv iota in H. assert (map displayable (filter (fun s => depth s <? m) (make_tree m (arrange low (Dir n kids)) [] 0)) = lines) as <- by congruence. clear H. generalize (arrange low (Dir n kids)) as t. intros t. destruct (make_among m t [] 0) as [A B]. split.
  - rewrite <- full_lines. apply among_map. eapply among_trans; [|apply among_filter, A].
    assert (forall k, 2 <= k -> cut (cut t 2) k = cut t 2) as C.
    { intros k K. destruct t as [n'|n' ks]; [reflexivity|]. destruct k as [|[|k]]; try lia. cbn [cut]. f_equal. rewrite map_map. apply map_ext. intros [a|a l]; [reflexivity|]. cbn [cut]. f_equal. now destruct k. }
    rewrite full_cut by (cbn; lia). cbn [length]. rewrite Nat.sub_0_r, C by exact M. apply among_refl.
  - rewrite <- full_lines. apply among_map. replace m with (m - length (@nil bool)) at 2 by (cbn; lia). rewrite <- full_cut by (cbn; lia). apply among_filter, B.
Qed.

(** ** The drawing tells the tree *)
Lemma app_inj : forall (p a b : text), p ++ a = p ++ b -> a = b. Proof. intros p a b. apply app_inv_head. Qed.
Lemma branch_inj : forall b c x y, branch b ++ x = branch c ++ y -> b = c /\ x = y.
Proof. intros [] [] x y H; cbn in H; try discriminate; split; congruence. Qed.
Definition starts (b : bool) (l : list text) : Prop := match l with [] => True | x :: _ => forall y, x <> beam b ++ y end.
Lemma beams_inj : forall b l m x y, starts b x -> starts b y -> map (app (beam b)) l ++ x = map (app (beam b)) m ++ y -> l = m /\ x = y.
Proof.
  intros b. induction l as [|u l IH]; intros [|v m] x y X Y H; cbn [map app] in H.
  - split; [reflexivity|exact H].
  - subst x. cbn in X. now elim (X v).
  - subst y. cbn in Y. now elim (Y u).
  - injection H as H1 H2. destruct (IH m x y X Y H2) as [-> ->]. split; [|reflexivity]. f_equal. destruct b; cbn in H1; congruence.
Qed.
Lemma outlines_start : forall b kids, starts b (outlines kids).
Proof.
  intros b [|k rest]; [exact I|]. cbn [outlines]. destruct k as [n|n ks]; [|rewrite outline_dir]; cbn [outline joined app starts]; intros y; destruct (none rest), b; discriminate.
Qed.
Theorem C271_unique : forall t u, plain t -> plain u -> outline t = outline u -> t = u.
Proof.
  induction t as [n|n kids IH] using tree_ind'; intros u P Q H; inversion P; subst.
  - destruct u as [n'|n' ks]; [injection H as ->; reflexivity|]. rewrite outline_dir in H. cbn [outline] in H. injection H as -> _. exfalso. match goal with N : ~ In _ (n' ++ _) |- _ => apply N end. apply in_or_app. right. now left.
  - destruct u as [n'|n' ks]; rewrite outline_dir in H; [cbn [outline] in H; injection H as <- _; inversion Q; subst; exfalso; match goal with N : ~ In _ (n ++ _) |- _ => apply N end; apply in_or_app; right; now left|].
    rewrite outline_dir in H. injection H as E H. apply app_inv_tail in E. subst n'. f_equal. inversion Q; subst. clear P Q.
    match goal with A : Forall plain kids, B : Forall plain ks |- _ => revert ks H A B end. induction IH as [|k rest IHk _ IH]; intros ks H A B.
    + destruct ks as [|k' rest']; [reflexivity|]. cbn [outlines] in H. destruct k'; [|rewrite outline_dir in H]; discriminate.
    + destruct ks as [|k' rest']; [cbn [outlines] in H; destruct k; [|rewrite outline_dir in H]; discriminate|]. cbn [outlines] in H. inversion A; inversion B; subst.
      assert (forall t, exists f o, outline t = f :: o) as NE by (intros [a|a l]; [now exists a, []|rewrite outline_dir; eauto]).
      destruct (NE k) as (f & o & Ek), (NE k') as (f' & o' & Ek'). rewrite Ek, Ek' in H. cbn [joined app] in H. injection H as G1 G2. apply branch_inj in G1. destruct G1 as [NR ->]. rewrite NR in G2.
      apply beams_inj in G2; [|apply outlines_start|apply outlines_start]. destruct G2 as [-> G2]. f_equal; [apply IHk; try assumption; congruence|now apply IH].
Qed.
