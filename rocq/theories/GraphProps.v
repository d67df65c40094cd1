(** C207, C208: the graph class. *)
From Verif Require Import PyBase GraphModel.

(** ** Spec *)
(** [w] is listed as a neighbour of [v]. *)
Definition arrow (g : graph) (v w : vertex) : Prop := exists l, lookup g v = Some l /\ In w l.
(** A walk along arrows from [s] to [e], with all vertices passed. *)
Inductive walk (g : graph) : vertex -> vertex -> list vertex -> Prop :=
| walk_end e : walk g e e [e]
| walk_step s v e p : arrow g s v -> walk g v e p -> walk g s e (s :: p).

Lemma mem_spec : forall v l, mem v l = true <-> In v l.
Proof.
  intros v l. unfold mem. rewrite existsb_exists. split; [intros (x & I & E); apply Nat.eqb_eq in E; now subst|]. intros I. exists v. now rewrite Nat.eqb_refl.
Qed.
Lemma mem_false : forall v l, mem v l = false <-> ~ In v l.
Proof. intros v l. rewrite <- mem_spec. destruct (mem v l); split; congruence. Qed.
Lemma walk_head : forall g s e p, walk g s e p -> exists p', p = s :: p'.
Proof. intros g s e p W. destruct W; eauto. Qed.

(** ** find_path *)
Lemma search_sound : forall fuel g s e path p, search fuel g s e path = Some p ->
  exists p', p = (path ++ p')%list /\ walk g s e p' /\ (NoDup path -> ~ In s path -> NoDup p).
Proof.
  induction fuel as [|fuel IH]; intros g s e path p H; [discriminate|]. cbn [search] in H. destruct (Nat.eqb s e) eqn:E.
  - apply Nat.eqb_eq in E. subst e. injection H as <-. exists [s]. split; [reflexivity|]. split; [constructor|].
    intros N I. rewrite <- (rev_involutive (path ++ [s])). apply NoDup_rev. rewrite rev_app_distr. cbn. constructor; [now rewrite <- in_rev|now apply NoDup_rev].
  - destruct (lookup g s) as [l|] eqn:L; [|discriminate].
    assert (G : forall l', incl l' l -> (fix try l := match l with [] => None | v :: l => if mem v (path ++ [s]) then try l else match search fuel g v e (path ++ [s]) with Some p => Some p | None => try l end end) l' = Some p ->
      exists v, In v l /\ ~ In v (path ++ [s]) /\ search fuel g v e (path ++ [s]) = Some p).
    { induction l' as [|v l' IH']; intros I K; [discriminate|]. destruct (mem v (path ++ [s])) eqn:M; [apply IH'; [intros x X; apply I; now right|exact K]|].
      destruct (search fuel g v e (path ++ [s])) as [q|] eqn:S; [|apply IH'; [intros x X; apply I; now right|exact K]]. injection K as ->. exists v. split; [apply I; now left|]. split; [now apply mem_false|exact S]. }
    destruct (G l (incl_refl _) H) as (v & Iv & Nv & S). apply IH in S. destruct S as (p' & -> & W & N). exists (s :: p'). split; [now rewrite <- app_assoc|].
    split; [apply walk_step with v; [now exists l|exact W]|]. intros N1 N2. apply N; [|exact Nv].
    rewrite <- (rev_involutive (path ++ [s])). apply NoDup_rev. rewrite rev_app_distr. cbn. constructor; [now rewrite <- in_rev|now apply NoDup_rev].
Qed.
(** What find_path returns leads from the start to the end along listed neighbours and passes no vertex twice. *)
Theorem C207_path : forall g s e p, find_path g s e = Some p -> walk g s e p /\ NoDup p.
Proof.
  intros g s e p H. apply search_sound in H. destruct H as (p' & -> & W & N). split; [exact W|]. apply N; [constructor|intros []].
Qed.
Print Assumptions C207_path.

Lemma search_complete : forall fuel g s e path p, walk g s e p -> NoDup p -> (forall v, In v p -> ~ In v path) -> (length p <= fuel)%nat ->
  search fuel g s e path <> None.
Proof.
  induction fuel as [|fuel IH]; intros g s e path p W N D L; [apply walk_head in W; destruct W as (p' & ->); cbn in L; lia|]. cbn [search].
  destruct (Nat.eqb s e) eqn:E; [discriminate|]. destruct W as [e|s v e p (l & Ls & Il) W]; [rewrite Nat.eqb_refl in E; discriminate|]. rewrite Ls.
  assert (Nv : ~ In v (path ++ [s])).
  { destruct (walk_head _ _ _ _ W) as (p' & ->). intros K. apply in_app_or in K. destruct K as [K|[K|[]]]; [apply (D v); [right; now left|exact K]|]. subst v. inversion N; subst. apply H1. now left. }
  assert (R : search fuel g v e (path ++ [s]) <> None).
  { apply (IH g v e (path ++ [s])%list p W); [now inversion N| |cbn in L; lia]. intros x X K. apply in_app_or in K. destruct K as [K|[K|[]]]; [apply (D x); [now right|exact K]|]. subst x. now inversion N. }
  clear Ls. induction l as [|w l IHl]; [destruct Il|]. destruct (mem w (path ++ [s])) eqn:M.
  - apply IHl. destruct Il as [->|Il]; [apply mem_spec in M; contradiction|exact Il].
  - destruct (search fuel g w e (path ++ [s])) eqn:Sw; [discriminate|]. apply IHl. destruct Il as [->|Il]; [congruence|exact Il].
Qed.
Lemma walk_app : forall g a b p, walk g a b p -> forall x, In x p -> exists q, walk g x b q /\ (length q <= length p)%nat /\ incl q p.
Proof.
  intros g a b p W. induction W as [e|s v e p A W IH]; intros x X.
  - destruct X as [<-|[]]. exists [e]. split; [constructor|]. split; [lia|apply incl_refl].
  - destruct X as [<-|X]; [exists (s :: p); split; [now apply walk_step with v|]; split; [lia|apply incl_refl]|]. destruct (IH x X) as (q & Q & Lq & Iq). exists q. split; [exact Q|]. split; [cbn; lia|now apply incl_tl].
Qed.
Lemma walk_simple : forall g n a b p, (length p <= n)%nat -> walk g a b p -> exists q, walk g a b q /\ NoDup q /\ (length q <= length p)%nat.
Proof.
  intros g. induction n as [|n IH]; intros a b p L W; [destruct (walk_head _ _ _ _ W) as (p' & ->); cbn in L; lia|].
  destruct W as [e|s v e p A W]; [exists [e]; split; [constructor|]; split; [constructor; [intros []|constructor]|lia]|].
  cbn in L. destruct (IH v e p ltac:(lia) W) as (q & Q & N & Lq). destruct (in_dec Nat.eq_dec s q) as [I|I].
  - destruct (walk_app g v e q Q s I) as (r & R & Lr & _). destruct (IH s e r ltac:(lia) R) as (r' & R' & N' & Lr'). exists r'. split; [exact R'|]. split; [exact N'|cbn; lia].
  - exists (s :: q). split; [now apply walk_step with v|]. split; [now constructor|cbn; lia].
Qed.
Lemma lookup_in : forall g v l, lookup g v = Some l -> incl l (concat (map snd g)).
Proof.
  induction g as [|[k m] g IH]; intros v l H; [discriminate|]. cbn in H |- *. destruct (Nat.eqb k v); [injection H as ->; apply incl_appl, incl_refl|]. apply incl_appr. now apply IH with v.
Qed.
Lemma walk_bound : forall g a b p, walk g a b p -> incl (tl p) (concat (map snd g)).
Proof.
  intros g a b p W. induction W as [e|s v e p (l & L & I) W IH]; [intros x []|]. cbn [tl]. destruct (walk_head _ _ _ _ W) as (p' & ->).
  intros x [<-|X]; [now apply (lookup_in g s l)|now apply IH].
Qed.
(** It finds a path whenever there is one. *)
Theorem C207_found : forall g s e, find_path g s e = None <-> ~ exists p, walk g s e p.
Proof.
  intros g s e. split.
  - intros H (p & W). destruct (walk_simple g (length p) s e p (le_n _) W) as (q & Q & N & _). revert H. apply (search_complete _ g s e [] q Q N); [intros v _ []|].
    pose proof (walk_bound _ _ _ _ Q) as B. destruct (walk_head _ _ _ _ Q) as (q' & ->). cbn [tl length] in *. apply le_n_S. apply NoDup_incl_length; [now inversion N|exact B].
  - intros N. destruct (find_path g s e) as [p|] eqn:E; [|reflexivity]. exfalso. apply N. exists p. now apply C207_path.
Qed.
Print Assumptions C207_found.
(** The bound on the depth of recursion does not matter. *)
Definition unseen (g : graph) (path : list vertex) : list vertex := filter (fun v => negb (mem v path)) (concat (map snd g)).
Lemma mem_app : forall x a b, mem x (a ++ b) = (mem x a || mem x b)%bool.
Proof. intros x a b. unfold mem. apply existsb_app. Qed.
Lemma unseen_le : forall (l path : list vertex) v, (length (filter (fun x => negb (mem x (path ++ [v]))) l) <= length (filter (fun x => negb (mem x path)) l))%nat.
Proof. induction l as [|x l IH]; intros path v; [auto|]. cbn [filter]. rewrite mem_app. specialize (IH path v). destruct (mem x path), (mem x [v]); cbn [orb negb length]; lia. Qed.
Lemma unseen_lt : forall (l path : list vertex) v, In v l -> ~ In v path -> (length (filter (fun x => negb (mem x (path ++ [v]))) l) < length (filter (fun x => negb (mem x path)) l))%nat.
Proof.
  induction l as [|x l IH]; intros path v I N; [destruct I|]. cbn [filter]. rewrite mem_app. destruct I as [->|I].
  - apply mem_false in N. rewrite N. replace (mem v [v]) with true by (symmetry; apply mem_spec; now left). cbn [orb negb length]. pose proof (unseen_le l path v). lia.
  - specialize (IH path v I N). destruct (mem x path), (mem x [v]); cbn [orb negb length]; lia.
Qed.
Lemma search_stable : forall g e fuel s path, (length (unseen g (path ++ [s])) < fuel)%nat -> search (S fuel) g s e path = search fuel g s e path.
Proof.
  intros g e. induction fuel as [|fuel IH]; intros s path L; [lia|]. cbn [search] in IH |- *. destruct (Nat.eqb s e); [reflexivity|]. destruct (lookup g s) as [l|] eqn:Ls; [|reflexivity].
  apply lookup_in in Ls. induction l as [|v l IHl]; [reflexivity|]. destruct (mem v (path ++ [s])) eqn:M; [apply IHl; intros x X; apply Ls; now right|].
  rewrite <- (IH v (path ++ [s])%list); [|apply Nat.lt_le_trans with (length (unseen g (path ++ [s]))); [|lia]; apply unseen_lt; [apply Ls; now left|now apply mem_false]].
  rewrite IHl; [reflexivity|]. intros x X. apply Ls. now right.
Qed.
Theorem C207_any_depth : forall g s e fuel, (length (concat (map snd g)) < fuel)%nat -> search fuel g s e [] = find_path g s e.
Proof.
  intros g s e fuel L. unfold find_path. induction L as [|fuel L IH]; [reflexivity|]. rewrite <- IH. apply search_stable. apply Nat.le_lt_trans with (length (concat (map snd g))); [|exact L]. unfold unseen.
  generalize (concat (map snd g)). induction l as [|x l IHl]; [auto|]. cbn [filter]. destruct (negb _); cbn [length]; lia.
Qed.
Print Assumptions C207_any_depth.

(** ** Edges *)
Definition same_ends (e f : vertex * vertex) : Prop := e = f \/ e = (snd f, fst f).
Lemma same_set_spec : forall e f, same_set e f = true <-> same_ends e f.
Proof.
  intros [a b] [c d]. unfold same_set, same_ends. cbn. rewrite Bool.orb_true_iff, !Bool.andb_true_iff, !Nat.eqb_eq. split; intros [H|H]; [left|right|left|right]; try (destruct H; congruence); injection H; auto.
Qed.
(** No two of the list join the same vertices. *)
Inductive distinct : list (vertex * vertex) -> Prop :=
| dist_nil : distinct []
| dist_snoc l e : distinct l -> (forall f, In f l -> ~ same_ends e f) -> distinct (l ++ [e]).
Lemma same_ends_sym : forall e f, same_ends e f -> same_ends f e.
Proof. intros [a b] [c d] [H|H]; [left; auto|right]. injection H as -> ->. reflexivity. Qed.
Lemma edges_of_spec : forall l v acc, distinct acc -> distinct (edges_of v l acc) /\ (forall e, In e (edges_of v l acc) -> In e acc \/ exists w, In w l /\ e = (v, w)) /\
  (forall e, In e acc -> In e (edges_of v l acc)) /\ (forall w, In w l -> exists e, In e (edges_of v l acc) /\ same_ends (v, w) e).
Proof.
  induction l as [|w l IH]; intros v acc D; cbn [edges_of]; [split; [exact D|]; split; [now left|]; split; [auto|intros w []]|].
  assert (Fl : same_ends (v, w) (w, v)) by now right.
  destruct (existsb (same_set (w, v)) acc) eqn:X.
  - apply existsb_exists in X. destruct X as (f & If & Sf). apply same_set_spec in Sf. destruct (IH v acc D) as (D' & A & B & C). split; [exact D'|]. split; [|split; [exact B|]].
    + intros e E. destruct (A e E) as [K|(x & K & ->)]; [now left|right; exists x; split; [now right|reflexivity]].
    + intros x [<-|K]; [|now apply C]. exists f. split; [now apply B|]. destruct f as [c d]. destruct Sf as [Sf|Sf]; injection Sf as -> ->; [now right|now left].
  - assert (D1 : distinct (acc ++ [(v, w)])).
    { constructor; [exact D|]. intros f If K. assert (existsb (same_set (w, v)) acc = true); [|congruence]. apply existsb_exists. exists f. split; [exact If|]. apply same_set_spec.
      destruct f as [c d]. destruct K as [K|K]; injection K as -> ->; [now right|now left]. }
    destruct (IH v _ D1) as (D' & A & B & C). split; [exact D'|]. split; [|split].
    + intros e E. destruct (A e E) as [K|(x & K & ->)]; [|right; exists x; split; [now right|reflexivity]]. apply in_app_or in K. destruct K as [K|[<-|[]]]; [now left|right; exists w; split; [now left|reflexivity]].
    + intros e E. apply B. apply in_or_app. now left.
    + intros x [<-|K]; [|now apply C]. exists (v, w). split; [apply B, in_or_app; right; now left|now left].
Qed.
Lemma generate_spec : forall g acc, distinct acc -> distinct (generate_edges g acc) /\
  (forall e, In e (generate_edges g acc) -> In e acc \/ exists l, In (fst e, l) g /\ In (snd e) l) /\
  (forall e, In e acc -> In e (generate_edges g acc)) /\ (forall v l w, In (v, l) g -> In w l -> exists e, In e (generate_edges g acc) /\ same_ends (v, w) e).
Proof.
  induction g as [|[v l] g IH]; intros acc D; cbn [generate_edges]; [split; [exact D|]; split; [now left|]; split; [auto|intros v l w []]|].
  destruct (edges_of_spec l v acc D) as (D1 & A1 & B1 & C1). destruct (IH _ D1) as (D2 & A2 & B2 & C2). split; [exact D2|]. split; [|split].
  - intros e E. destruct (A2 e E) as [K|(m & K & M)]; [|right; exists m; split; [now right|exact M]]. destruct (A1 e K) as [J|(w & J & ->)]; [now left|]. right. exists l. split; [now left|exact J].
  - intros e E. now apply B2, B1.
  - intros x m w [K|K] M; [|now apply C2 with m]. injection K as -> ->. destruct (C1 w M) as (e & E & S). exists e. split; [now apply B2|exact S].
Qed.
Lemma lookup_some : forall g v l, NoDup (vertices g) -> In (v, l) g -> lookup g v = Some l.
Proof.
  induction g as [|[k m] g IH]; intros v l N I; [destruct I|]. cbn in *. inversion N; subst. destruct I as [I|I]; [injection I as -> ->; now rewrite Nat.eqb_refl|].
  destruct (Nat.eqb k v) eqn:E; [|now apply IH]. apply Nat.eqb_eq in E. subst k. exfalso. apply H1. unfold vertices. change v with (fst (v, l)). now apply in_map.
Qed.
Lemma lookup_entry : forall g v l, lookup g v = Some l -> In (v, l) g.
Proof.
  induction g as [|[k m] g IH]; intros v l H; [discriminate|]. cbn in H. destruct (Nat.eqb k v) eqn:E; [apply Nat.eqb_eq in E; injection H as ->; subst; now left|right; now apply IH].
Qed.
(** edges() lists every joined pair once, in whichever direction. *)
Theorem C207_edges : forall g, NoDup (vertices g) -> distinct (edges g) /\ (forall v w, In (v, w) (edges g) -> arrow g v w) /\
  (forall v w, arrow g v w -> exists e, In e (edges g) /\ same_ends (v, w) e).
Proof.
  intros g N. destruct (generate_spec g [] dist_nil) as (D & A & _ & C). split; [exact D|]. split.
  - intros v w I. destruct (A _ I) as [[]|(l & L & W)]. exists l. split; [now apply lookup_some|exact W].
  - intros v w (l & L & W). apply C with l; [now apply lookup_entry|exact W].
Qed.
Print Assumptions C207_edges.

(** ** Changes *)
Lemma lookup_app : forall g h v, lookup (g ++ h) v = match lookup g v with Some l => Some l | None => lookup h v end.
Proof. induction g as [|[k m] g IH]; intros h v; [reflexivity|]. cbn. destruct (Nat.eqb k v); [reflexivity|apply IH]. Qed.
Lemma lookup_append_to : forall g v w x, lookup (append_to g v w) x = if Nat.eqb v x then match lookup g v with Some l => Some (l ++ [w])%list | None => None end else lookup g x.
Proof.
  induction g as [|[k m] g IH]; intros v w x; cbn; [now destruct (Nat.eqb v x)|]. destruct (Nat.eqb k v) eqn:E.
  - apply Nat.eqb_eq in E. subst k. cbn. destruct (Nat.eqb v x); reflexivity.
  - cbn. rewrite IH. destruct (Nat.eqb k x) eqn:F; [|reflexivity]. apply Nat.eqb_eq in F. subst x. rewrite Nat.eqb_sym, E. reflexivity.
Qed.
Lemma vertices_append_to : forall g v w, vertices (append_to g v w) = vertices g.
Proof. induction g as [|[k m] g IH]; intros v w; [reflexivity|]. cbn. destruct (Nat.eqb k v); [reflexivity|]. cbn. f_equal. apply IH. Qed.
Lemma lookup_vertex : forall g v, In v (vertices g) <-> lookup g v <> None.
Proof.
  induction g as [|[k m] g IH]; intros v; cbn; [tauto|]. destruct (Nat.eqb k v) eqn:E; [apply Nat.eqb_eq in E; subst; split; [discriminate|now left]|]. rewrite <- IH.
  split; [intros [->|K]; [rewrite Nat.eqb_refl in E; discriminate|exact K]|now right].
Qed.
Lemma nodup_snoc : forall (l : list nat) x, NoDup l -> ~ In x l -> NoDup (l ++ [x]).
Proof. intros l x N I. rewrite <- (rev_involutive (l ++ [x])). apply NoDup_rev. rewrite rev_app_distr. cbn. constructor; [now rewrite <- in_rev|now apply NoDup_rev]. Qed.
(** add_vertex adds the vertex once and no arrow; add_edge adds exactly one arrow, from the element of the set popped first. *)
Theorem C207_add_vertex : forall g v, NoDup (vertices g) -> NoDup (vertices (add_vertex g v)) /\ (forall x, In x (vertices (add_vertex g v)) <-> In x (vertices g) \/ x = v) /\
  (forall a b, arrow (add_vertex g v) a b <-> arrow g a b) /\ add_vertex (add_vertex g v) v = add_vertex g v.
Proof.
  intros g v N. unfold add_vertex. destruct (lookup g v) as [l|] eqn:L.
  - assert (In v (vertices g)) by (apply lookup_vertex; congruence). split; [exact N|]. split; [intros x; split; [now left|intros [K| ->]; assumption]|]. split; [tauto|]. now rewrite L.
  - assert (~ In v (vertices g)) by (rewrite lookup_vertex; congruence). unfold vertices in *. rewrite map_app. cbn [map fst]. split; [now apply nodup_snoc|]. split; [|split].
    + intros x. rewrite in_app_iff. cbn. split; [intros [K|[K|[]]]; auto|intros [K|K]; auto].
    + intros a b. unfold arrow. rewrite lookup_app. cbn. split; intros (m & M & I).
      * destruct (lookup g a); [now exists m|]. destruct (Nat.eqb v a); [injection M as <-; destruct I|discriminate].
      * rewrite M. now exists m.
    + rewrite lookup_app, L. cbn. now rewrite Nat.eqb_refl.
Qed.
Print Assumptions C207_add_vertex.
Theorem C207_add_edge : forall g o a b, NoDup (vertices g) -> exists v w, ((v, w) = (a, b) \/ (v, w) = (b, a)) /\
  NoDup (vertices (add_edge o g a b)) /\ (forall x, In x (vertices (add_edge o g a b)) <-> In x (vertices g) \/ x = v) /\
  (forall x y, arrow (add_edge o g a b) x y <-> arrow g x y \/ (x, y) = (v, w)).
Proof.
  intros g o a b N. assert (G : forall v w, let h := match lookup g v with Some _ => append_to g v w | None => (g ++ [(v, [w])])%list end in
    NoDup (vertices h) /\ (forall x, In x (vertices h) <-> In x (vertices g) \/ x = v) /\ (forall x y, arrow h x y <-> arrow g x y \/ (x, y) = (v, w))).
  2: { destruct o; [exists b, a|exists a, b]; (split; [tauto|]); apply G. }
  intros v w h. subst h. destruct (lookup g v) as [l|] eqn:L.
  - rewrite vertices_append_to. assert (In v (vertices g)) by (apply lookup_vertex; congruence). split; [exact N|]. split; [intros x; split; [now left|intros [K| ->]; assumption]|].
    intros x y. unfold arrow. rewrite lookup_append_to, L. destruct (Nat.eqb v x) eqn:E.
    + apply Nat.eqb_eq in E. subst x. rewrite L. split.
      * intros (m & M & I). injection M as <-. apply in_app_or in I. destruct I as [I|[<-|[]]]; [left; now exists l|now right].
      * intros [(m & M & I)|K]; eexists; (split; [reflexivity|]); apply in_or_app; [left; congruence|right; injection K as ->; now left].
    + split; [now left|]. intros [K|K]; [exact K|]. injection K as -> _. rewrite Nat.eqb_refl in E. discriminate.
  - assert (~ In v (vertices g)) by (rewrite lookup_vertex; congruence). unfold vertices in *. rewrite map_app. cbn [map fst]. split; [now apply nodup_snoc|]. split.
    + intros x. rewrite in_app_iff. cbn. split; [intros [K|[K|[]]]; auto|intros [K|K]; auto].
    + intros x y. unfold arrow. rewrite lookup_app. cbn. split.
      * intros (m & M & I). destruct (lookup g x); [left; now exists m|]. destruct (Nat.eqb v x) eqn:E; [|discriminate]. apply Nat.eqb_eq in E. injection M as <-. destruct I as [<-|[]]. subst. now right.
      * intros [(m & M & I)|K]; [rewrite M; now exists m|]. injection K as -> ->. rewrite L, Nat.eqb_refl. eexists. split; [reflexivity|now left].
Qed.
Print Assumptions C207_add_edge.

Example ex_graph : let g := [(0, [1; 2]); (1, [3; 0]); (2, [4]); (3, [1]); (4, [])]%nat in
  find_path g 0%nat 4%nat = Some [0; 2; 4]%nat /\ find_path g 4%nat 0%nat = None /\ edges g = [(0, 1); (0, 2); (1, 3); (2, 4)]%nat.
Proof. repeat split. Qed.

(** * C208 *)
(** After add_edge((a, b)) there is a path from a to b: no, the order of a set decides. *)
Theorem C208_add_edge_refuted : exists o g a b, find_path (add_edge o g a b) a b = None.
Proof. exists true, [(0, []); (1, [])]%nat, 0%nat, 1%nat. reflexivity. Qed.
Print Assumptions C208_add_edge_refuted.
(** Edges can be walked both ways: no, although edges() gives them as sets. *)
Theorem C208_undirected_refuted : exists g v w, In (v, w) (edges g) /\ find_path g w v = None.
Proof. exists [(0, [1]); (1, [])]%nat, 0%nat, 1%nat. split; [now left|reflexivity]. Qed.
Print Assumptions C208_undirected_refuted.
(** All vertices of edges are vertices of the graph: no, add_edge adds only one end. *)
Theorem C208_vertices_refuted : exists o g a b v w, In (v, w) (edges (add_edge o g a b)) /\ ~ In w (vertices (add_edge o g a b)).
Proof. exists false, [], 0%nat, 1%nat, 0%nat, 1%nat. split; [now left|]. intros [K|[]]. discriminate. Qed.
Print Assumptions C208_vertices_refuted.
(** The path found is a shortest one: no. *)
Theorem C208_shortest_refuted : exists g s e p q, find_path g s e = Some p /\ walk g s e q /\ (length q < length p)%nat.
Proof.
  exists [(0, [1; 2]); (1, [2]); (2, [])]%nat, 0%nat, 2%nat, [0; 1; 2]%nat, [0; 2]%nat. split; [reflexivity|]. split; [|cbn; lia].
  apply walk_step with 2%nat; [|constructor]. exists [1; 2]%nat. split; [reflexivity|right; now left].
Qed.
Print Assumptions C208_shortest_refuted.
