(** C53: RANSAC and the iteration it reports. *)
From Verif Require Import PyBase RansacModel.
From Coq Require Import Reals Lra.
Open Scope nat_scope.

(** ** Specification: the consensus set of iteration [k]. *)
Definition consensus {P M} (svd : list P -> M) (ok : M -> P -> bool) (data : list P) (sample : nat -> list P) (k : nat) (found : list P) : Prop :=
  found = filter (ok (svd (firstn 3 (sample k)))) data.

Lemma loop_spec : forall P M svd ok data sample goal stop n i best last r,
  loop P M svd ok data sample goal stop n i best last = Some r ->
  (n = 0 /\ last = Some r) \/
  exists found k, r = (found, k) /\ i <= k < i + n /\ consensus svd ok data sample k found /\
    (S k < i + n -> stop = true /\ goal < length found /\ best < length found /\
       forall k' found', i <= k' < k -> consensus svd ok data sample k' found' -> length found' < length found).
Proof.
  intros P M svd ok data sample goal stop. induction n as [|n IH]; intros i best last r E; [left; split; [reflexivity|exact E]|].
  cbn [loop] in E. right. unfold fit_plane in E. destruct (sample i) as [|x xs] eqn:Si; [discriminate|]. rewrite <- Si in E. fold (fit_plane P M svd) in E.
  set (found := inliers_of P M ok data (svd (firstn 3 (sample i)))) in *. destruct (best <? length found) eqn:B.
  - apply Nat.ltb_lt in B. destruct ((goal <? length found) && stop) eqn:G.
    + injection E as <-. apply andb_prop in G. destruct G as [G ->]. apply Nat.ltb_lt in G. exists found, i. split; [reflexivity|]. split; [lia|]. split; [reflexivity|].
      intros _. repeat split; auto. intros k' found' H. lia.
    + destruct (IH _ _ _ _ E) as [[-> F]|(il & k & -> & K & C & F)].
      * injection F as <-. exists found, i. split; [reflexivity|]. split; [lia|]. split; [reflexivity|]. lia.
      * exists il, k. split; [reflexivity|]. split; [lia|]. split; [exact C|]. intros H. destruct (F ltac:(lia)) as (F1 & F2 & F3 & F4). repeat split; auto; [lia|].
        intros k' found' H' C'. destruct (Nat.eq_dec k' i) as [->|N]; [|apply (F4 k' found'); [lia|exact C']]. unfold consensus in C'. subst found'. exact F3.
  - apply Nat.ltb_ge in B. destruct (IH _ _ _ _ E) as [[-> F]|(il & k & -> & K & C & F)].
    + injection F as <-. exists found, i. split; [reflexivity|]. split; [lia|]. split; [reflexivity|]. lia.
    + exists il, k. split; [reflexivity|]. split; [lia|]. split; [exact C|]. intros H. destruct (F ltac:(lia)) as (F1 & F2 & F3 & F4). repeat split; auto.
      intros k' found' H' C'. destruct (Nat.eq_dec k' i) as [->|N]; [|apply (F4 k' found'); [lia|exact C']]. unfold consensus in C'. subst found'.
      change (length found < length il). lia.
Qed.
(** The reported iteration is one of those allowed, its consensus set is what is returned, in
    the order of the data, and the model is that of its first three points. *)
Theorem C53_last : forall P M svd ok data sample goal maximum stop o, run_ransac P M svd ok data sample goal maximum stop = Some o ->
  iteration o < maximum /\ consensus svd ok data sample (iteration o) (inliers o) /\ model o = svd (firstn 3 (inliers o)) /\ incl (inliers o) data /\ inliers o <> [].
Proof.
  intros P M svd ok data sample goal maximum stop o E. unfold run_ransac in E. destruct (loop P M svd ok data sample goal stop maximum 0 0 None) as [[found i]|] eqn:L; [|discriminate].
  destruct (fit_plane P M svd found) as [m|] eqn:F; [|discriminate]. injection E as <-. cbn [iteration inliers model].
  destruct (loop_spec _ _ _ _ _ _ _ _ _ _ _ _ _ L) as [[_ H]|(il & k & H & K & C & _)]; [discriminate|]. injection H as <- <-.
  split; [lia|]. split; [exact C|]. unfold fit_plane in F. destruct found as [|x xs]; [discriminate|]. injection F as <-. split; [reflexivity|]. split; [|discriminate].
  unfold consensus in C. rewrite C. intros y Y. apply filter_In in Y. apply Y.
Qed.
Print Assumptions C53_last.
(** Whenever the search ends before the maximum it ends at the best iteration so far, above
    the goal. *)
Theorem C53_goal : forall P M svd ok data sample goal maximum stop o, run_ransac P M svd ok data sample goal maximum stop = Some o ->
  S (iteration o) < maximum -> stop = true /\ goal < length (inliers o) /\
  forall k found, k < iteration o -> consensus svd ok data sample k found -> length found < length (inliers o).
Proof.
  intros P M svd ok data sample goal maximum stop o E N. unfold run_ransac in E. destruct (loop P M svd ok data sample goal stop maximum 0 0 None) as [[found i]|] eqn:L; [|discriminate].
  destruct (fit_plane P M svd found) as [m|] eqn:F; [|discriminate]. injection E as <-. cbn [iteration inliers] in *.
  destruct (loop_spec _ _ _ _ _ _ _ _ _ _ _ _ _ L) as [[_ H]|(il & k & H & K & C & G)]; [discriminate|]. injection H as <- <-.
  destruct (G ltac:(lia)) as (G1 & G2 & _ & G4). repeat split; auto. intros k' found' H. apply G4. lia.
Qed.
Print Assumptions C53_goal.

(** ** What the singular vector is on three points *)
Open Scope R_scope.
Record vec := V3 { vx : R; vy : R; vz : R }.
Record vec4 := V4 { v0 : R; v1 : R; v2 : R; v3 : R }.
Definition at_point (m : vec4) (p : vec) : R := v0 m * vx p + v1 m * vy p + v2 m * vz p + v3 m.
(** A unit vector, first entry not negative, that vanishes on three given points not on one
    line: there is one, and it is what the decomposition gives. *)
Definition apart (a b c : vec) : Prop :=
  let x := (vy b - vy a) * (vz c - vz a) - (vz b - vz a) * (vy c - vy a) in
  let y := (vz b - vz a) * (vx c - vx a) - (vx b - vx a) * (vz c - vz a) in
  let z := (vx b - vx a) * (vy c - vy a) - (vy b - vy a) * (vx c - vx a) in x <> 0 \/ y <> 0 \/ z <> 0.
Definition svd_like (svd : list vec -> vec4) : Prop := forall a b c, apart a b c -> let m := svd [a; b; c] in
  at_point m a = 0 /\ at_point m b = 0 /\ at_point m c = 0 /\ v0 m ^ 2 + v1 m ^ 2 + v2 m ^ 2 + v3 m ^ 2 = 1 /\ 0 <= v0 m.
Lemma plane_exists : forall a b c, apart a b c -> exists m,
  at_point m a = 0 /\ at_point m b = 0 /\ at_point m c = 0 /\ v0 m ^ 2 + v1 m ^ 2 + v2 m ^ 2 + v3 m ^ 2 = 1 /\ 0 <= v0 m.
Proof.
  intros a b c H. unfold apart in H. cbv zeta in H.
  set (x := (vy b - vy a) * (vz c - vz a) - (vz b - vz a) * (vy c - vy a)) in *. set (y := (vz b - vz a) * (vx c - vx a) - (vx b - vx a) * (vz c - vz a)) in *.
  set (z := (vx b - vx a) * (vy c - vy a) - (vy b - vy a) * (vx c - vx a)) in *. set (w := - (x * vx a + y * vy a + z * vz a)).
  assert (0 < x ^ 2 + y ^ 2 + z ^ 2 + w ^ 2) as N by (destruct H as [H|[H|H]]; nra). set (n := sqrt (x ^ 2 + y ^ 2 + z ^ 2 + w ^ 2)).
  assert (0 < n) as N0 by now apply sqrt_lt_R0. assert (n * n = x ^ 2 + y ^ 2 + z ^ 2 + w ^ 2) as NN by (apply sqrt_sqrt; lra).
  assert (exists s, s * s = 1 /\ 0 <= s * x) as (s & S1 & S2).
  { destruct (Rle_dec 0 x); [exists 1|exists (-1)]; lra. }
  exists (V4 (s * x / n) (s * y / n) (s * z / n) (s * w / n)). unfold at_point. cbn [v0 v1 v2 v3].
  repeat split.
  - unfold w. field. lra.
  - unfold w, x, y, z. field. lra.
  - unfold w, x, y, z. field. lra.
  - replace (_ + _) with (s * s * (x ^ 2 + y ^ 2 + z ^ 2 + w ^ 2) / (n * n)) by (field; lra). rewrite S1, <- NN. field. lra.
  - unfold Rdiv. apply Rmult_le_pos; [exact S2|]. left. now apply Rinv_0_lt_compat.
Qed.
(** ransac.py:32: is_inlier. *)
Definition within (threshold : R) (m : vec4) (p : vec) : bool := if Rlt_dec (Rabs (at_point m p)) threshold then true else false.
Lemma within_true : forall h m p, Rabs (at_point m p) < h -> within h m p = true.
Proof. intros h m p H. unfold within. now destruct (Rlt_dec _ _). Qed.
Lemma within_false : forall h m p, h <= Rabs (at_point m p) -> within h m p = false.
Proof. intros h m p H. unfold within. destruct (Rlt_dec _ _); [lra|reflexivity]. Qed.

(** Without the goal being reached the last iteration is returned, though an earlier one found
    more inliers. *)
Definition A := V3 0 0 0. Definition B := V3 0 1 0. Definition C := V3 0 0 1. Definition D := V3 0 1 1. Definition E := V3 5 0 0.
Definition P1 := V3 (1 / 2) 0 0. Definition P2 := V3 (1 / 2) 1 0. Definition P3 := V3 (1 / 2) 0 1. Definition Q := V3 (- 1 / 2) 0 0.
Definition draws (k : nat) : list vec := match k with O => [A; B; C] | _ => [A; C; E] end.
Theorem C153_best_refuted : exists data sample goal maximum h, (forall k, incl (sample k) data) /\ forall svd, svd_like svd ->
  exists o best, run_ransac vec vec4 svd (within h) data sample goal maximum true = Some o /\
    consensus svd (within h) data sample 0 best /\ (0 < maximum)%nat /\ (length (inliers o) < length best)%nat.
Proof.
  exists [A; B; C; D; E], draws, 4%nat, 2%nat, (1 / 2). split.
  { intros [|k] x X; cbn [draws] in X; destruct X as [<-|[<-|[<-|[]]]]; cbn [In]; auto 8. }
  intros svd S.
  assert (filter (within (1 / 2) (svd [A; B; C])) [A; B; C; D; E] = [A; B; C; D]) as F0.
  { destruct (S A B C ltac:(unfold apart, A, B, C, E, P1, P2, P3; cbn; lra)) as (S1 & S2 & S3 & S4 & S5). set (m := svd [A; B; C]) in *. unfold at_point, A, B, C in S1, S2, S3. cbn [vx vy vz] in *.
    assert (v3 m = 0) by lra. assert (v1 m = 0) by lra. assert (v2 m = 0) by lra. assert (v0 m = 1) by nra.
    cbn [filter]. rewrite (within_true _ m A), (within_true _ m B), (within_true _ m C), (within_true _ m D), (within_false _ m E); [reflexivity|..]; unfold at_point, A, B, C, D, E; cbn;
      first [apply Rabs_def1; lra | rewrite Rabs_right; lra | replace (_ + _) with (v1 m) by lra; assumption]. }
  assert (filter (within (1 / 2) (svd [A; C; E])) [A; B; C; D; E] = [A; C; E]) as F1.
  { destruct (S A C E ltac:(unfold apart, A, B, C, E, P1, P2, P3; cbn; lra)) as (S1 & S2 & S3 & S4 & S5). set (m := svd [A; C; E]) in *. unfold at_point, A, C, E in S1, S2, S3. cbn [vx vy vz] in *.
    assert (v3 m = 0) by lra. assert (v2 m = 0) by lra. assert (v0 m = 0) by lra. assert (v1 m ^ 2 = 1) by nra.
    assert (1 / 2 <= Rabs (v1 m)) by (unfold Rabs; destruct (Rcase_abs _); nra).
    cbn [filter]. rewrite (within_true _ m A), (within_false _ m B), (within_true _ m C), (within_false _ m D), (within_true _ m E); [reflexivity|..]; unfold at_point, A, B, C, D, E; cbn;
      first [apply Rabs_def1; lra | rewrite Rabs_right; lra | replace (_ + _) with (v1 m) by lra; assumption]. }
  eexists. exists [A; B; C; D]. split; [|split; [unfold consensus; cbn [firstn draws]; now rewrite F0|split; [lia|]]].
  - unfold run_ransac. cbn [loop draws fit_plane firstn]. unfold inliers_of. rewrite F0, F1. cbn. reflexivity.
  - cbn. lia.
Qed.
Print Assumptions C153_best_refuted.

(** The returned model is fitted anew to three of the inliers, and need not accept the others. *)
Theorem C153_inliers_refuted : exists data sample goal maximum h, (forall k, incl (sample k) data) /\ forall svd, svd_like svd ->
  exists o x, run_ransac vec vec4 svd (within h) data sample goal maximum true = Some o /\ In x (inliers o) /\ within h (model o) x = false.
Proof.
  exists [P1; P2; P3; A; B; C; Q], (fun _ => [A; B; C]), 0%nat, 1%nat, (6 / 10). split.
  { intros k x X. destruct X as [<-|[<-|[<-|[]]]]; cbn [In]; auto 8. }
  intros svd S.
  assert (filter (within (6 / 10) (svd [A; B; C])) [P1; P2; P3; A; B; C; Q] = [P1; P2; P3; A; B; C; Q]) as F0.
  { destruct (S A B C ltac:(unfold apart, A, B, C, E, P1, P2, P3; cbn; lra)) as (S1 & S2 & S3 & S4 & S5). set (m := svd [A; B; C]) in *. unfold at_point, A, B, C in S1, S2, S3. cbn [vx vy vz] in *.
    assert (v3 m = 0) by lra. assert (v1 m = 0) by lra. assert (v2 m = 0) by lra. assert (v0 m = 1) by nra.
    cbn [filter]. rewrite (within_true _ m P1), (within_true _ m P2), (within_true _ m P3), (within_true _ m A), (within_true _ m B), (within_true _ m C), (within_true _ m Q); [reflexivity|..];
      unfold at_point, A, B, C, P1, P2, P3, Q; cbn; apply Rabs_def1; lra. }
  exists (mkout _ _ (svd [P1; P2; P3]) [P1; P2; P3; A; B; C; Q] 0), Q. split.
  - unfold run_ransac. cbn [loop fit_plane firstn]. unfold inliers_of. rewrite F0. cbn. reflexivity.
  - split; [cbn [In inliers]; auto 10|]. cbn [model]. destruct (S P1 P2 P3 ltac:(unfold apart, A, B, C, E, P1, P2, P3; cbn; lra)) as (S1 & S2 & S3 & S4 & S5). set (m := svd [P1; P2; P3]) in *. unfold at_point, P1, P2, P3 in S1, S2, S3. cbn [vx vy vz] in *.
    assert (v1 m = 0) by lra. assert (v2 m = 0) by lra. assert (v3 m = - v0 m / 2) by lra.
    apply within_false. unfold at_point, Q. cbn [vx vy vz]. replace (_ + _) with (- v0 m) by lra. rewrite Rabs_Ropp, Rabs_right by lra.
    assert (v0 m ^ 2 = 4 / 5) by nra. nra.
Qed.
Print Assumptions C153_inliers_refuted.
(** No iteration at all: [inliers] is unbound. *)
Example C53_zero : forall P M svd ok data sample goal stop, run_ransac P M svd ok data sample goal 0 stop = None. Proof. reflexivity. Qed.
(** Reaching the goal. *)
Example C53_ex : run_ransac nat nat (fun l => hd 0%nat l) (fun m x => Nat.even (m + x)) [1; 2; 4; 6; 8]%nat (fun k => nth k [[1]; [2]; [1]]%nat [1%nat]) 3 10 true
  = Some (mkout nat nat 2%nat [2; 4; 6; 8]%nat 1).
Proof. reflexivity. Qed.
