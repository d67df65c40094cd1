(** C56: background writers. *)
From Verif Require Import PyBase PfProofs RaceModel.

Section Proofs.
  Context {V : Type}.
  Implicit Types (s : @store V).

  Lemma loc_eqb_iff : forall a b, loc_eqb a b = true <-> a = b.
  Proof.
    intros [a1 a2] [b1 b2]. unfold loc_eqb. cbn. rewrite Bool.andb_true_iff, !Nat.eqb_eq. split; [intros [-> ->]; reflexivity|].
    intros E. injection E as -> ->. now split.
  Qed.
  Lemma put_other : forall s l v k, k <> l -> put s l v k = s k.
  Proof. intros s l v k N. unfold put. destruct (loc_eqb k l) eqn:E; [apply loc_eqb_iff in E; congruence|reflexivity]. Qed.

  (** ** Specification: the store after the first [n] assignments. *)
  Fixpoint after (s : store) (m : list assign) (n : nat) : @store V :=
    match n, m with S n, (l, f) :: m => after (put s l (f s)) m n | _, _ => s end.

  Fixpoint rises (ns : list nat) : Prop := match ns with a :: ((b :: _) as r) => (a <= b)%nat /\ rises r | _ => True end.

  (** Invariant: each writer has read its first locations, each at a stage of the main
      program, the stages never going back. *)
  Definition ok (s0 : store) (m0 : list assign) (done : nat) (file : list loc) (w : writer) : Prop :=
    exists ns, length ns = length (snd w) /\ rises ns /\ (forall n, In n ns -> (n <= done)%nat) /\
      exists read, file = read ++ fst w /\ Forall2 (fun (p : loc * nat) (v : V) => v = after s0 m0 (snd p) (fst p)) (combine read ns) (snd w)
        /\ length read = length ns.

  Lemma rises_snoc : forall ns d, rises ns -> (forall n, In n ns -> (n <= d)%nat) -> rises (ns ++ [d]).
  Proof.
    induction ns as [|a ns IH]; intros d R B; [exact I|]. destruct ns as [|b ns]; cbn [app rises] in *.
    - split; [|exact I]. apply B. now left.
    - destruct R as [R1 R2]. split; [exact R1|]. apply IH; [exact R2|]. intros n J. apply B. now right.
  Qed.
  Lemma combine_snoc : forall A B (a : list A) (b : list B) x y, length a = length b -> combine (a ++ [x]) (b ++ [y]) = combine a b ++ [(x, y)].
  Proof. induction a as [|c a IH]; intros [|e b] x y L; try discriminate; [reflexivity|]. cbn in *. f_equal. apply IH. lia. Qed.

  Definition inv (s0 : store) (m0 : list assign) (files : list (list loc)) (w : world) : Prop :=
    exists done, (done <= length m0)%nat /\ main w = skipn done m0 /\ st w = after s0 m0 done /\ Forall2 (ok s0 m0 done) files (writers w).

  Lemma after_S_eq : forall m s n l f rest, skipn n m = (l, f) :: rest ->
    after s m (S n) = put (after s m n) l (f (after s m n)).
  Proof.
    induction m as [|[l0 f0] m IH]; intros s n l f rest H; [destruct n; discriminate|]. destruct n as [|n].
    - cbn in H. assert (l = l0 /\ f = f0) as [-> ->] by (split; congruence). now destruct m as [|[? ?] ?].
    - cbn [skipn] in H. change (after s ((l0, f0) :: m) (S (S n))) with (after (put s l0 (f0 s)) m (S n)).
      change (after s ((l0, f0) :: m) (S n)) with (after (put s l0 (f0 s)) m n). eapply IH; eauto.
  Qed.
  Lemma skipn_S : forall A (m : list A) n x rest, skipn n m = x :: rest -> skipn (S n) m = rest /\ (S n <= length m)%nat.
  Proof.
    induction m as [|y m IH]; intros n x rest H; [destruct n; discriminate|]. destruct n as [|n].
    - cbn in H. injection H as -> ->. split; [reflexivity|cbn; lia].
    - cbn [skipn] in H. destruct (IH _ _ _ H) as [E L]. split; [exact E|cbn; lia].
  Qed.
  Lemma ok_mono : forall s0 m0 a b file w, (a <= b)%nat -> ok s0 m0 a file w -> ok s0 m0 b file w.
  Proof.
    intros s0 m0 a b file w L (ns & H1 & H2 & H3 & H4). exists ns. repeat split; try assumption.
    intros n I. specialize (H3 n I). lia.
  Qed.

  Lemma step_inv : forall s0 m0 files a b, inv s0 m0 files a -> step a b -> inv s0 m0 files b.
  Proof.
    intros s0 m0 files a b (done & LD & HM & HS & HW) S. destruct S as [s l f rest ws|s m l todo out before aft]; cbn [st main writers] in *.
    - destruct (skipn_S _ _ _ _ _ (eq_sym HM)) as [E L]. exists (S done). cbn [st main writers]. repeat split; [exact L|now rewrite E| |].
      + rewrite (after_S_eq m0 s0 done l f rest (eq_sym HM)). now rewrite HS.
      + eapply Forall2_impl; [|exact HW]. intros file w. apply ok_mono. lia.
    - exists done. cbn [st main writers]. repeat split; try assumption.
      apply Forall2_app_inv_r in HW as (f1 & f2 & W1 & W2 & ->). apply Forall2_app; [exact W1|].
      inversion W2 as [|file w fr wr O R]; subst. constructor; [|exact R].
      destruct O as (ns & H1 & H2 & H3 & read & H4 & H5 & H6). cbn [fst snd] in *. exists (ns ++ [done]). cbn [fst snd].
      split; [rewrite !app_length; cbn; lia|]. split; [now apply rises_snoc|]. split.
      + intros n I. apply in_app_iff in I as [I|[<-|[]]]; [now apply H3|lia].
      + exists (read ++ [l]). split; [rewrite <- app_assoc; exact H4|]. split; [|rewrite !app_length; cbn; lia].
        rewrite combine_snoc by exact H6. apply Forall2_app; [exact H5|]. constructor; [|constructor]. reflexivity.
  Qed.
  Lemma start_inv : forall s0 m0 files, inv s0 m0 files (start s0 m0 files).
  Proof.
    intros s0 m0 files. exists 0%nat. unfold start. cbn [st main writers]. split; [lia|]. split; [reflexivity|]. split; [now destruct m0|].
    induction files as [|f files IH]; cbn [map]; constructor; [|exact IH].
    exists []. cbn. split; [reflexivity|]. split; [exact I|]. split; [intros n []|]. exists []. split; [reflexivity|]. split; [constructor|reflexivity].
  Qed.
  Lemma steps_inv : forall s0 m0 files a b, inv s0 m0 files a -> steps a b -> inv s0 m0 files b.
  Proof. intros s0 m0 files a b I S. induction S as [|a b c S1 S2 IH]; [exact I|]. apply IH. eapply step_inv; eauto. Qed.

  Lemma schedule : forall s0 m0 files w, steps (start s0 m0 files) w -> joined w ->
    Forall2 (fun file x => exists ns, length ns = length file /\ rises ns /\ (forall n, In n ns -> (n <= length m0)%nat) /\
      Forall2 (fun (p : loc * nat) (v : V) => v = after s0 m0 (snd p) (fst p)) (combine file ns) (snd x)) files (writers w).
  Proof.
    intros s0 m0 files w S [J1 J2]. destruct (steps_inv _ _ _ _ _ (start_inv s0 m0 files) S) as (done & LD & HM & HS & HW).
    clear S HS HM J1. revert J2 HW. generalize (writers w) as ws. intros ws J2 HW.
    induction HW as [|file x fs ws O R IH]; constructor.
    - destruct O as (ns & H1 & H2 & H3 & read & H4 & H5 & H6). rewrite (J2 x (or_introl eq_refl)), app_nil_r in H4. subst read.
      exists ns. split; [congruence|]. split; [exact H2|]. split; [intros n I; specialize (H3 n I); lia|exact H5].
    - apply IH. intros y I. apply J2. now right.
  Qed.

  Lemma after_untouched : forall m s n k, (forall a, In a m -> fst a <> k) -> after s m n k = s k.
  Proof.
    induction m as [|[l f] m IH]; intros s n k H; [destruct n; reflexivity|]. destruct n as [|n]; [reflexivity|].
    cbn [after]. rewrite IH by (intros a I; apply H; now right). apply put_other. intros E. apply (H (l, f)); [now left|now symmetry].
  Qed.
End Proofs.

(** Whatever the schedule, cell [i] of a file is the value its location had after some
    number of the main thread's assignments, and that number never falls along the file. *)
Theorem C56_schedule : forall V (s0 : @store V) m0 files w, steps (start s0 m0 files) w -> joined w ->
  Forall2 (fun file x => exists ns, length ns = length file /\ rises ns /\ (forall n, In n ns -> (n <= length m0)%nat) /\
    Forall2 (fun (p : loc * nat) (v : V) => v = after s0 m0 (snd p) (fst p)) (combine file ns) (snd x)) files (writers w).
Proof. intros V. exact schedule. Qed.
Print Assumptions C56_schedule.

(** Files whose records the main thread leaves alone are snapshots, under every schedule
    (whatever happens to the other files). *)
Theorem C56_snapshot : forall V (s0 : @store V) m0 files w, steps (start s0 m0 files) w -> joined w ->
  Forall2 (fun file x => (forall l a, In l file -> In a m0 -> fst a <> l) -> snd x = map s0 file) files (writers w).
Proof.
  intros V s0 m0 files w S J. eapply Forall2_impl; [|exact (schedule _ _ _ _ S J)].
  intros file [t out] (ns & L & _ & _ & F) H. cbn [snd] in *. clear S J. revert ns out L F.
  induction file as [|l file IH]; intros ns out L F.
  - destruct ns; inversion F; reflexivity.
  - destruct ns as [|n ns]; [discriminate|]. cbn [combine] in F. inversion F as [|p v ps vs E R]; subst. cbn [map fst snd].
    rewrite after_untouched by (intros a I; apply H; [now left|exact I]). f_equal. apply (IH) with (ns := ns); [|cbn in L; lia|exact R].
    intros k a I1 I2. apply H; [now right|exact I2].
Qed.
Print Assumptions C56_snapshot.

(** The main thread's conversion of the first camera's poses touches records that are still
    being written: one schedule gives the poses, another gives differences. *)
Definition s0 : @store Q := (fun l => match fst l with O => 10 | S O => 30 | _ => 70 end)%Q.
Definition file := file_locs 3 1.
Definition prog := relative_program 3 1.
Ltac main := eapply steps_cons; [apply step_main|].
Ltac write := eapply steps_cons; [apply (step_write _ _ _ _ _ [] [])|]; cbn [app].
Theorem C156_refuted : exists (s0 : @store Q) m0 file w, steps (start s0 m0 [file]) w /\ joined w /\
  m0 = relative_program 3 1 /\ file = file_locs 3 1 /\ map snd (writers w) <> [map s0 file].
Proof.
  exists s0, prog, file. eexists. split.
  - unfold start, prog, file, relative_program, file_locs. cbn [seq flat_map map app Nat.sub]. main. write. write. main. write. apply steps_refl.
  - split; [split; [reflexivity|intros x [<-|[]]; reflexivity]|]. split; [reflexivity|]. split; [reflexivity|].
    vm_compute. discriminate.
Qed.
Print Assumptions C156_refuted.

Example C56_example : exists w, steps (start s0 prog [file]) w /\ joined w /\ map snd (writers w) = [[10; 30; 70]%Q] /\ (st w (0, 0)%nat == -20)%Q.
Proof.
  eexists. split.
  - unfold start, prog, file, relative_program, file_locs. cbn [seq flat_map map app Nat.sub]. write. main. write. main. write. apply steps_refl.
  - split; [split; [reflexivity|intros x [<-|[]]; reflexivity]|]. split; vm_compute; reflexivity.
Qed.
