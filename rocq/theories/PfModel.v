(** Model of the particle filter (auv_nav/localisation/pf.py).  Weights, times and
    states are exact rationals; the random draws, the observation likelihood and
    the body-to-world rotation are arguments. *)
From Verif Require Import PyBase SortQ.
Open Scope Q_scope.

(** ** Weights.  A particle is its content paired with its weight. *)
Section Weights.
  Context {A : Type}.
  Local Notation wparticle := (A * Q)%type.
  Definition weight (p : wparticle) : Q := snd p.

  (** pf.py:260-262: equal weights after [set_prior]. *)
  Definition set_prior (n : nat) (prior : A) : list wparticle :=
    repeat (prior, 1 / inject_Z (Z.of_nat n)) n.

  Fixpoint total (l : list wparticle) : Q :=
    match l with [] => 0 | p :: l' => weight p + total l' end.

  (** pf.py:287-294. *)
  Definition epsilon : Q := 1 # 100000000000000000000.
  Definition normalize (l : list wparticle) : list wparticle :=
    let s := total l in
    let norm := if Qltb s epsilon then s + epsilon else s in
    map (fun p => (fst p, weight p / norm)) l.

  (** pf.py:281-285: reweight, sort in descending order (stable), normalise.
      [lik] stands for [om.measure] with the current USBL fix. *)
  Definition measure (lik : A -> Q) (l : list wparticle) : list wparticle :=
    normalize (qsort (fun p => - weight p) (map (fun p => (fst p, weight p * lik (fst p))) l)).

  (** pf.py:323-326; [None] when the sum of squares is 0 (numpy then yields inf). *)
  Fixpoint sum_sq (l : list wparticle) : Q :=
    match l with [] => 0 | p :: l' => weight p * weight p + sum_sq l' end.
  Definition neff (l : list wparticle) : option Q :=
    if Qeq_bool (sum_sq l) 0 then None else Some (1 / sum_sq l).

  (** pf.py:270-271; an infinite neff is not below n/2. *)
  Definition should_resample (l : list wparticle) : bool :=
    match neff l with Some x => Qltb x (inject_Z (Z.of_nat (length l)) / 2) | None => false end.

  (** pf.py:311-317, the while loop: [cur] is particles[source_index], [rest] the
      particles after it.  At the end of the list the index is put back on the last
      particle and the loop left (lines 313-315). *)
  Fixpoint reach (target cum : Q) (cur : wparticle) (rest : list wparticle)
    : Q * wparticle * list wparticle :=
    if Qltb cum target then
      match rest with
      | [] => (cum, cur, [])
      | p :: rest' => reach target (cum + weight p) p rest'
      end
    else (cum, cur, rest).

  (** pf.py:307-319, the for loop from destination index [d], [n] to go. *)
  Fixpoint draw (start inv : Q) (n d : nat) (cum : Q) (cur : wparticle) (rest : list wparticle)
    : list wparticle :=
    match n with
    | O => []
    | S n' =>
        let '(cum', cur', rest') := reach (start + inv * inject_Z (Z.of_nat d)) cum cur rest in
        cur' :: draw start inv n' (S d) cum' cur' rest'
    end.

  (** pf.py:296-321; [u] is the draw of [uniform()], in [0, 1).  The empty list is a
      ZeroDivisionError.  [copy.deepcopy] copies the weight with the particle. *)
  Definition resample (u : Q) (l : list wparticle) : option (list wparticle) :=
    match l with
    | [] => None
    | p :: rest =>
        let inv := 1 / inject_Z (Z.of_nat (length l)) in
        Some (draw (u * inv) inv (length l) 0 (0 + weight p) p rest)
    end.

  (** One measurement of the run, pf.py:532-535: whether it resampled, and the
      particles afterwards. *)
  Definition update (lik : A -> Q) (u : Q) (l : list wparticle) : option (list wparticle) :=
    let l' := measure lik l in
    if should_resample l' then resample u l' else Some l'.
End Weights.

(** ** The merge of dead reckoning and USBL. *)
Section Run.
  Context {D U : Type} (dt : D -> Q) (ut : U -> Q).

  (** A propagation towards a dead-reckoning sample / a USBL fix, with its time step. *)
  Inductive event := Moved (d : D) (step : Q) | Fixed (u : U) (step : Q).

  (** pf.py:506-537; [dr], [usbl] are the samples from the current indices on.
      The stamp faked at line 513 once USBL is exhausted is [dt d + 1].  [None] = out
      of fuel. *)
  Fixpoint pf_loop (fuel : nat) (dr : list D) (usbl : list U) (last_t : Q) : option (list event) :=
    match fuel with
    | O => None
    | S fuel' =>
        match dr with
        | [] => Some []
        | d :: dr' =>
            let usbl_stamp := match usbl with u :: _ => ut u | [] => dt d + 1 end in
            if Qltb (dt d) usbl_stamp then
              option_map (cons (Moved d (dt d - last_t))) (pf_loop fuel' dr' usbl (dt d))
            else match usbl with
                 | u :: usbl' =>
                     option_map (cons (Fixed u (ut u - last_t))) (pf_loop fuel' dr usbl' (ut u))
                 | [] => pf_loop fuel' dr usbl last_t
                 end
        end
    end.

  (** pf.py:386-398: the two index searches at the end of [get_prior].  Both read
      dr_list[usbl_index] and refresh the stamps before moving the index.  The first
      one moves dr_index only, which is then reset (line 401); it ends because
      dr_index reaches the length, and changes neither stamp.  [None] = IndexError. *)
  Fixpoint skip_usbl (fuel : nat) (dr : list D) (usbl : list U) (i : nat) (u_t d_t : Q) : option nat :=
    match fuel with
    | O => Some i
    | S fuel' =>
        if (i <? length usbl)%nat && Qltb u_t d_t then
          match nth_error usbl i, nth_error dr i with
          | Some u, Some d => skip_usbl fuel' dr usbl (S i) (ut u) (dt d)
          | _, _ => None
          end
        else Some i
    end.
  Definition first_usbl (dr : list D) (usbl : list U) : option nat :=
    match usbl, dr with
    | u :: _, d :: _ => skip_usbl (S (length usbl)) dr usbl 0 (ut u) (dt d)
    | _, _ => None
    end.

  (** pf.py:491-537: the whole run.  [get_prior] also reads dr_list[dr_index + 1]
      (line 356), an IndexError for a single dead-reckoning sample. *)
  Definition pf_run (dr : list D) (usbl : list U) : option (list event) :=
    match dr with
    | d :: _ :: _ =>
        match first_usbl dr usbl with
        | Some i => pf_loop (S (length dr + length usbl)) dr (skipn i usbl) (dt d)
        | None => None
        end
    | _ => None
    end.
End Run.
Arguments event : clear implicits.

(** pf.py:405-406, 418-419: northing and easting of the prior, from the first
    dead-reckoning sample and the mean difference between USBL and dead reckoning
    (lines 351-384; any value here). *)
Definition prior_position (north_mean east_mean north east : Q) : Q * Q :=
  let x := north + north_mean in
  let y := east + east_mean in
  (x - north_mean, y - east_mean).
