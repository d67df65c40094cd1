(** Model of scripts/adjust_alr_to_biocam_time.py: TimeCorrector.analyse_time_differences and
    correct_timestamp.  Exact arithmetic; reading the log and printing are left out. *)
From Verif Require Import PyBase.
Open Scope Q_scope.

(** A poll: the BioCam time before, the ALR time and the BioCam time after, in ms (71-74). *)
Record poll := mkpoll { bc0 : Z; alr : Z; bc1 : Z }.

(** x != sorted(x), 80-93. *)
Fixpoint sorted (l : list Z) : bool :=
  match l with
  | a :: (b :: _) as l => (a <=? b)%Z && sorted l
  | _ => true
  end.

(** 95-97. *)
Definition mean_ms (p : poll) : Q := (inject_Z (bc0 p) + inject_Z (bc1 p)) / 2.

Record corrector := mkcorr { times : list Q; offsets : list Q; slopes : list Q }.

(** 122-129; [None]: ZeroDivisionError. *)
Fixpoint slopes_of (ps : list poll) : option (list Q) :=
  match ps with
  | p :: (q :: _) as ps =>
      if (alr q - alr p =? 0)%Z then None
      else option_map (cons ((mean_ms q - mean_ms p) / inject_Z (alr q - alr p))) (slopes_of ps)
  | _ => Some []
  end.

Inductive analysis := Quit | Crash | Ready (c : corrector).
Definition analyse (ps : list poll) : analysis :=
  match ps with
  | [] => Quit
  | _ =>
      if negb (sorted (map bc0 ps)) then Quit
      else if negb (sorted (map alr ps)) then Quit
      else match slopes_of ps with
           | None => Crash
           | Some s => Ready (mkcorr (map (fun p => inject_Z (alr p) / 1000) ps) (map (fun p => mean_ms p / 1000) ps) s)
           end
  end.

(** correct_timestamp, 151-160; [None]: IndexError (a single poll leaves no slope). *)
Definition segment (c : corrector) (t : Q) : nat :=
  fold_left (fun j i => if Qle_bool (nth i (times c) 0) t then i else j) (seq 0 (length (times c) - 1)) 0%nat.
Definition correct (c : corrector) (divisions stamp : Q) : option Q :=
  let t := stamp / divisions in
  let j := segment c t in
  match nth_error (slopes c) j with
  | None => None
  | Some s => Some ((t - nth j (times c) 0) * s + nth j (offsets c) 0)
  end.
