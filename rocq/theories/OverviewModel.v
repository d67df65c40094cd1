(** auv_nav/plot/plot_parse_data.py: the overview that ends "auv_nav parse" (data2trace 84-121, plot_parse_data 127-232).  An entry of
    nav_standard.json is its category, its frame and its time (exact; [None]: null); the tables and plots are the rows they are made of, each with the
    number of records, the approximate rate and the times of the points (the texts of the sample values are left out).  Times are not negative. *)
From Coq Require Import String Qround.
From Verif Require Import PyBase.
Open Scope Q_scope.

Inductive frame := Body | Inertial | Elsewhere (name : string).
Record item := mkitem { category : string; frame_of : frame; epoch : Q }.

(** * Sorting into categories and frames, 154-210 *)
Definition frames := (list item * list item * list item)%type.
(** A second record of another frame is compared with j["frame"], [j] running over the lists from the third on, of which the first is never empty
    there: a TypeError ([None]). *)
Definition put (i : item) (g : frames) : option frames :=
  let '(b, n, o) := g in
  match frame_of i with
  | Body => Some (b ++ [i], n, o)%list
  | Inertial => Some (b, n ++ [i], o)%list
  | Elsewhere _ => match o with [] => Some (b, n, [i]) | _ => None end
  end.
Fixpoint sort_in (i : item) (l : list (string * frames)) : option (list (string * frames)) :=
  match l with
  | [] => option_map (fun g => [(category i, g)]) (put i ([], [], []))
  | (c, g) :: l => if String.eqb c (category i) then option_map (fun g => (c, g) :: l) (put i g) else option_map (cons (c, g)) (sort_in i l)
  end.
Fixpoint collect (acc : list (string * frames)) (data : list (option item)) : option (list (string * frames)) :=
  match data with
  | [] => Some acc
  | None :: data => collect acc data
  | Some i :: data =>
      if String.eqb (category i) "origin" then collect acc data
      else match sort_in i acc with Some acc => collect acc data | None => None end
  end.

(** * One row, 84-121 *)
Fixpoint steps (l : list Q) : list Q := match l with a :: (b :: _) as l => (b - a) :: steps l | _ => [] end.
(** 87-98: [td] the difference so far, [n] the loop's counter, [rest] the differences not yet taken; [None] is sys.exit(0). *)
Fixpoint search (td : Q) (n : nat) (rest : list Q) : option Q :=
  if Qle_bool (2 # 1000) td then Some td
  else match rest with [] => Some td | d :: rest => if (10 <? S n)%nat then None else search d (S n) rest end.
Definition difference (l : list Q) : option Q := match steps l with [] => Some 0 | d :: rest => search d 2 rest end.
(** 65-69 *)
Definition rate (td : Q) : option Q := if Qeq_bool td 0 then None else Some (1 / td).
(** "{:.6f}": to the nearest, ties to even *)
Definition nearest (x : Q) : Z :=
  let f := Qfloor x in
  match Qcompare (x - inject_Z f) (1 # 2) with Lt => f | Gt => (f + 1)%Z | Eq => if Z.even f then f else (f + 1)%Z end.
(** 107-113: the second (of gmtime) and the six digits behind it, of which "1.000000" leaves zeros *)
Definition label (t : Q) : Z * Z := (Qfloor t, (nearest ((t - inject_Z (Qfloor t)) * 1000000) mod 1000000)%Z).
Record row := mkrow { title : string * frame; records : list item; update_rate : option Q; points : list (Z * Z) }.
Definition data2trace (j : list item) : option (list row) :=
  match j with
  | [] => Some []
  | i :: _ => match difference (map epoch j) with
      | None => None
      | Some td => Some [mkrow (category i, frame_of i) j (rate td) (map (fun i => label (epoch i)) j)]
      end
  end.

(** * The whole, 134-232 *)
Inductive overview := Raised | Exited | Shown (start finish : Q) (rows : list row).
Fixpoint rows_of (l : list (list item)) : option (list row) :=
  match l with
  | [] => Some []
  | j :: l => match data2trace j with None => None | Some r => match rows_of l with None => None | Some rs => Some (r ++ rs)%list end end
  end.
Definition lists_of (g : frames) : list (list item) := let '(b, n, o) := g in [b; n; o].
Definition plot_parse_data (data : list (option item)) : overview :=
  match nth_error data 1, nth_error data (length data - 1) with
  | Some (Some first), Some (Some last) =>
      match collect [] data with
      | None => Raised
      | Some groups =>
          match rows_of (flat_map (fun cg => lists_of (snd cg)) groups) with
          | None => Exited
          | Some rows => Shown (epoch first) (epoch last) rows
          end
      end
  | _, _ => Raised
  end.
