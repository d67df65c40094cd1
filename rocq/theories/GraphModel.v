(** auv_nav/tools/graph.py: the graph class (adjacency dictionary).
    Vertices are natural numbers for the hashable values of Python.  A dictionary is a list of keys with their neighbours in
    insertion order; only the first entry of a key counts (keys made by the class are distinct). *)
From Verif Require Import PyBase.

Definition vertex := nat.
Notation graph := (list (vertex * list vertex)).
Definition mem (v : vertex) (l : list vertex) : bool := existsb (Nat.eqb v) l.
(** graph[v]; [None]: not a key. *)
Fixpoint lookup (g : graph) (v : vertex) : option (list vertex) :=
  match g with [] => None | (k, l) :: g => if Nat.eqb k v then Some l else lookup g v end.
(** 16-18 *)
Definition vertices (g : graph) : list vertex := map fst g.
(** 24-31 *)
Definition add_vertex (g : graph) (v : vertex) : graph := match lookup g v with Some _ => g | None => (g ++ [(v, [])])%list end.
Fixpoint append_to (g : graph) (v w : vertex) : graph :=
  match g with [] => [] | (k, l) :: g => if Nat.eqb k v then (k, (l ++ [w])%list) :: g else (k, l) :: append_to g v w end.
(** 33-48: [set.pop] takes an arbitrary element: [second_first] tells whether it takes the second one.  Further elements are ignored. *)
Definition add_edge (second_first : bool) (g : graph) (a b : vertex) : graph :=
  let '(v, w) := if second_first then (b, a) else (a, b) in
  match lookup g v with Some _ => append_to g v w | None => (g ++ [(v, [w])])%list end.
(** Equality of the sets {a, b} and {c, d}. *)
Definition same_set (e f : vertex * vertex) : bool :=
  let '(a, b) := e in let '(c, d) := f in
  ((Nat.eqb a c && Nat.eqb b d) || (Nat.eqb a d && Nat.eqb b c))%bool.
(** 50-61 *)
Fixpoint edges_of (v : vertex) (l : list vertex) (acc : list (vertex * vertex)) : list (vertex * vertex) :=
  match l with
  | [] => acc
  | w :: l => edges_of v l (if existsb (same_set (w, v)) acc then acc else (acc ++ [(v, w)])%list)
  end.
Fixpoint generate_edges (g : graph) (acc : list (vertex * vertex)) : list (vertex * vertex) :=
  match g with [] => acc | (v, l) :: g => generate_edges g (edges_of v l acc) end.
Definition edges (g : graph) : list (vertex * vertex) := generate_edges g [].
(** 72-86; the fuel bounds the depth of the recursion, which Python leaves open. *)
Fixpoint search (fuel : nat) (g : graph) (s e : vertex) (path : list vertex) : option (list vertex) :=
  match fuel with
  | O => None
  | S fuel =>
      let path := (path ++ [s])%list in
      if Nat.eqb s e then Some path
      else match lookup g s with
           | None => None
           | Some l =>
               (fix try l := match l with
                  | [] => None
                  | v :: l => if mem v path then try l else match search fuel g v e path with Some p => Some p | None => try l end
                  end) l
           end
  end.
Definition find_path (g : graph) (s e : vertex) : option (list vertex) := search (S (length (concat (map snd g)))) g s e [].
