(** Model of parse.py:49-97 [merge_json_files].  A record keeps the file names the function
    touches and an opaque rest; a dive is the name of its folder, its origin record and the
    records that follow.  Console.quit is [Quit], a KeyError is [Crash]. *)
From Coq Require Import String.
From Verif Require Import PyBase.

Section Merge.
  Context {A : Type}.
  (** [cam1] etc.: item["camera1"][0]["filename"] if there is such a key; [file]: item["filename"]. *)
  Record item := mkitem { cam1 : option string; cam2 : option string; cam3 : option string; laser : bool; file : option string; rest : A }.
  Record origin := mkorigin { lat : Q; lon : Q; orest : A }.
  Record dive := mkdive { name : string; org : origin; items : list item }.
  Inductive result := Done (o : option origin) (l : list item) | Quit | Crash.

  Definition pre (p : string) (s : option string) : option string := option_map (fun s => String.append p s) s.
  (** 80-94; [None]: KeyError. *)
  Definition rename (p : string) (i : item) : option item :=
    let c1 := pre p (cam1 i) in
    let c2 := pre p (cam2 i) in
    let c3 := pre p (cam3 i) in
    if laser i then match file i with None => None | Some f => Some (mkitem c1 c2 c3 true (Some (String.append p f)) (rest i)) end
    else Some (mkitem c1 c2 c3 false (file i) (rest i)).
  Fixpoint rename_all (p : string) (l : list item) : option (list item) :=
    match l with
    | [] => Some []
    | i :: l => match rename p i with None => None | Some i => match rename_all p l with None => None | Some l => Some (i :: l) end end
    end.

  (** 50-97 *)
  Fixpoint merge_from (o : option origin) (acc : list item) (ds : list dive) : result :=
    match ds with
    | [] => Done o acc
    | d :: ds =>
        let continue o' :=
          match rename_all (String.append (name d) "/") (items d) with
          | None => Crash
          | Some l => merge_from (Some o') (acc ++ l) ds
          end in
        match o with
        | None => continue (org d)
        | Some o' => if (Qeq_bool (lat o') (lat (org d)) && Qeq_bool (lon o') (lon (org d)))%bool then continue o' else Quit
        end
    end.
  Definition merge_json_files (ds : list dive) : result := merge_from None [] ds.
End Merge.
Arguments item : clear implicits.
Arguments origin : clear implicits.
Arguments dive : clear implicits.
Arguments result : clear implicits.
