(** Model of the PHINS line check in auv_nav/parsers/parse_phins.py.  A text is
    the list of its code points. *)
From Verif Require Import PyBase.
Open Scope N_scope.

Definition text := list N.

(** Python str.isspace, the set used by str.strip(). *)
Definition is_space (c : N) : bool :=
  ((9 <=? c) && (c <=? 13)) || ((28 <=? c) && (c <=? 32)) || (c =? 133) || (c =? 160)
  || (c =? 5760) || ((8192 <=? c) && (c <=? 8202)) || (c =? 8232) || (c =? 8233)
  || (c =? 8239) || (c =? 8287) || (c =? 12288).

(** str.strip() *)
Fixpoint lstrip (s : text) : text :=
  match s with [] => [] | c :: r => if is_space c then lstrip r else s end.
Definition strip (s : text) : text := rev (lstrip (rev (lstrip s))).

(** str.split(sep) for a one-character separator. *)
Fixpoint split (sep : N) (s : text) : list text :=
  match s with
  | [] => [[]]
  | c :: r => if c =? sep then [] :: split sep r
              else match split sep r with
                   | w :: ws => (c :: w) :: ws
                   | [] => [[c]]
                   end
  end.

(** sep.join(words) *)
Fixpoint join (sep : N) (ws : list text) : text :=
  match ws with
  | [] => []
  | [w] => w
  | w :: ws => w ++ sep :: join sep ws
  end.

(** One hexadecimal digit, upper case. *)
Definition hex_char (d : N) : N := if d <? 10 then 48 + d else 55 + d.

(** hex(n)[2:].upper() *)
Fixpoint hex_loop (fuel : nat) (n : N) (acc : text) : text :=
  match fuel with
  | O => acc
  | S f => if n <? 16 then hex_char n :: acc
           else hex_loop f (n / 16) (hex_char (n mod 16) :: acc)
  end.
Definition hex_text (n : N) : text := hex_loop (S (N.to_nat (N.log2 n))) n [].

(** str.zfill(2) *)
Definition zfill2 (s : text) : text :=
  match s with [] => [48; 48] | [c] => [48; c] | _ => s end.

(** str.upper(), on ASCII.  (The only other text whose upper case is made of
    hexadecimal digits is the ligature U+FB00.) *)
Definition upper (s : text) : text :=
  map (fun c => if (97 <=? c) && (c <=? 122) then c - 32 else c) s.

Definition comma : N := 44.
Definition star : N := 42.
(** sensors.py:51,53: "$PIXSE" and "$HEHDT". *)
Definition START : text := [36; 80; 73; 88; 83; 69].
Definition HEADING : text := [36; 72; 69; 72; 68; 84].

Definition text_eqb (a b : text) : bool :=
  if list_eq_dec N.eq_dec a b then true else false.

(** parse_phins.py:117-122: the exclusive or of the characters after the first. *)
Definition string_sum (line : list text) : N :=
  fold_left N.lxor (tl (join comma line)) 0.

(** parse_phins.py:107-134 [PhinsParser.line_is_valid]. *)
Definition line_is_valid (line line_split : list text) : bool :=
  match line, line_split with
  | h :: _, [_; check_sum] =>
      (text_eqb h START || text_eqb h HEADING)
      && text_eqb (zfill2 (hex_text (string_sum line))) (upper check_sum)
  | _, _ => false
  end.

(** parse_phins.py:144-147: is the complete line processed? *)
Definition accepted (complete_line : text) : bool :=
  let line_and_md5 := split star (strip complete_line) in
  let line := split comma (strip (hd [] line_and_md5)) in
  line_is_valid line line_and_md5.
