(** C13: corrupted PHINS lines. *)
From Coq Require Import NArith Ascii String.
From Verif Require Import PyBase NmeaModel NmeaSpec NmeaProofs.
Open Scope N_scope.

Definition txt (s : string) : text := map N_of_ascii (list_ascii_of_string s).
Definition asterisk : N := 42.

(** A line without blanks is accepted exactly when it starts with one of the two
    headers and its two hexadecimal digits are the exclusive or of the
    characters between '$' and '*'. *)
Theorem C13_accepted_iff_checksum : forall body ck,
  plain body -> (forall c, In c body -> c < 128) -> plain ck ->
  accepted (body ++ asterisk :: ck) = true <->
  (exists h q, body = h ++ q /\ (h = txt "$PIXSE" \/ h = txt "$HEHDT") /\ (q = [] \/ hd_error q = Some 44)) /\
  length ck = 2%nat /\ hex_value ck = Some (xor_all (tl body)).
Proof. exact accepted_iff. Qed.
Print Assumptions C13_accepted_iff_checksum.

(** Replacing any character before the asterisk by any other visible character. *)
Theorem C13_replaced_character_rejected : forall a c b rest c',
  ~ In asterisk (a ++ c :: b) -> is_space c = false -> is_space c' = false -> c <> c' ->
  accepted (a ++ c :: b ++ asterisk :: rest) = true ->
  accepted (a ++ c' :: b ++ asterisk :: rest) = false.
Proof. exact corrupted_rejected. Qed.
Print Assumptions C13_replaced_character_rejected.

(** Blanking a character of a line whose body has no blanks (and no NUL). *)
Theorem C13_blanked_character_rejected : forall a c b rest c',
  plain (a ++ c :: b) -> c <> 0 -> is_space c' = true ->
  accepted (a ++ c :: b ++ asterisk :: rest) = true ->
  accepted (a ++ c' :: b ++ asterisk :: rest) = false.
Proof. exact blanked_rejected. Qed.
Print Assumptions C13_blanked_character_rejected.

(** Blanks inside the body break the claim: in "$HEHDT, <tab>)*79" the last
    character can be blanked, because the trimming removes space, tab and ')'
    whose exclusive or is 0. *)
Theorem C113_trimmed_blanks_refuted : exists a c b rest c',
  c <> c' /\ ~ In asterisk (a ++ c :: b) /\
  accepted (a ++ c :: b ++ asterisk :: rest) = true /\
  accepted (a ++ c' :: b ++ asterisk :: rest) = true.
Proof.
  exists (txt "$HEHDT," ++ [32; 9]), 41, [], (txt "79"), 32. split; [discriminate|].
  split; [vm_compute; intuition discriminate|]. split; vm_compute; reflexivity.
Qed.
Print Assumptions C113_trimmed_blanks_refuted.

Example C13_example :
  accepted (txt "$HEHDT,123.4,T*2B") = true /\ accepted (txt "$HEHDT,123.5,T*2B") = false /\
  plain (txt "$HEHDT,123.4,T").
Proof.
  split; [vm_compute; reflexivity|]. split; [vm_compute; reflexivity|].
  intros c Hc. vm_compute in Hc.
  repeat (destruct Hc as [<-|Hc]; [split; [reflexivity|discriminate]|]). destruct Hc.
Qed.
