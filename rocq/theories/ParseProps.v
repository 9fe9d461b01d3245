(** C01: theorems about the command parser. *)
From Verif Require Import Base ParseModel ParseSpec ParseProofs DecProofs.

(** C01. A byte string is accepted exactly when its first line follows the
    grammar, and the command returned is the one written on that line. *)
Theorem C01_accepts_iff_grammar : forall elen s c,
  (exists m, parse_command elen s = (VALID_GRAMMAR, c, m)) <-> ValidLine s c.
Proof. exact parse_valid_iff. Qed.
Print Assumptions C01_accepts_iff_grammar.

(** C01. Every other string is refused with the undefined command and the
    reason reported is the one that applies. *)
Theorem C01_rejects_with_the_reason : forall elen s g,
  g <> VALID_GRAMMAR ->
  (exists m, parse_command elen s = (g, undefined_command, m)) <-> Rejected s g.
Proof. exact parse_reject_iff. Qed.
Print Assumptions C01_rejects_with_the_reason.

(** C01. Each string is either valid with exactly one meaning or rejected for
    exactly one reason. *)
Theorem C01_one_meaning : forall s,
  ((exists c, ValidLine s c) \/ (exists g, Rejected s g)) /\
  (forall c d, ValidLine s c -> ValidLine s d -> c = d) /\
  (forall g h, Rejected s g -> Rejected s h -> g = h) /\
  (forall c g, ValidLine s c -> ~ Rejected s g).
Proof.
  exact (fun s => conj (parse_total s) (conj (valid_det s) (conj (rejected_det s)
                  (valid_not_rejected s)))).
Qed.
Print Assumptions C01_one_meaning.

(** C01. An accepted length is never negative and fits a long. *)
Theorem C01_length_range : forall s c, ValidLine s c -> (0 <= c_length c <= LONG_MAX)%Z.
Proof. exact valid_length_range. Qed.
Print Assumptions C01_length_range.

(** The hypotheses are met: a valid line, and one string per rejection reason. *)
Example C01_ex_valid :
  ValidLine (B "

ERROR  -7  +12 
payload") {| c_id := C_ERROR; c_number := -7; c_length := 12 |}.
Proof. apply (parse_valid_iff 64). eexists. vm_compute. reflexivity. Qed.

Example C01_ex_rejected :
  Rejected (B "
") NO_TOKENS /\ Rejected (B "version 1") UNKNOWN_CMD /\
  Rejected (B "YES 1") TOO_MANY_TOKENS /\ Rejected (B "LIB 1 2 3 4") TOO_MANY_TOKENS /\
  Rejected (B "ERROR 1") TOO_FEW_TOKENS /\ Rejected (B "LIB x1") NOT_AN_INT /\
  Rejected (B "LIB -1") NEGATIVE_LENGTH.
Proof.
  repeat split; apply (parse_reject_iff 64); try discriminate;
    eexists; vm_compute; reflexivity.
Qed.

(** Finding recorded for C01: characters after the digits are ignored, so
    "LIB 12abc" is a valid command announcing 12 bytes. *)
Example C01_trailing_garbage_accepted :
  ValidLine (B "LIB 12abc") {| c_id := C_LIB; c_number := 0; c_length := 12 |}.
Proof. apply (parse_valid_iff 64). eexists. vm_compute. reflexivity. Qed.

(** C47 (parser part). A text written by the parser always fits its buffer, and
    the second half of the "too many/few arguments" text is written inside it. *)
Theorem C47_parser_texts_fit : forall elen s g c t,
  0 < elen -> parse_command elen s = (g, c, Some t) -> length t < elen.
Proof. exact parse_text_fits. Qed.
Print Assumptions C47_parser_texts_fit.

Theorem C47_arity_text_fits : forall many w id f,
  lookup_word (tl command_info) w = Some (id, f) ->
  length (arity_text many f w) < 128 /\
  length (arity_text many f w ++ expected_form f w) < 128.
Proof. exact arity_text_fits. Qed.
Print Assumptions C47_arity_text_fits.

Example C47_ex_parser_text :
  exists t, parse_command 4096 (B "ERROR 1") = (TOO_FEW_TOKENS, undefined_command, Some t) /\
  t = B "Too few arguments for command ERROR. Expected form is ERROR <number> <length>".
Proof. eexists. vm_compute. split; reflexivity. Qed.
