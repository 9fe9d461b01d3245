(** C50: a rejected line comes with a text that names the problem. *)
From Verif Require Import Base BaseProofs ParseModel ParseSpec ParseProofs DecProofs ParseText.

(** C50. The text that comes with a rejection names the problem, as long as no field
    consists of white space only. *)
Theorem C50_rejection_text_partial : forall elen s g,
  (forall w fs f, LineWords s (w :: fs) -> In f fs -> ~ Blank f) ->
  Rejected s g ->
  exists t, Complaint s g t /\
    parse_command elen s = (g, undefined_command, Some (firstn (elen - 1) t)).
Proof.
  intros elen s g NB R.
  assert (NV : g <> VALID_GRAMMAR) by (destruct R; discriminate).
  destruct (proj2 (parse_reject_iff elen s g NV) R) as [m P].
  destruct (parse_text elen s g _ m NB NV P) as (t & T & ->). eauto.
Qed.
Print Assumptions C50_rejection_text_partial.

Example C50_ex : exists t,
  parse_command 4096 (B "LIB -12") = (NEGATIVE_LENGTH, undefined_command, Some t) /\
  t = B "Parse error. Length argument -12 to command LIB is negative." /\
  (forall w fs f, LineWords (B "LIB -12") (w :: fs) -> In f fs -> ~ Blank f).
Proof.
  eexists. split; [vm_compute; reflexivity|]. split; [reflexivity|].
  intros w fs f W. assert (LineWords (B "LIB -12") [B "LIB"; B "-12"]) as W2.
  { right. exists (B "LIB -12"). split.
    - exists [], []. repeat split; try discriminate; [intros c []| |now left].
      rewrite <- has_byte_In. vm_compute. discriminate.
    - apply (W_word (B "LIB") (B " -12")); [discriminate| |right; eexists; reflexivity|].
      + rewrite <- has_byte_In. vm_compute. discriminate.
      + apply W_space. apply (W_word (B "-12") []); [discriminate| |now left|constructor].
        rewrite <- has_byte_In. vm_compute. discriminate. }
  pose proof (line_words_det _ _ _ W W2) as E. injection E as -> ->. intros [<-|[]] Bl.
  specialize (Bl (ch 45) (or_introl eq_refl)). vm_compute in Bl. intuition discriminate.
Qed.

(** Otherwise no text is written: the caller's buffer keeps what was in it before. *)
Theorem C50_blank_field_refuted : forall elen,
  Rejected (B "LIB " ++ [ch 9]) NOT_AN_INT /\
  parse_command elen (B "LIB " ++ [ch 9]) = (NOT_AN_INT, undefined_command, None).
Proof.
  intros elen. assert (P : parse_command elen (B "LIB " ++ [ch 9]) = (NOT_AN_INT, undefined_command, None))
    by reflexivity.
  split; [|exact P]. apply (parse_reject_iff elen); [discriminate|eauto].
Qed.
Print Assumptions C50_blank_field_refuted.
