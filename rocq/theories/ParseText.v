(** C50: the texts written by the command parser. *)
From Verif Require Import Base BaseProofs ParseModel ParseSpec ParseProofs DecProofs.

Lemma skip_space_nil f : skip_space f = [] -> Blank f.
Proof.
  induction f as [|x f IH]; cbn [skip_space]; intros H c; [intros []|].
  destruct (is_space x) eqn:E; [|discriminate]. intros [<-|Hc]; [|now apply IH].
  unfold is_space in E. unfold White.
  apply orb_true_iff in E as [E|E].
  - apply andb_true_iff in E as [E1 E2]. apply Nat.leb_le in E1, E2.
    assert (K : nat_of_ascii x = 9 \/ nat_of_ascii x = 10 \/ nat_of_ascii x = 11 \/ nat_of_ascii x = 12 \/ nat_of_ascii x = 13) by lia.
    cbn [In]. intuition.
  - apply Nat.eqb_eq in E. cbn [In]. intuition.
Qed.

Lemma parse_int_text f w m : parse_int f w = inr m ->
  (m = Some (B "Parse error. Argument " ++ f ++ B " to command " ++ w ++ B " is not an integer.")) \/ Blank f.
Proof.
  unfold parse_int. destruct (scan_ld f) as [| |n] eqn:E; intros [= <-]; [right|now left].
  apply skip_space_nil. unfold scan_ld in E. destruct (skip_space f) as [|x r]; [reflexivity|].
  destruct (Ascii.eqb x MINUS); [destruct (digit_run r); discriminate|].
  destruct (Ascii.eqb x PLUS); [destruct (digit_run r); discriminate|].
  destruct (digit_run (x :: r)); discriminate.
Qed.

Lemma usage_form f w id : InForm (form_words f) w id -> Usage w (expected_form f w).
Proof.
  destruct f; cbn [form_words expected_form]; intros H.
  - destruct H as (? & _ & []).
  - now apply (U_simple w id).
  - now apply (U_number w id).
  - now apply (U_length w id).
  - now apply (U_number_length w id).
Qed.

Lemma parse_text elen s g c m :
  (forall w fs f, LineWords s (w :: fs) -> In f fs -> ~ Blank f) ->
  g <> VALID_GRAMMAR -> parse_command elen s = (g, c, m) ->
  exists t, Complaint s g t /\ m = Some (firstn (elen - 1) t).
Proof.
  intros NB NV. destruct (line_words_exist s) as [ws W]. unfold parse_command.
  rewrite (tokenize_words s ws W).
  destruct ws as [|w fs].
  { cbn [firstn]. intros [= <- <- <-]. eexists. split; [now constructor|reflexivity]. }
  assert (NBf : forall f, In f fs -> ~ Blank f) by (intros f; exact (NB w fs f W)).
  change (firstn 3 (w :: fs)) with (w :: firstn 2 fs). cbv beta iota zeta.
  destruct (lookup_word (tl command_info) w) as [[id form]|] eqn:L.
  2:{ intros [= <- <- <-]. eexists. split; [|reflexivity].
      apply (T_unknown s w fs W). intros n K. apply known_lookup_inv in K as (i & f & K & _).
      congruence. }
  pose proof (known_lookup w id form L) as K.
  pose proof (proj1 (lookup_form w id form) L) as F.
  pose proof (usage_form form w id F) as U.
  assert (Many : forall (x y : command), form_fields form < length fs ->
     (TOO_MANY_TOKENS, x, put elen (arity_text true form w ++ expected_form form w)) = (g, y, m) ->
     exists t, Complaint s g t /\ m = Some (firstn (elen - 1) t)).
  { intros x y H [= <- _ <-]. eexists. split; [now apply (T_many s w fs _ (expected_form form w) W K H)|].
    unfold put, snprintf, arity_text. do 2 f_equal. cbv iota. now rewrite <- !app_assoc. }
  destruct (3 <? length (w :: fs)) eqn:E3.
  { cbn [orb]. apply Many. apply Nat.ltb_lt in E3. cbn [length] in E3.
    destruct form; cbn; try lia. destruct F as (x & _ & []). }
  apply Nat.ltb_ge in E3. cbn [length] in E3. cbn [orb].
  rewrite (firstn_all2 fs) by lia.
  destruct (Nat.ltb_spec (nbr_tokens form) (length (w :: fs))) as [E|E].
  { apply Many. cbn [length] in E. destruct form; cbn in *; try lia. destruct F as (x & _ & []). }
  destruct (Nat.ltb_spec (length (w :: fs)) (nbr_tokens form)) as [E2|E2].
  { intros [= <- _ <-]. eexists. split.
    - apply (T_few s w fs (form_fields form) (expected_form form w) W K); [|exact U]. cbn [length] in E2.
      destruct form; cbn in *; lia.
    - unfold put, snprintf, arity_text. do 2 f_equal. cbv iota. now rewrite <- !app_assoc. }
  assert (El : length fs = form_fields form /\ S (length fs) = nbr_tokens form).
  { cbn [length] in E, E2. destruct form; cbn in *; try lia. }
  destruct El as [El El2]. clear E E2 E3 Many.
  rewrite <- El in K.
  assert (Bad : forall a f b e1 (x : command), fs = a ++ f :: b -> (forall h, In h a -> exists z, IntField h z) ->
    parse_int f w = inr e1 -> (NOT_AN_INT, x, option_map (snprintf elen) e1) = (g, c, m) ->
    exists t, Complaint s g t /\ m = Some (firstn (elen - 1) t)).
  { intros a f b e1 x Ef Ha P [= <- _ <-]. destruct (parse_int_text f w e1 P) as [-> | Bf].
    - eexists. split; [|reflexivity]. subst fs. apply (T_not_int s w a f b W K Ha). now apply (parse_int_bad _ w _ P).
    - exfalso. apply (NBf f); [|exact Bf]. rewrite Ef. apply in_or_app. right. now left. }
  destruct form.
  - destruct F as (x & _ & []).
  - intros [= <- _ _]. congruence.
  - destruct fs as [|f [|? ?]]; try discriminate. cbn [nth].
    destruct (parse_int f w) as [n1|e1] eqn:P1; [intros [= <- _ _]; congruence|].
    apply (Bad [] f [] e1); [reflexivity|intros h []|exact P1].
  - destruct fs as [|f [|? ?]]; try discriminate. cbn [nth].
    destruct (parse_int f w) as [n1|e1] eqn:P1.
    + apply parse_int_ok in P1. destruct (Z.ltb_spec n1 0) as [Hn|Hn]; [|intros [= <- _ _]; congruence].
      intros [= <- _ <-]. eexists. split; [|reflexivity]. now apply (T_negative s w [] f n1 W K).
    + apply (Bad [] f [] e1); [reflexivity|intros h []|exact P1].
  - destruct fs as [|f [|g0 [|? ?]]]; try discriminate. cbn [nth].
    destruct (parse_int f w) as [n1|e1] eqn:P1.
    2:{ apply (Bad [] f [g0] e1); [reflexivity|intros h []|exact P1]. }
    destruct (parse_int g0 w) as [n2|e2] eqn:P2.
    2:{ apply (Bad [f] g0 [] e2); [reflexivity| |exact P2]. intros h [<-|[]]. exists n1. now apply parse_int_ok in P1. }
    apply parse_int_ok in P1, P2. destruct (Z.ltb_spec n2 0) as [Hn|Hn]; [|intros [= <- _ _]; congruence].
    intros [= <- _ <-]. eexists. split; [|reflexivity]. now apply (T_negative s w [f] g0 n2 W K).
Qed.
