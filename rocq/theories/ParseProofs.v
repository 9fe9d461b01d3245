(** Proofs about the parser: it decides exactly the grammar of ParseSpec. *)
From Verif Require Import Base BaseProofs ParseModel ParseSpec.

(** ** strtok *)

Lemma skip_delim_spec d s :
  exists p, s = p ++ skip_delim d s /\ (forall c, In c p -> c = d) /\
            (forall x r, skip_delim d s = x :: r -> x <> d).
Proof.
  induction s as [|x s (p & Hp & Hd & Hh)]; cbn.
  - exists []. cbn. repeat split; [tauto | discriminate].
  - destruct (Ascii.eqb_spec x d) as [->|Hn].
    + exists (d :: p). cbn. split; [now f_equal|]. split; [|exact Hh].
      intros c [<-|H]; [reflexivity|now apply Hd].
    + exists []. cbn. split; [reflexivity|]. split; [tauto|]. now intros y r [= <- <-].
Qed.

Lemma take_token_spec d s t rest :
  take_token d s = (t, rest) ->
  ~ In d t /\ ((s = t /\ rest = []) \/ s = t ++ d :: rest).
Proof.
  revert t rest; induction s as [|x s IH]; cbn; intros t rest H.
  - injection H as <- <-. cbn. tauto.
  - destruct (Ascii.eqb_spec x d) as [->|Hn].
    + injection H as <- <-. cbn. tauto.
    + destruct (take_token d s) as [t' r'] eqn:E. injection H as <- <-.
      destruct (IH t' r' eq_refl) as [Hni [[-> ->]| ->]]; cbn; split;
        try (intros [|]; [congruence|tauto]); tauto.
Qed.

Lemma take_token_app d t rest :
  ~ In d t -> take_token d (t ++ d :: rest) = (t, rest).
Proof.
  induction t as [|x t IH]; cbn; intros H.
  - now rewrite Ascii.eqb_refl.
  - destruct (Ascii.eqb_spec x d) as [->|Hn]; [tauto|]. rewrite IH; tauto.
Qed.

Lemma take_token_all d t : ~ In d t -> take_token d t = (t, []).
Proof.
  induction t as [|x t IH]; cbn; intros H; [reflexivity|].
  destruct (Ascii.eqb_spec x d) as [->|Hn]; [tauto|]. rewrite IH; tauto.
Qed.

Lemma skip_delim_run d p s :
  (forall c, In c p -> c = d) -> skip_delim d (p ++ s) = skip_delim d s.
Proof.
  induction p as [|x p IH]; cbn; intros H; [reflexivity|].
  rewrite (H x (or_introl eq_refl)), Ascii.eqb_refl. apply IH. intros c Hc. apply H. now right.
Qed.

Lemma skip_delim_stop d x s : x <> d -> skip_delim d (x :: s) = x :: s.
Proof. cbn. destruct (Ascii.eqb_spec x d); congruence. Qed.

Lemma strtok_none d s : strtok d s = None <-> (forall c, In c s -> c = d).
Proof.
  unfold strtok. destruct (skip_delim_spec d s) as (p & Hp & Hd & Hh). split.
  - destruct (skip_delim d s) as [|x r]; [|discriminate]. intros _.
    rewrite app_nil_r in Hp. subst. exact Hd.
  - intros H. destruct (skip_delim d s) as [|x r] eqn:E; [reflexivity|].
    exfalso. apply (Hh x r eq_refl). apply H. rewrite Hp. apply in_or_app. right. now left.
Qed.

Lemma strtok_word d p t rest :
  (forall c, In c p -> c = d) -> t <> [] -> ~ In d t ->
  strtok d (p ++ t ++ d :: rest) = Some (t, rest).
Proof.
  intros Hp Ht Hn. unfold strtok. rewrite skip_delim_run by exact Hp.
  destruct t as [|x t]; [congruence|].
  assert (x <> d) by (intros ->; apply Hn; now left).
  cbn [app]. rewrite skip_delim_stop by assumption.
  change (x :: t ++ d :: rest) with ((x :: t) ++ d :: rest).
  now rewrite take_token_app.
Qed.

Lemma strtok_word_end d p t :
  (forall c, In c p -> c = d) -> t <> [] -> ~ In d t ->
  strtok d (p ++ t) = Some (t, []).
Proof.
  intros Hp Ht Hn. unfold strtok. rewrite skip_delim_run by exact Hp.
  destruct t as [|x t]; [congruence|].
  assert (x <> d) by (intros ->; apply Hn; now left).
  rewrite skip_delim_stop by assumption. now rewrite take_token_all.
Qed.

Lemma strtok_some d s t rest :
  strtok d s = Some (t, rest) ->
  exists p, (forall c, In c p -> c = d) /\ t <> [] /\ ~ In d t /\
            ((s = p ++ t /\ rest = []) \/ s = p ++ t ++ d :: rest).
Proof.
  unfold strtok. destruct (skip_delim_spec d s) as (p & Hp & Hd & Hh).
  destruct (skip_delim d s) as [|x r] eqn:E; [discriminate|]. intros H0.
  assert (H : take_token d (x :: r) = (t, rest)) by congruence. clear H0.
  destruct (take_token_spec _ _ _ _ H) as [Hni Hc].
  exists p. split; [exact Hd|]. split.
  - intros ->. cbn in Hc. destruct Hc as [[Hc _]|Hc]; [discriminate|].
    injection Hc as -> _. now apply (Hh d r).
  - split; [exact Hni|]. rewrite Hp. destruct Hc as [[-> ->]| ->]; tauto.
Qed.

Lemma strtok_first_line s line :
  FirstLine s line -> exists rest, strtok LF s = Some (line, rest).
Proof.
  intros (nls & rest & -> & Hn & Hne & Hni & [->|[r ->]]).
  - exists []. rewrite app_nil_r. now apply strtok_word_end.
  - exists r. now apply strtok_word.
Qed.

Lemma first_line_exists s :
  (forall c, In c s -> c = LF) \/ exists line, FirstLine s line.
Proof.
  destruct (strtok LF s) as [[line rest]|] eqn:E.
  - right. apply strtok_some in E as (p & Hp & Hne & Hni & Hc).
    exists line, p. destruct Hc as [[-> ->]| ->].
    + exists []. rewrite app_nil_r. repeat split; auto.
    + exists (LF :: rest). repeat split; eauto.
  - left. now apply strtok_none.
Qed.

(** ** words *)

Lemma words_exist s : exists ws, Words s ws.
Proof.
  assert (H : forall n s, length s <= n -> exists ws, Words s ws).
  { clear s. induction n as [|n IH]; intros s Hs.
    - destruct s; [|cbn in Hs; lia]. exists []. constructor.
    - destruct s as [|x s]; [exists []; constructor|].
      destruct (ascii_dec x SP) as [->|Hx].
      + destruct (IH s) as [ws Hw]; [cbn in Hs; lia|]. exists ws. now constructor.
      + destruct (take_token SP (x :: s)) as [t rest] eqn:E.
        pose proof (take_token_spec _ _ _ _ E) as [Hni Hc].
        assert (Ht : t <> []).
        { intros ->. cbn in Hc. destruct Hc as [[Hc _]|Hc]; congruence. }
        destruct Hc as [[Hc ->]|Hc].
        * exists [t]. rewrite Hc. rewrite <- (app_nil_r t) at 1. constructor; auto. constructor.
        * destruct (IH rest) as [ws Hw].
          { apply (f_equal (@length ascii)) in Hc. rewrite app_length in Hc. cbn in Hc, Hs. lia. }
          exists (t :: ws). rewrite Hc. constructor; eauto. now constructor. }
  apply (H (length s)). lia.
Qed.

Lemma words_sp_inv l ws : Words (SP :: l) ws -> Words l ws.
Proof.
  intros H. remember (SP :: l) as s eqn:E. destruct H as [|l' ws H|w rest ws Hne Hni Hr H].
  - discriminate.
  - now injection E as ->.
  - exfalso. destruct w as [|x w]; [congruence|]. injection E as -> _. apply Hni. now left.
Qed.

Lemma words_strtok s ws :
  Words s ws ->
  match ws with
  | [] => strtok SP s = None
  | w :: ws' => exists rest, strtok SP s = Some (w, rest) /\ Words rest ws'
  end.
Proof.
  induction 1 as [|l ws H IH|w rest ws Hne Hni Hr H IH].
  - reflexivity.
  - assert (E : strtok SP (SP :: l) = strtok SP l) by reflexivity. rewrite E. exact IH.
  - destruct Hr as [->|[r ->]].
    + exists []. split; [|exact H]. rewrite app_nil_r. apply (strtok_word_end SP []); auto.
      intros c [].
    + exists r. split; [|now apply words_sp_inv]. apply (strtok_word SP []); auto. intros c [].
Qed.

Lemma words_det s ws1 ws2 : Words s ws1 -> Words s ws2 -> ws1 = ws2.
Proof.
  revert s ws2; induction ws1 as [|w ws1 IH]; intros s ws2 H1 H2;
    apply words_strtok in H1; apply words_strtok in H2; destruct ws2 as [|w2 ws2].
  - reflexivity.
  - destruct H2 as (r & H2 & _). congruence.
  - destruct H1 as (r & H1 & _). congruence.
  - destruct H1 as (r1 & H1 & W1), H2 as (r2 & H2 & W2).
    rewrite H1 in H2. injection H2 as -> ->. f_equal. now apply (IH r2).
Qed.

Lemma tok_loop_words room s ws :
  Words s ws -> tok_loop room s = (firstn room ws, room <? length ws).
Proof.
  revert s ws; induction room as [|room IH]; intros s ws H; cbn;
    apply words_strtok in H; destruct ws as [|w ws].
  - now rewrite H.
  - destruct H as (r & -> & _). reflexivity.
  - now rewrite H.
  - destruct H as (r & -> & W). rewrite (IH r ws W). reflexivity.
Qed.

Lemma line_words_exist s : exists ws, LineWords s ws.
Proof.
  destruct (first_line_exists s) as [H|[line H]].
  - exists []. now left.
  - destruct (words_exist line) as [ws W]. exists ws. right. eauto.
Qed.

Lemma tokenize_words s ws :
  LineWords s ws -> tokenize s = (firstn 3 ws, 3 <? length ws).
Proof.
  intros [[-> H]|(line & H & W)].
  - unfold tokenize. destruct s as [|x s]; [reflexivity|].
    rewrite (proj2 (strtok_none LF (x :: s)) H). reflexivity.
  - destruct (strtok_first_line s line H) as [rest E]. unfold tokenize.
    destruct s as [|x s]; [discriminate|]. rewrite E. now apply tok_loop_words.
Qed.

Lemma line_words_det s ws1 ws2 : LineWords s ws1 -> LineWords s ws2 -> ws1 = ws2.
Proof.
  intros [[-> H1]|(l1 & H1 & W1)] [[-> H2]|(l2 & H2 & W2)].
  - reflexivity.
  - destruct (strtok_first_line s l2 H2) as [r E].
    apply strtok_none in H1. congruence.
  - destruct (strtok_first_line s l1 H1) as [r E].
    apply strtok_none in H2. congruence.
  - destruct (strtok_first_line s l1 H1) as [r1 E1].
    destruct (strtok_first_line s l2 H2) as [r2 E2].
    assert (l1 = l2) by congruence. subst. now apply (words_det l2).
Qed.

(** ** integers *)

Lemma ascii_cases (P : byte -> bool) :
  forallb P (map ascii_of_nat (seq 0 256)) = true -> forall c, P c = true.
Proof.
  intros H c. rewrite forallb_forall in H. apply H.
  rewrite <- (ascii_nat_embedding c). apply in_map. apply in_seq.
  pose proof (nat_ascii_bounded c). lia.
Qed.

Lemma digit_iff c v : Digit c v <-> is_digit c = true /\ v = digit_val c.
Proof.
  split.
  - intros H. cbn in H.
    repeat (destruct H as [H|H]; [injection H as <- <-; now vm_compute|]). destruct H.
  - intros [H ->].
    pose proof (ascii_cases (fun c => implb (is_digit c)
        (existsb (fun p => String.eqb (fst p) (String c EmptyString) && Z.eqb (snd p) (digit_val c))
                 digit_table)) ltac:(vm_compute; reflexivity) c) as K.
    cbv beta in K. rewrite H in K. cbn [implb] in K.
    apply existsb_exists in K as ([x y] & Hin & Hb). cbn in Hb.
    apply andb_true_iff in Hb as [H1 H2]. apply String.eqb_eq in H1. apply Z.eqb_eq in H2.
    subst. exact Hin.
Qed.

Lemma white_iff c : White c <-> is_space c = true.
Proof.
  unfold White, is_space. split.
  - intros H. cbn [In] in H.
    repeat (destruct H as [<-|H]; [reflexivity|]). destruct H.
  - intros H. apply orb_true_iff in H as [H|H].
    + apply andb_true_iff in H as [H1 H2]. apply Nat.leb_le in H1, H2.
      assert (E : nat_of_ascii c = 9 \/ nat_of_ascii c = 10 \/ nat_of_ascii c = 11 \/
              nat_of_ascii c = 12 \/ nat_of_ascii c = 13) by lia.
      repeat (destruct E as [E|E]; [rewrite E; cbn; tauto|]). rewrite E; cbn; tauto.
    + apply Nat.eqb_eq in H. rewrite H. cbn. tauto.
Qed.

Lemma dec_val_snoc ds c : dec_val (ds ++ [c]) = (dec_val ds * 10 + digit_val c)%Z.
Proof. unfold dec_val. now rewrite fold_left_app. Qed.

Lemma decimal_iff ds z :
  Decimal ds z <-> ds <> [] /\ forallb is_digit ds = true /\ z = dec_val ds.
Proof.
  split.
  - induction 1 as [c v Hd|ds z c v H IH Hd].
    + apply digit_iff in Hd as [Hd ->]. cbn. rewrite Hd. repeat split; discriminate.
    + apply digit_iff in Hd as [Hd ->]. destruct IH as (Hne & Hall & ->).
      split; [destruct ds; discriminate|].
      rewrite forallb_app, Hall, dec_val_snoc. split; [cbn [forallb andb]; rewrite Hd; reflexivity|lia].
  - revert z. induction ds as [|c ds IH] using rev_ind; intros z (Hne & Hall & ->); [congruence|].
    rewrite forallb_app in Hall. apply andb_true_iff in Hall as [Hall Hc].
    cbn in Hc. rewrite andb_true_r in Hc. rewrite dec_val_snoc.
    destruct ds as [|d ds].
    + cbn. apply D_one. apply digit_iff. split; [exact Hc|]. reflexivity.
    + replace (dec_val (d :: ds) * 10 + digit_val c)%Z
        with (10 * dec_val (d :: ds) + digit_val c)%Z by lia.
      apply D_more; [|now apply digit_iff].
      apply IH. repeat split; [discriminate|exact Hall].
Qed.

Lemma saturate_clamp z : saturate z = clamp_long z.
Proof.
  unfold saturate, clamp_long, LONG_MIN, LONG_MAX.
  change (2^63)%Z with 9223372036854775808%Z.
  destruct (Z.ltb_spec z (-9223372036854775808));
    destruct (Z.ltb_spec 9223372036854775807 z); lia.
Qed.

Lemma skip_space_spec s :
  exists p, s = p ++ skip_space s /\ (forall c, In c p -> is_space c = true) /\
            (forall x r, skip_space s = x :: r -> is_space x = false).
Proof.
  induction s as [|x s (p & Hp & Hd & Hh)]; cbn.
  - exists []. cbn. repeat split; [tauto | discriminate].
  - destruct (is_space x) eqn:E.
    + exists (x :: p). cbn. split; [now f_equal|]. split; [|exact Hh].
      intros c [<-|H]; [exact E|now apply Hd].
    + exists []. cbn. split; [reflexivity|]. split; [tauto|]. now intros y r [= <- <-].
Qed.

Lemma skip_space_run p s :
  (forall c, In c p -> is_space c = true) -> skip_space (p ++ s) = skip_space s.
Proof.
  induction p as [|x p IH]; cbn; intros H; [reflexivity|].
  rewrite (H x (or_introl eq_refl)). apply IH. intros c Hc. apply H. now right.
Qed.

Lemma digit_run_spec s :
  exists rest, s = digit_run s ++ rest /\ forallb is_digit (digit_run s) = true /\
               (forall c r, rest = c :: r -> is_digit c = false).
Proof.
  induction s as [|x s (r & Hr & Ha & Hh)]; cbn.
  - exists []. repeat split; discriminate.
  - destruct (is_digit x) eqn:E.
    + exists r. cbn. rewrite E. split; [now f_equal|]. split; assumption.
    + exists (x :: s). cbn. repeat split. now intros c q [= <- <-].
Qed.

Lemma digit_run_app ds rest :
  forallb is_digit ds = true -> (forall c r, rest = c :: r -> is_digit c = false) ->
  digit_run (ds ++ rest) = ds.
Proof.
  induction ds as [|x ds IH]; cbn; intros H Hr.
  - destruct rest as [|c r]; [reflexivity|]. cbn. now rewrite (Hr c r eq_refl).
  - apply andb_true_iff in H as [Hx H]. rewrite Hx. f_equal. now apply IH.
Qed.

Lemma digit_not_sign c : is_digit c = true ->
  Ascii.eqb c MINUS = false /\ Ascii.eqb c PLUS = false /\ is_space c = false.
Proof.
  intros H.
  pose proof (ascii_cases (fun c => implb (is_digit c)
     (negb (Ascii.eqb c MINUS) && negb (Ascii.eqb c PLUS) && negb (is_space c)))
     ltac:(vm_compute; reflexivity) c) as K.
  cbv beta in K. rewrite H in K. cbn [implb] in K.
  apply andb_true_iff in K as [K K3]. apply andb_true_iff in K as [K1 K2].
  now rewrite negb_true_iff in K1, K2, K3.
Qed.

Lemma scan_ld_int f z : IntField f z <-> scan_ld f = ScanOk z.
Proof.
  split.
  - intros (sp & sign & ds & rest & v & -> & Hsp & Hsign & Hd & Hrest & ->).
    apply decimal_iff in Hd as (Hne & Hall & ->).
    unfold scan_ld. rewrite skip_space_run by (intros c Hc; now apply white_iff, Hsp).
    assert (Hr : digit_run (ds ++ rest) = ds).
    { apply digit_run_app; [exact Hall|]. intros c r E.
      destruct (is_digit c) eqn:K; [|reflexivity]. exfalso.
      apply (Hrest c r E (digit_val c)). apply digit_iff. tauto. }
    rewrite saturate_clamp. destruct Hsign as [->|[->| ->]].
    + cbn [app]. destruct ds as [|d ds]; [congruence|]. cbn [app].
      cbn in Hall. apply andb_true_iff in Hall as [Hd _].
      apply digit_not_sign in Hd as (H1 & H2 & H3). cbn [skip_space]. rewrite H3, H1, H2.
      change (d :: ds ++ rest) with ((d :: ds) ++ rest). rewrite Hr. reflexivity.
    + cbn [B list_ascii_of_string app]. change (skip_space ("+"%char :: ds ++ rest))
        with ("+"%char :: ds ++ rest).
      cbv beta iota. change (Ascii.eqb "+"%char MINUS) with false. change (Ascii.eqb "+"%char PLUS) with true.
      cbv beta iota. rewrite Hr. destruct ds; [congruence|]. reflexivity.
    + cbn [B list_ascii_of_string app]. change (skip_space ("-"%char :: ds ++ rest))
        with ("-"%char :: ds ++ rest).
      cbv beta iota. change (Ascii.eqb "-"%char MINUS) with true.
      cbv beta iota. rewrite Hr. destruct ds; [congruence|]. reflexivity.
  - unfold scan_ld. destruct (skip_space_spec f) as (sp & Hf & Hsp & Hh).
    destruct (skip_space f) as [|x r]; [discriminate|].
    set (sb := if Ascii.eqb x MINUS then (B "-", true, r)
               else if Ascii.eqb x PLUS then (B "+", false, r) else (B "", false, x :: r)).
    intros H.
    assert (K : exists sign neg body,
      sb = (sign, neg, body) /\ x :: r = sign ++ body /\
      (sign = [] \/ sign = B "+" \/ sign = B "-") /\ neg = beq sign (B "-") /\
      (let '(n, b) := if Ascii.eqb x MINUS then (true, r)
                      else if Ascii.eqb x PLUS then (false, r) else (false, x :: r) in
       n = neg /\ b = body)).
    { unfold sb. destruct (Ascii.eqb_spec x MINUS) as [->|H1];
        [|destruct (Ascii.eqb_spec x PLUS) as [->|H2]].
      - exists (B "-"), true, r. repeat split; auto.
      - exists (B "+"), false, r. repeat split; auto.
      - exists (B ""), false, (x :: r). repeat split; auto. }
    destruct K as (sign & neg & body & _ & Hx & Hsign & Hneg & Hm).
    destruct (if Ascii.eqb x MINUS then (true, r)
              else if Ascii.eqb x PLUS then (false, r) else (false, x :: r)) as [n b].
    destruct Hm as [-> ->].
    destruct (digit_run_spec body) as (rest & Hb & Hall & Hr).
    destruct (digit_run body) as [|d ds] eqn:E; [discriminate|]. injection H as <-.
    exists sp, sign, (d :: ds), rest, (dec_val (d :: ds)).
    repeat split.
    + rewrite Hf, Hx, Hb. reflexivity.
    + intros c Hc. now apply white_iff, Hsp.
    + exact Hsign.
    + apply decimal_iff. repeat split; [discriminate|exact Hall].
    + intros c q E2 v Hd. apply digit_iff in Hd as [Hd _]. rewrite (Hr c q E2) in Hd. discriminate.
    + rewrite saturate_clamp, Hneg. reflexivity.
Qed.

Lemma int_field_det f z1 z2 : IntField f z1 -> IntField f z2 -> z1 = z2.
Proof. rewrite !scan_ld_int. congruence. Qed.

Lemma parse_int_ok tok w n : parse_int tok w = inl n <-> IntField tok n.
Proof.
  rewrite scan_ld_int. unfold parse_int. destruct (scan_ld tok); split; congruence.
Qed.

Lemma parse_int_bad tok w m : parse_int tok w = inr m -> forall z, ~ IntField tok z.
Proof.
  intros H z. rewrite scan_ld_int. unfold parse_int in H. destruct (scan_ld tok); congruence.
Qed.

(** ** command words *)

Definition form_fields (f : msg_form) : nat :=
  match f with F_UNDEFINED => 7 | F_SIMPLE => 0 | F_NUMBER => 1 | F_LENGTH => 1
             | F_NUMBER_AND_LENGTH => 2 end.
Definition form_words (f : msg_form) : list (string * cmd_id) :=
  match f with F_UNDEFINED => [] | F_SIMPLE => simple_words | F_NUMBER => number_words
             | F_LENGTH => length_words | F_NUMBER_AND_LENGTH => number_and_length_words end.

Lemma lookup_word_in t w id f : lookup_word t w = Some (id, f) -> In (id, f, w) t.
Proof.
  induction t as [|[[i g] n] t IH]; cbn; [discriminate|].
  destruct (beq_spec w n) as [->|Hn].
  - intros [= -> ->]. now left.
  - right. now apply IH.
Qed.

Lemma lookup_word_none t w : lookup_word t w = None -> forall id f, ~ In (id, f, w) t.
Proof.
  induction t as [|[[i g] n] t IH]; cbn; [tauto|].
  destruct (beq_spec w n) as [->|Hn]; [discriminate|].
  intros H id f [[= _ _ E]|Hin]; [congruence|]. now apply (IH H id f).
Qed.

Lemma lookup_form w id f :
  lookup_word (tl command_info) w = Some (id, f) <-> InForm (form_words f) w id.
Proof.
  split.
  - intros H. apply lookup_word_in in H. exists (string_of_list_ascii w).
    split; [symmetry; apply list_ascii_of_string_of_list_ascii|].
    cbn [tl command_info In] in H.
    repeat (destruct H as [H|H]; [injection H as <- <- <-; vm_compute; auto 12|]).
    destruct H.
  - intros (s & -> & H). destruct f; cbn in H;
      repeat (destruct H as [H|H]; [injection H as <- <-; now vm_compute|]); destruct H.
Qed.

Lemma known_lookup w id f :
  lookup_word (tl command_info) w = Some (id, f) -> Known w (form_fields f).
Proof.
  intros H. assert (Hf : f <> F_UNDEFINED).
  { intros ->. apply lookup_form in H as (s & _ & []). }
  apply lookup_form in H. exists id. destruct f; cbn in *; tauto.
Qed.

Lemma known_lookup_inv w n :
  Known w n -> exists id f, lookup_word (tl command_info) w = Some (id, f) /\ n = form_fields f.
Proof.
  intros (id & H). exists id.
  destruct H as [[H ->]|[[H ->]|[[H ->]|[H ->]]]];
    [exists F_SIMPLE|exists F_NUMBER|exists F_LENGTH|exists F_NUMBER_AND_LENGTH];
    (split; [apply lookup_form; exact H|reflexivity]).
Qed.

(** ** the parser *)

Lemma inform_id l1 l2 w i j f g :
  l1 = form_words f -> l2 = form_words g ->
  InForm l1 w i -> InForm l2 w j -> i = j /\ f = g.
Proof.
  intros -> -> H1 H2. apply lookup_form in H1, H2. rewrite H1 in H2.
  injection H2 as -> ->. tauto.
Qed.

Definition verdict (s : bytes) (g : grammar) (c : command) : Prop :=
  (g = VALID_GRAMMAR /\ ValidLine s c) \/
  (g <> VALID_GRAMMAR /\ Rejected s g /\ c = undefined_command).

Lemma parse_sound elen s g c m : parse_command elen s = (g, c, m) -> verdict s g c.
Proof.
  destruct (line_words_exist s) as [ws W]. unfold parse_command.
  rewrite (tokenize_words s ws W).
  destruct ws as [|w fs].
  { cbn [firstn]. intros [= <- <- <-]. right. repeat split; [discriminate|now constructor]. }
  change (firstn 3 (w :: fs)) with (w :: firstn 2 fs). cbv beta iota zeta.
  destruct (lookup_word (tl command_info) w) as [[id form]|] eqn:L.
  2:{ intros [= <- <- <-]. right. repeat split; [discriminate|].
      apply (R_unknown s w fs W). intros n K. apply known_lookup_inv in K as (i & f & K & _).
      congruence. }
  pose proof (known_lookup w id form L) as K.
  pose proof (proj1 (lookup_form w id form) L) as F.
  destruct (3 <? length (w :: fs)) eqn:E3.
  { cbn [orb]. intros [= <- <- <-]. right. repeat split; [discriminate|].
    apply Nat.ltb_lt in E3. cbn [length] in E3.
    apply (R_many s w fs (form_fields form) W K). destruct form; cbn; try lia.
    destruct F as (x & _ & []). }
  apply Nat.ltb_ge in E3. cbn [length] in E3. cbn [orb].
  rewrite (firstn_all2 fs) by lia.
  destruct (Nat.ltb_spec (nbr_tokens form) (length (w :: fs))) as [E|E].
  { intros [= <- <- <-]. right. repeat split; [discriminate|].
    apply (R_many s w fs (form_fields form) W K). cbn [length] in E.
    destruct form; cbn in *; try lia. destruct F as (x & _ & []). }
  destruct (Nat.ltb_spec (length (w :: fs)) (nbr_tokens form)) as [E2|E2].
  { intros [= <- <- <-]. right. repeat split; [discriminate|].
    apply (R_few s w fs (form_fields form) W K). cbn [length] in E2.
    destruct form; cbn in *; lia. }
  assert (El : length fs = form_fields form /\ S (length fs) = nbr_tokens form).
  { cbn [length] in E, E2. destruct form; cbn in *; try lia. }
  destruct El as [El El2]. clear E E2 E3.
  rewrite <- El in K.
  destruct form.
  - destruct F as (x & _ & []).
  - destruct fs; [|discriminate]. intros [= <- <- <-]. left. split; [reflexivity|].
    now apply (V_simple s w).
  - destruct fs as [|f [|? ?]]; try discriminate. cbn [nth].
    destruct (parse_int f w) as [n1|e1] eqn:P1.
    + intros [= <- <- <-]. left. split; [reflexivity|]. apply parse_int_ok in P1.
      now apply (V_number s w f).
    + intros [= <- <- <-]. right. repeat split; [discriminate|].
      apply (R_not_int s w [f] f W K); [now left|]. now apply (parse_int_bad _ w e1).
  - destruct fs as [|f [|? ?]]; try discriminate. cbn [nth].
    destruct (parse_int f w) as [n1|e1] eqn:P1.
    + apply parse_int_ok in P1. destruct (Z.ltb_spec n1 0) as [Hn|Hn].
      * intros [= <- <- <-]. right. repeat split; [discriminate|].
        apply (R_negative s w [f] f n1 W K); auto.
        -- intros g0 [<-|[]]. eauto.
        -- intros j Hj.
           destruct (inform_id _ _ w id j F_LENGTH F_NUMBER eq_refl eq_refl F Hj) as [_ X].
           discriminate.
        -- now exists [].
      * intros [= <- <- <-]. left. split; [reflexivity|]. now apply (V_length s w f).
    + intros [= <- <- <-]. right. repeat split; [discriminate|].
      apply (R_not_int s w [f] f W K); [now left|]. now apply (parse_int_bad _ w e1).
  - destruct fs as [|f [|g0 [|? ?]]]; try discriminate. cbn [nth].
    destruct (parse_int f w) as [n1|e1] eqn:P1.
    2:{ intros [= <- <- <-]. right. repeat split; [discriminate|].
        apply (R_not_int s w [f; g0] f W K); [now left|]. now apply (parse_int_bad _ w e1). }
    destruct (parse_int g0 w) as [n2|e2] eqn:P2.
    2:{ intros [= <- <- <-]. right. repeat split; [discriminate|].
        apply (R_not_int s w [f; g0] g0 W K); [right; now left|]. now apply (parse_int_bad _ w e2). }
    apply parse_int_ok in P1, P2. destruct (Z.ltb_spec n2 0) as [Hn|Hn].
    + intros [= <- <- <-]. right. repeat split; [discriminate|].
      apply (R_negative s w [f; g0] g0 n2 W K); auto.
      * intros h [<-|[<-|[]]]; eauto.
      * intros j Hj.
        destruct (inform_id _ _ w id j F_NUMBER_AND_LENGTH F_NUMBER eq_refl eq_refl F Hj) as [_ X].
        discriminate.
      * now exists [f].
    + intros [= <- <- <-]. left. split; [reflexivity|]. now apply (V_number_length s w f g0).
Qed.

Lemma known_det w n m : Known w n -> Known w m -> n = m.
Proof.
  intros H1 H2. apply known_lookup_inv in H1 as (i & f & H1 & ->), H2 as (j & g & H2 & ->).
  congruence.
Qed.

Ltac same_words :=
  match goal with
  | H1 : LineWords ?s ?a, H2 : LineWords ?s ?b |- _ =>
      pose proof (line_words_det s a b H1 H2) as Heqw; clear H2
  end.

Ltac same_form :=
  match goal with
  | H1 : InForm ?l1 ?w ?i, H2 : InForm ?l2 ?w ?j |- _ =>
      let f1 := match l1 with simple_words => F_SIMPLE | number_words => F_NUMBER
                | length_words => F_LENGTH | number_and_length_words => F_NUMBER_AND_LENGTH end in
      let f2 := match l2 with simple_words => F_SIMPLE | number_words => F_NUMBER
                | length_words => F_LENGTH | number_and_length_words => F_NUMBER_AND_LENGTH end in
      let X := fresh in
      destruct (inform_id l1 l2 w i j f1 f2 eq_refl eq_refl H1 H2) as [-> X];
      try discriminate X; clear H2 X
  end.

Ltac same_int :=
  match goal with
  | H1 : IntField ?f ?a, H2 : IntField ?f ?b |- _ =>
      pose proof (int_field_det f a b H1 H2); clear H2; subst
  end.

Lemma valid_det s c1 c2 : ValidLine s c1 -> ValidLine s c2 -> c1 = c2.
Proof.
  intros H1 H2. destruct H1, H2; same_words; injection Heqw; intros; subst;
    try discriminate; same_form; repeat same_int; reflexivity.
Qed.

Lemma valid_known s c : ValidLine s c ->
  exists w fs id f, LineWords s (w :: fs) /\ InForm (form_words f) w id /\ form_fields f = length fs /\
    f <> F_UNDEFINED /\ (forall g, In g fs -> exists y, IntField g y) /\
    (forall l g, fs = l ++ [g] -> f <> F_NUMBER -> exists y, IntField g y /\ (0 <= y)%Z).
Proof.
  destruct 1 as [w id W F|w f id n W F I|w f id n W F I Hn|w f g id m n W F I1 I2 Hn].
  - exists w, [], id, F_SIMPLE. repeat split; auto; try discriminate. intros g [].
    intros l g E. destruct l; discriminate.
  - exists w, [f], id, F_NUMBER. repeat split; auto; try discriminate.
    + intros g [<-|[]]; eauto.
    + congruence.
  - exists w, [f], id, F_LENGTH. repeat split; auto; try discriminate.
    + intros g [<-|[]]; eauto.
    + intros l g E _. destruct l as [|a [|b l]]; cbn in E; [injection E as <-; eauto| |];
        discriminate.
  - exists w, [f; g], id, F_NUMBER_AND_LENGTH. repeat split; auto; try discriminate.
    + intros h [<-|[<-|[]]]; eauto.
    + intros l h E _. destruct l as [|a [|b [|d l]]]; cbn in E; try discriminate.
      injection E as <- <-. eauto.
Qed.

Lemma form_known f w id : f <> F_UNDEFINED -> InForm (form_words f) w id -> Known w (form_fields f).
Proof. intros Hf H. exists id. destruct f; cbn in *; tauto. Qed.

Lemma valid_not_rejected s c g : ValidLine s c -> ~ Rejected s g.
Proof.
  intros V R. apply valid_known in V as (w & fs & id & f & W & F & El & Hf & Hall & Hlast).
  pose proof (form_known f w id Hf F) as K. rewrite El in K.
  destruct R as [W'|w' fs' W' Hu|w' fs' n W' K' Hn|w' fs' n W' K' Hn|w' fs' h W' K' Hin Hno
                |w' fs' h z W' K' Hall' Hnn Hl I Hz];
    same_words; try discriminate; injection Heqw; intros; subst.
  - now apply (Hu _ K).
  - pose proof (known_det _ _ _ K K'). lia.
  - pose proof (known_det _ _ _ K K'). lia.
  - destruct (Hall h Hin) as [y Hy]. now apply (Hno y).
  - destruct Hl as [l ->].
    destruct (Hlast l h eq_refl) as (y & Hy & Hp).
    + intros ->. now apply (Hnn id).
    + same_int. lia.
Qed.

Lemma rejected_det s g1 g2 : Rejected s g1 -> Rejected s g2 -> g1 = g2.
Proof.
  intros R1 R2.
  destruct R1 as [W1|w1 fs1 W1 Hu1|w1 fs1 n1 W1 K1 Hn1|w1 fs1 n1 W1 K1 Hn1|w1 fs1 h1 W1 K1 Hin1 Hno1
                |w1 fs1 h1 z1 W1 K1 Hall1 Hnn1 Hl1 I1 Hz1];
  destruct R2 as [W2|w2 fs2 W2 Hu2|w2 fs2 n2 W2 K2 Hn2|w2 fs2 n2 W2 K2 Hn2|w2 fs2 h2 W2 K2 Hin2 Hno2
                |w2 fs2 h2 z2 W2 K2 Hall2 Hnn2 Hl2 I2 Hz2];
    same_words; try discriminate; try reflexivity; injection Heqw; intros; subst;
    try (exfalso; match goal with
         | Hu : forall n, ~ Known ?w n, K : Known ?w ?m |- _ => now apply (Hu m) end);
    try (exfalso; match goal with
         | K : Known ?w ?n, K' : Known ?w ?m |- _ => pose proof (known_det _ _ _ K K'); lia end);
    exfalso.
  - destruct (Hall2 _ Hin1) as [y Hy]. now apply (Hno1 y).
  - destruct (Hall1 _ Hin2) as [y Hy]. now apply (Hno2 y).
Qed.

Lemma parse_valid_iff elen s c :
  (exists m, parse_command elen s = (VALID_GRAMMAR, c, m)) <-> ValidLine s c.
Proof.
  split.
  - intros [m H]. apply parse_sound in H as [[_ H]|(H & _)]; [exact H|congruence].
  - intros V. destruct (parse_command elen s) as [[g c'] m] eqn:E.
    pose proof (parse_sound _ _ _ _ _ E) as [[-> V']|(_ & R & _)].
    + rewrite (valid_det s c c' V V'). now exists m.
    + exfalso. now apply (valid_not_rejected s c g).
Qed.

Lemma parse_reject_iff elen s g :
  g <> VALID_GRAMMAR ->
  (exists m, parse_command elen s = (g, undefined_command, m)) <-> Rejected s g.
Proof.
  intros Hg. split.
  - intros [m H]. apply parse_sound in H as [[H _]|(_ & H & _)]; [congruence|exact H].
  - intros R. destruct (parse_command elen s) as [[g' c'] m] eqn:E.
    pose proof (parse_sound _ _ _ _ _ E) as [[-> V']|(_ & R' & ->)].
    + exfalso. now apply (valid_not_rejected s c' g).
    + rewrite (rejected_det s g g' R R'). now exists m.
Qed.

Lemma parse_total s : (exists c, ValidLine s c) \/ (exists g, Rejected s g).
Proof.
  destruct (parse_command 1 s) as [[g c] m] eqn:E.
  pose proof (parse_sound _ _ _ _ _ E) as [[-> V]|(_ & R & _)]; eauto.
Qed.

Lemma valid_length_range s c : ValidLine s c -> (0 <= c_length c <= LONG_MAX)%Z.
Proof.
  assert (K : forall f z, IntField f z -> (z <= LONG_MAX)%Z).
  { intros f z (? & ? & ? & ? & v & _ & _ & _ & _ & _ & ->). rewrite saturate_clamp.
    unfold clamp_long. destruct (Z.ltb_spec (if beq x0 (B "-") then - v else v) LONG_MIN);
      [unfold LONG_MIN, LONG_MAX; lia|].
    destruct (Z.ltb_spec LONG_MAX (if beq x0 (B "-") then - v else v)); lia. }
  destruct 1; cbn; unfold LONG_MAX in *; try lia;
    match goal with H : IntField _ ?n |- (_ <= ?n <= _)%Z => apply K in H; lia end.
Qed.
