(** Decimal printing is inverse to the "%ld" scanner, and its length. *)
From Verif Require Import Base BaseProofs ParseModel ParseSpec ParseProofs.

Lemma digit_char k : (0 <= k < 10)%Z ->
  is_digit (ch (48 + Z.to_nat k)) = true /\ digit_val (ch (48 + Z.to_nat k)) = k.
Proof.
  intros H.
  assert (E : (k = 0 \/ k = 1 \/ k = 2 \/ k = 3 \/ k = 4 \/ k = 5 \/ k = 6 \/ k = 7 \/ k = 8
               \/ k = 9)%Z) by lia.
  repeat (destruct E as [->|E]; [split; vm_compute; reflexivity|]).
  subst. split; vm_compute; reflexivity.
Qed.

Lemma digits_rev_S f n :
  digits_rev (S f) n = if (n <? 10)%Z then [ch (48 + Z.to_nat n)]
                       else ch (48 + Z.to_nat (n mod 10)) :: digits_rev f (n / 10).
Proof. reflexivity. Qed.

Lemma digits_rev_spec fuel n :
  (0 <= n < 2 ^ Z.of_nat (S fuel))%Z ->
  dec_val (rev (digits_rev (S fuel) n)) = n /\
  forallb is_digit (digits_rev (S fuel) n) = true /\
  digits_rev (S fuel) n <> [].
Proof.
  revert n; induction fuel as [|fuel IH]; intros n Hn; rewrite digits_rev_S.
  - change (2 ^ Z.of_nat 1)%Z with 2%Z in Hn.
    destruct (Z.ltb_spec n 10) as [H|H]; [|lia].
    destruct (digit_char n) as [Hd Hv]; [lia|].
    cbn [rev app forallb andb]. rewrite Hd.
    unfold dec_val. cbn [fold_left]. rewrite Hv. split; [lia|split; [reflexivity|discriminate]].
  - destruct (Z.ltb_spec n 10) as [H|H].
    + destruct (digit_char n) as [Hd Hv]; [lia|].
      cbn [rev app forallb andb]. rewrite Hd.
      unfold dec_val. cbn [fold_left]. rewrite Hv. split; [lia|split; [reflexivity|discriminate]].
    + assert (Hd10 : (0 <= n / 10 < 2 ^ Z.of_nat (S fuel))%Z).
      { split; [apply Z.div_pos; lia|]. apply Z.div_lt_upper_bound; [lia|].
        rewrite (Nat2Z.inj_succ (S fuel)), Z.pow_succ_r in Hn by lia. lia. }
      destruct (IH _ Hd10) as (I1 & I2 & I3).
      pose proof (Z.mod_pos_bound n 10 ltac:(lia)) as Hm.
      destruct (digit_char (n mod 10)) as [Hd Hv]; [lia|].
      change (rev (ch (48 + Z.to_nat (n mod 10)) :: digits_rev (S fuel) (n / 10)))
        with (rev (digits_rev (S fuel) (n / 10)) ++ [ch (48 + Z.to_nat (n mod 10))]).
      rewrite dec_val_snoc, I1, Hv. cbn [forallb]. rewrite Hd.
      repeat split; [|exact I2|discriminate].
      pose proof (Z.div_mod n 10 ltac:(lia)). lia.
Qed.

Lemma log2_fuel n : (0 <= n)%Z -> (0 <= n < 2 ^ Z.of_nat (S (Z.to_nat (Z.log2 n))))%Z.
Proof.
  intros H. split; [exact H|].
  rewrite Nat2Z.inj_succ, Z2Nat.id by apply Z.log2_nonneg.
  destruct (Z.eq_dec n 0) as [->|Hn]; [reflexivity|].
  apply Z.log2_spec. lia.
Qed.

Definition udigits (n : Z) : bytes := rev (digits_rev (S (Z.to_nat (Z.log2 n))) n).

Lemma udigits_spec n : (0 <= n)%Z ->
  dec_val (udigits n) = n /\ forallb is_digit (udigits n) = true /\ udigits n <> [].
Proof.
  intros H. destruct (digits_rev_spec _ n (log2_fuel n H)) as (H1 & H2 & H3).
  unfold udigits. repeat split.
  - exact H1.
  - rewrite forallb_forall in *. intros x Hx. apply H2. now apply in_rev.
  - intros E. apply H3. rewrite <- (rev_involutive (digits_rev _ _)), E. reflexivity.
Qed.

Lemma print_dec_eq z :
  print_dec z = if (z <? 0)%Z then MINUS :: udigits (- z) else udigits z.
Proof. reflexivity. Qed.

Lemma print_dec_int z rest :
  (LONG_MIN <= z <= LONG_MAX)%Z ->
  (forall c r, rest = c :: r -> is_digit c = false) ->
  IntField (print_dec z ++ rest) z.
Proof.
  intros Hz Hr. rewrite print_dec_eq.
  assert (Hc : clamp_long z = z).
  { unfold clamp_long. destruct (Z.ltb_spec z LONG_MIN); [lia|].
    destruct (Z.ltb_spec LONG_MAX z); lia. }
  assert (Hrest : forall c r, rest = c :: r -> forall d, ~ Digit c d).
  { intros c r E d Hd. apply digit_iff in Hd as [Hd _]. rewrite (Hr c r E) in Hd. discriminate. }
  destruct (Z.ltb_spec z 0) as [H|H].
  - destruct (udigits_spec (- z)) as (H1 & H2 & H3); [lia|].
    exists [], (B "-"), (udigits (- z)), rest, (- z)%Z. repeat split.
    + intros c [].
    + tauto.
    + apply decimal_iff. repeat split; auto.
    + exact Hrest.
    + rewrite saturate_clamp. cbn [beq]. change (beq (B "-") (B "-")) with true. cbv iota.
      rewrite Z.opp_involutive. symmetry. exact Hc.
  - destruct (udigits_spec z) as (H1 & H2 & H3); [lia|].
    exists [], [], (udigits z), rest, z. repeat split.
    + intros c [].
    + tauto.
    + apply decimal_iff. repeat split; auto.
    + exact Hrest.
    + rewrite saturate_clamp. change (beq [] (B "-")) with false. cbv iota. symmetry. exact Hc.
Qed.

Lemma digit_not_sep c : is_digit c = true -> c <> SP /\ c <> LF /\ c <> NUL.
Proof.
  intros H.
  pose proof (ascii_cases (fun c => implb (is_digit c)
     (negb (Ascii.eqb c SP) && negb (Ascii.eqb c LF) && negb (Ascii.eqb c NUL)))
     ltac:(vm_compute; reflexivity) c) as K.
  cbv beta in K. rewrite H in K. cbn [implb] in K.
  apply andb_true_iff in K as [K K3]. apply andb_true_iff in K as [K1 K2].
  rewrite negb_true_iff in K1, K2, K3.
  repeat split; intros ->; [rewrite Ascii.eqb_refl in K1|rewrite Ascii.eqb_refl in K2
    |rewrite Ascii.eqb_refl in K3]; discriminate.
Qed.

Lemma print_dec_chars z :
  print_dec z <> [] /\ ~ In SP (print_dec z) /\ ~ In LF (print_dec z) /\ ~ In NUL (print_dec z).
Proof.
  rewrite print_dec_eq.
  assert (K : forall n, (0 <= n)%Z ->
    udigits n <> [] /\ ~ In SP (udigits n) /\ ~ In LF (udigits n) /\ ~ In NUL (udigits n)).
  { intros n Hn. destruct (udigits_spec n Hn) as (_ & Ha & Hne). rewrite forallb_forall in Ha.
    repeat split; [exact Hne| | |]; intros Hin; apply Ha, digit_not_sep in Hin; tauto. }
  destruct (Z.ltb_spec z 0) as [H|H].
  - destruct (K (- z)%Z) as (K0 & K1 & K2 & K3); [lia|].
    repeat split; [discriminate| | |]; intros [E|Hin]; try tauto; discriminate.
  - now apply K.
Qed.

Lemma digits_rev_length fuel k n :
  (0 <= n < 10 ^ Z.of_nat (S k))%Z -> length (digits_rev fuel n) <= S k.
Proof.
  revert k n; induction fuel as [|fuel IH]; intros k n Hn; cbn [digits_rev]; [cbn; lia|].
  destruct (Z.ltb_spec n 10) as [H|H]; [cbn; lia|].
  destruct k as [|k]; [change (10 ^ Z.of_nat 1)%Z with 10%Z in Hn; lia|].
  cbn [length]. apply le_n_S. apply IH. split; [apply Z.div_pos; lia|].
  apply Z.div_lt_upper_bound; [lia|].
  rewrite (Nat2Z.inj_succ (S k)), Z.pow_succ_r in Hn by lia. lia.
Qed.

(** Every value of a 64-bit signed or unsigned integer prints in at most 20
    characters. *)
Lemma print_dec_length z :
  (-(2^63) <= z < 2^64)%Z -> length (print_dec z) <= 20.
Proof.
  intros Hz. rewrite print_dec_eq. unfold udigits.
  destruct (Z.ltb_spec z 0) as [H|H]; cbn [length]; rewrite rev_length.
  - apply le_n_S. apply digits_rev_length.
    change (10 ^ Z.of_nat 19)%Z with 10000000000000000000%Z. lia.
  - apply digits_rev_length.
    change (10 ^ Z.of_nat 20)%Z with 100000000000000000000%Z. lia.
Qed.

(** Lower bound used for tightness remarks: printing is injective. *)
Lemma print_dec_inj a b :
  (LONG_MIN <= a <= LONG_MAX)%Z -> (LONG_MIN <= b <= LONG_MAX)%Z ->
  print_dec a = print_dec b -> a = b.
Proof.
  intros Ha Hb E.
  pose proof (print_dec_int a [] Ha ltac:(discriminate)) as Ia.
  pose proof (print_dec_int b [] Hb ltac:(discriminate)) as Ib.
  rewrite E in Ia. now apply (int_field_det (print_dec b ++ [])).
Qed.

(** The texts for a wrong number of arguments fit in 128 bytes, because the
    command word is one of the table. *)
Lemma arity_text_fits many w id f :
  lookup_word (tl command_info) w = Some (id, f) ->
  length (arity_text many f w) < 128 /\
  length (arity_text many f w ++ expected_form f w) < 128.
Proof.
  intros H. apply lookup_word_in in H. cbn [tl command_info In] in H.
  destruct many;
    repeat (destruct H as [H|H];
            [injection H as <- <- <-; split; apply Nat.ltb_lt; vm_compute; reflexivity|]);
    destruct H.
Qed.

Lemma parse_text_fits elen s g c t :
  0 < elen -> parse_command elen s = (g, c, Some t) -> length t < elen.
Proof.
  intros He.
  assert (P : forall m t, put elen m = Some t -> length t < elen).
  { intros m t0 [= <-]. unfold snprintf. rewrite firstn_length. lia. }
  assert (Q : forall m t, option_map (snprintf elen) m = Some t -> length t < elen).
  { intros [m|] t0; [|discriminate]. apply P. }
  unfold parse_command. destruct (tokenize s) as [toks many].
  destruct toks as [|w args]; [intros [= _ _ E]; subst; now eapply P|].
  destruct (lookup_word (tl command_info) w) as [[id form]|];
    [|intros [= _ _ E]; subst; eapply P; reflexivity].
  destruct (many || _); [intros [= _ _ E]; subst; eapply P; reflexivity|].
  destruct (length (w :: args) <? nbr_tokens form);
    [intros [= _ _ E]; subst; eapply P; reflexivity|].
  destruct form; try discriminate.
  - destruct (parse_int (nth 0 args []) w) as [n1|m1]; intros [= _ _ E]; try discriminate.
    now apply Q in E.
  - destruct (parse_int (nth 0 args []) w) as [n1|m1].
    + destruct (n1 <? 0)%Z; [|discriminate]. intros [= _ _ E]; subst; eapply P; reflexivity.
    + intros [= _ _ E]. now apply Q in E.
  - destruct (parse_int (nth 0 args []) w) as [n1|m1].
    2:{ intros [= _ _ E]. now apply Q in E. }
    destruct (parse_int (nth 1 args []) w) as [n2|m2].
    + destruct (n2 <? 0)%Z; [|discriminate]. intros [= _ _ E]; subst; eapply P; reflexivity.
    + intros [= _ _ E]. now apply Q in E.
Qed.
