(** Proofs about sending and receiving. *)
From Verif Require Import Base BaseProofs ParseModel ParseSpec ParseProofs DecProofs
  WireModel WireSpec.

(** ** names of commands *)

Lemma cmd_name_chars id :
  cmd_name id <> [] /\ ~ In SP (cmd_name id) /\ ~ In LF (cmd_name id) /\ ~ In NUL (cmd_name id)
  /\ length (cmd_name id) <= 17.
Proof.
  destruct id; (split; [discriminate|]); repeat split;
    try (apply has_byte_false; vm_compute; reflexivity);
    apply Nat.leb_le; vm_compute; reflexivity.
Qed.

Lemma form_of_inform id f :
  form_of id = f -> f <> F_UNDEFINED -> InForm (form_words f) (cmd_name id) id.
Proof.
  intros <- Hf. apply lookup_form. destruct id; try (exfalso; apply Hf; reflexivity); reflexivity.
Qed.

(** ** parsing a header line *)

Fixpoint join (ws : list bytes) : bytes :=
  match ws with
  | [] => []
  | [w] => w
  | w :: r => w ++ SP :: join r
  end.

Definition good_word (w : bytes) : Prop := w <> [] /\ ~ In SP w /\ ~ In LF w /\ ~ In NUL w.

Lemma words_join ws : (forall w, In w ws -> good_word w) -> Words (join ws) ws.
Proof.
  induction ws as [|w ws IH]; intros H; [constructor|].
  destruct (H w (or_introl eq_refl)) as (H1 & H2 & _).
  assert (W : Words (join ws) ws) by (apply IH; intros v Hv; apply H; now right).
  destruct ws as [|w2 ws].
  - cbn. rewrite <- (app_nil_r w) at 1. apply W_word; auto.
  - cbn [join]. apply W_word; auto; [right; eauto|now constructor].
Qed.

Lemma join_chars ws : (forall w, In w ws -> good_word w) -> ~ In LF (join ws) /\ ~ In NUL (join ws).
Proof.
  induction ws as [|w ws IH]; intros H; [cbn; tauto|].
  destruct (H w (or_introl eq_refl)) as (H1 & H2 & H3 & H4).
  destruct IH as [I1 I2]; [intros v Hv; apply H; now right|].
  destruct ws as [|w2 ws]; [cbn; tauto|].
  change (join (w :: w2 :: ws)) with (w ++ SP :: join (w2 :: ws)).
  split; intros E; apply in_app_or in E as [E|[E|E]]; try tauto; discriminate.
Qed.

Lemma join_nonempty ws : ws <> [] -> (forall w, In w ws -> good_word w) -> join ws <> [].
Proof.
  destruct ws as [|w ws]; [congruence|]. intros _ H.
  destruct (H w (or_introl eq_refl)) as (H1 & _). destruct w as [|x w]; [congruence|].
  destruct ws; discriminate.
Qed.

Lemma line_words_join ws rest :
  ws <> [] -> (forall w, In w ws -> good_word w) -> (rest = [] \/ exists r, rest = LF :: r) ->
  LineWords (join ws ++ rest) ws.
Proof.
  intros Hne H Hr. right. exists (join ws). split.
  - exists [], rest. cbn. repeat split; auto.
    + intros c [].
    + now apply join_nonempty.
    + now apply join_chars.
  - now apply words_join.
Qed.

Lemma good_name id : good_word (cmd_name id).
Proof. destruct (cmd_name_chars id) as (H1 & H2 & H3 & H4 & _). repeat split; assumption. Qed.

Lemma good_dec z : good_word (print_dec z).
Proof. apply print_dec_chars. Qed.

(** header fields of each form *)
Definition header_words (c : command) : list bytes :=
  match form_of (c_id c) with
  | F_UNDEFINED | F_SIMPLE => [cmd_name (c_id c)]
  | F_NUMBER => [cmd_name (c_id c); print_dec (c_number c)]
  | F_LENGTH => [cmd_name (c_id c); print_dec (c_length c)]
  | F_NUMBER_AND_LENGTH => [cmd_name (c_id c); print_dec (c_number c); print_dec (c_length c)]
  end.

Lemma header_words_good c w : In w (header_words c) -> good_word w.
Proof.
  unfold header_words. destruct (form_of (c_id c)); cbn [In];
    intros H; repeat (destruct H as [<-|H]; [apply good_name || apply good_dec|]); destruct H.
Qed.

Lemma header_words_nonempty c : header_words c <> [].
Proof. unfold header_words. destruct (form_of (c_id c)); discriminate. Qed.

(** [c] is a command a sender can express *)
Definition sendable (c : command) : Prop :=
  match form_of (c_id c) with
  | F_UNDEFINED => False
  | F_SIMPLE => c_number c = 0%Z /\ c_length c = 0%Z
  | F_NUMBER => (LONG_MIN <= c_number c <= LONG_MAX)%Z /\ c_length c = 0%Z
  | F_LENGTH => c_number c = 0%Z /\ (0 <= c_length c <= LONG_MAX)%Z
  | F_NUMBER_AND_LENGTH => (LONG_MIN <= c_number c <= LONG_MAX)%Z /\ (0 <= c_length c <= LONG_MAX)%Z
  end.

Lemma int_field_dec z : (LONG_MIN <= z <= LONG_MAX)%Z -> IntField (print_dec z) z.
Proof.
  intros H. rewrite <- (app_nil_r (print_dec z)). apply print_dec_int; [exact H|discriminate].
Qed.

Lemma valid_header c rest :
  sendable c -> (rest = [] \/ exists r, rest = LF :: r) ->
  ValidLine (join (header_words c) ++ rest) c.
Proof.
  intros Hs Hr.
  pose proof (line_words_join (header_words c) rest (header_words_nonempty c)
                (header_words_good c) Hr) as W.
  unfold sendable in Hs. unfold header_words in *. destruct c as [id n len]; cbn [c_id c_number c_length] in *.
  destruct (form_of id) eqn:F; cbn in Hs; [tauto| | | |];
    pose proof (form_of_inform id _ F ltac:(discriminate)) as I; cbn [form_words] in I.
  - destruct Hs as [-> ->]. now apply (V_simple _ (cmd_name id)).
  - destruct Hs as [Hn ->]. apply (V_number _ (cmd_name id) (print_dec n)); auto.
    now apply int_field_dec.
  - destruct Hs as [-> Hn]. apply (V_length _ (cmd_name id) (print_dec len)); auto.
    apply int_field_dec. unfold LONG_MIN, LONG_MAX in *. lia. lia.
  - destruct Hs as [Hn Hl]. apply (V_number_length _ (cmd_name id) (print_dec n) (print_dec len)); auto;
      try apply int_field_dec; unfold LONG_MIN, LONG_MAX in *; lia.
Qed.

Lemma parse_header elen c rest :
  sendable c -> (rest = [] \/ exists r, rest = LF :: r) ->
  exists m, parse_command elen (join (header_words c) ++ rest) = (VALID_GRAMMAR, c, m).
Proof. intros. apply parse_valid_iff. now apply valid_header. Qed.

(** ** headers fit *)

Lemma header_bound c :
  sendable c ->
  length (join (header_words c) ++ [LF]) + 1 <=
  match form_of (c_id c) with
  | F_UNDEFINED | F_SIMPLE => SIMPLE_FORM_BUFFER_SIZE
  | F_NUMBER | F_LENGTH => NUMBER_FORM_BUFFER_SIZE
  | F_NUMBER_AND_LENGTH => NUMBER_AND_LENGTH_FORM_BUFFER_SIZE
  end.
Proof.
  intros Hs. destruct (cmd_name_chars (c_id c)) as (_ & _ & _ & _ & Hl).
  unfold NUMBER_AND_LENGTH_FORM_BUFFER_SIZE, NUMBER_FORM_BUFFER_SIZE,
    SIMPLE_FORM_BUFFER_SIZE in *.
  unfold sendable, header_words in *. destruct (form_of (c_id c)); cbn [join].
  - tauto.
  - rewrite app_length. cbn [length]. lia.
  - destruct Hs as [Hn _].
    pose proof (print_dec_length (c_number c) ltac:(unfold LONG_MIN, LONG_MAX in *; lia)).
    rewrite !app_length. cbn [length]. lia.
  - destruct Hs as [_ Hn].
    pose proof (print_dec_length (c_length c) ltac:(unfold LONG_MIN, LONG_MAX in *; lia)).
    rewrite !app_length. cbn [length]. lia.
  - destruct Hs as [Hn Hn'].
    pose proof (print_dec_length (c_number c) ltac:(unfold LONG_MIN, LONG_MAX in *; lia)).
    pose proof (print_dec_length (c_length c) ltac:(unfold LONG_MIN, LONG_MAX in *; lia)).
    rewrite !app_length. cbn [length]. rewrite !app_length. cbn [length]. lia.
Qed.

Lemma send_simple_eq id : send_simple id = cmd_name id ++ [LF].
Proof.
  unfold send_simple, simple_header. apply snprintf_fits.
  destruct (cmd_name_chars id) as (_ & _ & _ & _ & Hl). rewrite app_length. cbn [length].
  unfold SIMPLE_FORM_BUFFER_SIZE. lia.
Qed.

Lemma send_number_eq id n : (-(2^63) <= n < 2^64)%Z ->
  send_number id n = cmd_name id ++ [SP] ++ print_dec n ++ [LF].
Proof.
  intros Hn. unfold send_number, number_header. apply snprintf_fits.
  destruct (cmd_name_chars id) as (_ & _ & _ & _ & Hl).
  pose proof (print_dec_length n Hn).
  rewrite !app_length. cbn [length]. unfold NUMBER_FORM_BUFFER_SIZE, SIMPLE_FORM_BUFFER_SIZE. lia.
Qed.

Lemma zlen_app a b : zlen (a ++ b) = (zlen a + zlen b)%Z.
Proof. unfold zlen. rewrite app_length. lia. Qed.

Lemma zlen_nonneg a : (0 <= zlen a)%Z.
Proof. unfold zlen. lia. Qed.

Lemma send_length_eq al id data :
  (zlen data < 2^64)%Z ->
  send_length al id data =
  Ok (if al (42 + zlen data)%Z
      then [cmd_name id ++ [SP] ++ print_dec (zlen data) ++ [LF] ++ data] else []).
Proof.
  intros Hd. unfold send_length. change (Z.of_nat NUMBER_FORM_BUFFER_SIZE) with 41%Z.
  replace (41 + zlen data + 1)%Z with (42 + zlen data)%Z by lia.
  destruct (al (42 + zlen data)%Z); [|reflexivity].
  destruct (cmd_name_chars id) as (_ & _ & _ & _ & Hl).
  pose proof (zlen_nonneg data).
  pose proof (print_dec_length (zlen data) ltac:(lia)) as Hp.
  destruct (Z.leb_spec (42 + zlen data) (zlen (length_header id (zlen data)) + zlen data)) as [H1|H1].
  - exfalso. unfold length_header in H1. rewrite !zlen_app in H1. unfold zlen at 2 3 4 6 in H1.
    cbn [length] in H1. lia.
  - unfold length_header. rewrite <- !app_assoc. reflexivity.
Qed.

Lemma send_number_and_length_eq al id n data :
  (-(2^63) <= n < 2^64)%Z -> (zlen data < 2^64)%Z ->
  send_number_and_length al id n data =
  Ok (if al (63 + zlen data)%Z
      then [cmd_name id ++ [SP] ++ print_dec n ++ [SP] ++ print_dec (zlen data) ++ [LF] ++ data]
      else []).
Proof.
  intros Hn Hd. unfold send_number_and_length.
  change (Z.of_nat NUMBER_AND_LENGTH_FORM_BUFFER_SIZE) with 62%Z.
  replace (62 + zlen data + 1)%Z with (63 + zlen data)%Z by lia.
  destruct (al (63 + zlen data)%Z); [|reflexivity].
  destruct (cmd_name_chars id) as (_ & _ & _ & _ & Hl).
  pose proof (zlen_nonneg data).
  pose proof (print_dec_length (zlen data) ltac:(lia)) as Hp.
  pose proof (print_dec_length n Hn) as Hp2.
  destruct (Z.leb_spec (63 + zlen data)
    (zlen (number_and_length_header id n (zlen data)) + zlen data)) as [H1|H1].
  - exfalso. unfold number_and_length_header in H1. rewrite !zlen_app in H1.
    assert (E1 : zlen [SP] = 1%Z) by reflexivity. assert (E2 : zlen [LF] = 1%Z) by reflexivity.
    rewrite E1, E2 in H1. unfold zlen in *. lia.
  - unfold number_and_length_header. rewrite <- !app_assoc. reflexivity.
Qed.

(** A sent message is: header words, newline, payload. *)
Lemma sent_shape al c data m :
  Sent al c data m ->
  sendable c /\ m = join (header_words c) ++ LF :: data /\
  (has_payload (c_id c) = true -> c_length c = zlen data) /\
  (has_payload (c_id c) = false -> data = [] /\ c_length c = 0%Z).
Proof.
  pose proof (zlen_nonneg data) as Hz.
  destruct 1 as [id F|id n F Hn|id data m F Hl E|id n data m F Hn Hl E];
    unfold sendable, header_words, has_payload; cbn [c_id c_number c_length]; rewrite F; cbn [join].
  - rewrite send_simple_eq. repeat split; discriminate.
  - rewrite send_number_eq by (unfold LONG_MIN, LONG_MAX in *; lia).
    rewrite <- !app_assoc. cbn [app]. repeat split; auto; try lia; discriminate.
  - rewrite send_length_eq in E by (unfold LONG_MAX in *; lia).
    destruct (al _); [|discriminate]. injection E as <-.
    rewrite <- !app_assoc. cbn [app]. repeat split; auto; discriminate.
  - rewrite send_number_and_length_eq in E by (unfold LONG_MIN, LONG_MAX in *; lia).
    destruct (al _); [|discriminate]. injection E as <-.
    rewrite <- !app_assoc. cbn [app]. rewrite <- !app_assoc. cbn [app].
    repeat split; auto; try lia; discriminate.
Qed.

(** ** splitting a record *)

Lemma strstr_nl_at h d : ~ In LF h -> ~ In NUL h -> strstr_nl (h ++ LF :: d) = NlAt (length h).
Proof.
  induction h as [|x h IH]; cbn; intros H1 H2; [reflexivity|].
  destruct (Ascii.eqb_spec x NUL) as [->|]; [tauto|].
  destruct (Ascii.eqb_spec x LF) as [->|]; [tauto|].
  rewrite IH; [reflexivity|tauto|tauto].
Qed.

Lemma strstr_nl_none h t : ~ In LF h -> ~ In NUL h -> strstr_nl (h ++ NUL :: t) = NlNone.
Proof.
  induction h as [|x h IH]; cbn; intros H1 H2; [reflexivity|].
  destruct (Ascii.eqb_spec x NUL) as [->|]; [tauto|].
  destruct (Ascii.eqb_spec x LF) as [->|]; [tauto|].
  rewrite IH; [reflexivity|tauto|tauto].
Qed.

Lemma strstr_nl_cases b :
  match strstr_nl b with
  | NlAt i => exists h d, HeaderThen b h d /\ length h = i
  | NlNone => NulFirst b
  | NlPastEnd => ~ In LF b /\ ~ In NUL b
  end.
Proof.
  induction b as [|x b IH]; cbn; [tauto|].
  destruct (Ascii.eqb_spec x NUL) as [->|Hn].
  { exists [], b. cbn. tauto. }
  destruct (Ascii.eqb_spec x LF) as [->|Hl].
  { exists [], b. unfold HeaderThen. cbn. tauto. }
  destruct (strstr_nl b).
  - destruct IH as (h & d & (-> & H1 & H2) & Hh). exists (x :: h), d.
    unfold HeaderThen. cbn. repeat split; [| |congruence]; intros [|]; tauto.
  - destruct IH as (h & d & -> & H1 & H2). exists (x :: h), d. cbn. repeat split; intros [|]; tauto.
  - split; intros [|]; tauto.
Qed.

Lemma skipn_header h d : skipn (S (length h)) (h ++ LF :: d) = d.
Proof. induction h as [|x h IH]; [reflexivity|]. exact IH. Qed.

Lemma header_then_det b h1 d1 h2 d2 :
  HeaderThen b h1 d1 -> HeaderThen b h2 d2 -> h1 = h2 /\ d1 = d2.
Proof.
  intros (-> & A1 & A2) (E & B1 & B2).
  assert (L : length h1 = length h2).
  { pose proof (strstr_nl_at h1 d1 A1 A2) as K. rewrite E, strstr_nl_at in K by assumption. congruence. }
  assert (h1 = h2) by (apply (f_equal (firstn (length h1))) in E;
    rewrite firstn_app_exact, L, firstn_app_exact in E; exact E).
  subst. apply app_inv_head in E. split; congruence.
Qed.

Lemma header_not_nul b h d : HeaderThen b h d -> ~ NulFirst b.
Proof.
  intros (-> & A1 & A2) (h2 & t & E & B1 & B2).
  pose proof (strstr_nl_at h d A1 A2) as K. rewrite E, strstr_nl_none in K by assumption.
  discriminate.
Qed.

Lemma extract_header al len b h d :
  HeaderThen b h d -> al (len + 1)%Z = true -> (zlen d <= len + 1)%Z ->
  extract_data al len b =
  Ok (Some {| p_len := len; p_bytes := firstn (Z.to_nat len) d; p_term := NUL |}, zlen d).
Proof.
  intros (-> & A1 & A2) Ha Hl. unfold extract_data. rewrite strstr_nl_at by assumption.
  rewrite Ha, skipn_header. destruct (Z.ltb_spec (len + 1) (zlen d)); [lia|reflexivity].
Qed.

Lemma extract_safe_iff al len b :
  (exists r, extract_data al len b = Ok r) <->
  (NulFirst b \/ exists h d, HeaderThen b h d /\ (al (len + 1)%Z = true -> (zlen d <= len + 1)%Z)).
Proof.
  split.
  - unfold extract_data. pose proof (strstr_nl_cases b) as K. destruct (strstr_nl b) as [i| |].
    + destruct K as (h & d & H & <-). intros [r E]. right. exists h, d. split; [exact H|].
      intros Ha. rewrite Ha in E. destruct H as (-> & _). rewrite skipn_header in E.
      destruct (Z.ltb_spec (len + 1) (zlen d)); [discriminate|lia].
    + left. exact K.
    + intros [r E]. discriminate.
  - intros [(h & t & -> & A1 & A2)|(h & d & (-> & A1 & A2) & Hl)]; unfold extract_data.
    + rewrite strstr_nl_none by assumption. eauto.
    + rewrite strstr_nl_at, skipn_header by assumption. destruct (al (len + 1)%Z); [|eauto].
      specialize (Hl eq_refl). destruct (Z.ltb_spec (len + 1) (zlen d)); [lia|eauto].
Qed.

Lemma extract_unsafe al len b r :
  extract_data al len b = UB r <->
  (r = OobRead /\ ~ In LF b /\ ~ In NUL b) \/
  (r = OobWrite /\ exists h d, HeaderThen b h d /\ al (len + 1)%Z = true /\ (len + 1 < zlen d)%Z).
Proof.
  unfold extract_data. pose proof (strstr_nl_cases b) as K. destruct (strstr_nl b) as [i| |].
  - destruct K as (h & d & H & <-). pose proof H as (Eb & A1 & A2). subst b. rewrite skipn_header.
    split.
    + destruct (al (len + 1)%Z) eqn:Ha; [|discriminate].
      destruct (Z.ltb_spec (len + 1) (zlen d)); [|discriminate]. intros [= <-]. right.
      split; [reflexivity|]. exists h, d. tauto.
    + intros [(_ & N & _)|(-> & h' & d' & H' & Ha & Hl)].
      * exfalso. apply N. apply in_or_app. right. now left.
      * destruct (header_then_det _ _ _ _ _ H H') as [<- <-]. rewrite Ha.
        destruct (Z.ltb_spec (len + 1) (zlen d)); [reflexivity|lia].
  - split; [discriminate|]. intros [(_ & _ & N)|(_ & h & d & H & _)].
    + destruct K as (h & t & -> & _). exfalso. apply N. apply in_or_app. right. now left.
    + exfalso. now apply (header_not_nul b h d).
  - split.
    + intros [= <-]. left. tauto.
    + intros [(-> & _)|(_ & h & d & H & _)]; [reflexivity|].
      destruct H as (-> & _). exfalso. apply (proj1 K). apply in_or_app. right. now left.
Qed.

(** ** reading the rest of a payload *)

Lemma zlen_nil : zlen [] = 0%Z.
Proof. reflexivity. Qed.

Lemma zlen_pos b : b <> [] -> (0 < zlen b)%Z.
Proof. destruct b; [congruence|]. intros _. unfold zlen. cbn [length]. lia. Qed.

Lemma firstn_zlen n b : (zlen b <= n)%Z -> firstn (Z.to_nat n) b = b.
Proof. intros H. apply firstn_all2. unfold zlen in H. lia. Qed.

Lemma append_ok len done t b :
  (zlen done + zlen b <= len)%Z ->
  append {| p_len := len; p_bytes := done; p_term := t |} (zlen done) b =
  Ok {| p_len := len; p_bytes := done ++ b; p_term := t |}.
Proof.
  intros H. unfold append. cbn [p_len p_bytes p_term].
  destruct (Z.ltb_spec (len + 1) (zlen done + zlen b)); [lia|].
  rewrite firstn_zlen by (rewrite zlen_app; lia). rewrite nth_overflow; [reflexivity|].
  rewrite app_length. unfold zlen in *. lia.
Qed.

Lemma read_rest_complete rs tail done data :
  done ++ concat rs = data -> (forall b, In b rs -> b <> []) ->
  read_rest (zlen data) (Some {| p_len := zlen data; p_bytes := done; p_term := NUL |})
    (zlen done) (map RMsg rs ++ tail)
  = Ok (Some (complete_payload data), tail).
Proof.
  revert done; induction rs as [|b rs IH]; intros done E Hne; cbn [concat] in E.
  - rewrite app_nil_r in E. subst. cbn [map app].
    assert (K : (zlen data <? zlen data)%Z = false) by (apply Z.ltb_irrefl).
    destruct tail; cbn [read_rest]; rewrite K; reflexivity.
  - cbn [map app read_rest].
    pose proof (zlen_pos b (Hne b (or_introl eq_refl))) as Hb.
    assert (Hd : (zlen done + zlen b <= zlen data)%Z).
    { rewrite <- E, !zlen_app. pose proof (zlen_nonneg (concat rs)). lia. }
    destruct (Z.ltb_spec (zlen done) (zlen data)) as [_|]; [|lia].
    rewrite append_ok by exact Hd.
    cbn [bind]. rewrite <- zlen_app. apply IH.
    + now rewrite <- app_assoc.
    + intros c Hc. apply Hne. now right.
Qed.

Lemma first_record_shape line first more data :
  ~ In LF line -> In LF first -> first ++ concat more = line ++ LF :: data ->
  exists d, first = line ++ LF :: d /\ d ++ concat more = data.
Proof.
  intros Hl Hin E.
  apply in_split in Hin as (a & b & ->).
  (* take the first newline of [first] *)
  revert line Hl E. induction a as [|x a IH]; intros line Hl E.
  - destruct line as [|y line].
    + cbn in E. injection E as E. exists b. cbn. split; [reflexivity|exact E].
    + cbn in E. injection E as Ey _. exfalso. apply Hl. left. congruence.
  - destruct line as [|y line]; cbn in E; injection E as Ex E.
    + subst x. exists (a ++ LF :: b). cbn. split; [reflexivity|exact E].
    + subst y. destruct (IH line) as (d & Hd & Hm).
      * intros Hin. apply Hl. now right.
      * exact E.
      * exists d. cbn. split; [congruence|exact Hm].
Qed.

Lemma cstr_app_no_nul a b : ~ In NUL a -> cstr (a ++ b) = a ++ cstr b.
Proof.
  induction a as [|x a IH]; cbn; intros H; [reflexivity|].
  destruct (Ascii.eqb_spec x NUL) as [->|]; [tauto|]. rewrite IH; tauto.
Qed.

Lemma cstr_lf r : cstr (LF :: r) = LF :: cstr r.
Proof. reflexivity. Qed.

Lemma token_copy line d :
  ~ In NUL line ->
  exists rest, cstr (firstn (length (line ++ LF :: d) - 1) (line ++ LF :: d)) = line ++ rest /\
               (rest = [] \/ exists r, rest = LF :: r).
Proof.
  intros Hn. rewrite app_length. cbn [length].
  replace (length line + S (length d) - 1) with (length line + length d) by lia.
  rewrite firstn_app_2. rewrite cstr_app_no_nul by exact Hn.
  exists (cstr (firstn (length d) (LF :: d))). split; [reflexivity|].
  destruct d as [|x d]; [now left|]. right. cbn [length firstn]. rewrite cstr_lf. eauto.
Qed.

Lemma read_command_sent al al' c data m first more tail :
  Sent al c data m -> CutIntoRecords m first more -> al' (zlen data + 1)%Z = true ->
  read_command al' (map RMsg (first :: more) ++ tail) =
  Ok (ReadOk c (if has_payload (c_id c) then Some (complete_payload data) else None) None, tail).
Proof.
  intros HS (Em & Hne & Hsize & Hlf) Ha.
  apply sent_shape in HS as (Hs & Ed & Hp1 & Hp2).
  destruct (join_chars (header_words c) (header_words_good c)) as [J1 J2].
  rewrite Em in Ed. destruct (first_record_shape _ _ _ _ J1 Hlf Ed) as (d & -> & Hd).
  cbn [map app]. unfold read_command.
  destruct (Z.ltb_spec SSL_RECORD_SIZE (zlen (join (header_words c) ++ LF :: d))); [lia|].
  destruct (token_copy (join (header_words c)) d J2) as (rest & -> & Hr).
  destruct (parse_header ERROR_SIZE c rest Hs Hr) as [msg ->].
  destruct (has_payload (c_id c)) eqn:P.
  - rewrite (Hp1 eq_refl).
    rewrite (extract_header al' (zlen data) _ (join (header_words c)) d);
      [| |exact Ha|].
    + cbn [bind].
      assert (Hdl : (zlen d <= zlen data)%Z).
      { rewrite <- Hd, zlen_app. pose proof (zlen_nonneg (concat more)). lia. }
      rewrite firstn_zlen by exact Hdl.
      rewrite (read_rest_complete more tail d data Hd); [reflexivity|].
      intros b Hb. apply Hne. now right.
    + repeat split; auto.
    + rewrite <- Hd, zlen_app. pose proof (zlen_nonneg (concat more)). lia.
  - destruct (Hp2 eq_refl) as [-> ->].
    assert (more = []).
    { apply app_eq_nil in Hd as [_ Hd]. destruct more as [|b more]; [reflexivity|].
      exfalso. cbn in Hd. apply app_eq_nil in Hd as [Hd _]. apply (Hne b); [right; now left|exact Hd]. }
    subst more. cbn [map app]. destruct tail; reflexivity.
Qed.

(** ** what makes the tool's reader safe *)

Lemma read_rest_safe_iff need p total rs :
  p_len p = need -> zlen (p_bytes p) = Z.min total need -> (0 <= total)%Z ->
  (forall r, read_rest need (Some p) total rs <> UB r) <-> Feeds need total rs.
Proof.
  intros Hlen Hb H0. split.
  - revert p total Hlen Hb H0. induction rs as [|x rs IH]; intros p total Hlen Hb H0 H.
    + apply Feeds_silent.
    + cbn [read_rest] in H. destruct (Z.ltb_spec total need) as [Ht|Ht]; [|now apply Feeds_enough].
      destruct x as [b|t]; [|exfalso; now apply (H NegativeSize)].
      unfold append in H. rewrite Hlen in H.
      destruct (Z.ltb_spec (need + 1) (total + zlen b)) as [Ho|Ho];
        [exfalso; now apply (H OobWrite)|].
      cbn [bind] in H. apply Feeds_more; [exact Ht|exact Ho|].
      eapply IH; [| | |exact H]; cbn [p_len p_bytes]; auto.
      * unfold zlen in *. rewrite firstn_length, app_length. lia.
      * pose proof (zlen_nonneg b). lia.
  - intros F. revert p Hlen Hb H0. induction F as [total rs Ht|total|total b rs Ht Ho F IH];
      intros p Hlen Hb H0 r.
    + destruct rs; cbn [read_rest]; destruct (Z.ltb_spec total need); try lia; discriminate.
    + cbn [read_rest]. destruct (total <? need)%Z; discriminate.
    + cbn [read_rest]. destruct (Z.ltb_spec total need); [|lia].
      unfold append. rewrite Hlen. destruct (Z.ltb_spec (need + 1) (total + zlen b)); [lia|].
      cbn [bind]. apply IH; cbn [p_len p_bytes]; auto.
      * unfold zlen in *. rewrite firstn_length, app_length. lia.
      * pose proof (zlen_nonneg b). lia.
Qed.

Lemma no_payload_length s c :
  ValidLine s c -> has_payload (c_id c) = false -> c_length c = 0%Z.
Proof.
  destruct 1 as [w id W F|w f id n W F I|w f id n W F I Hn|w f g id m n W F I1 I2 Hn];
    cbn [c_id c_length]; try reflexivity;
    destruct F as (x & _ & F); cbn in F;
    repeat (destruct F as [F|F]; [injection F as _ <-; discriminate|]); destruct F.
Qed.

Lemma bind_not_ub {A C} (o : outcome A) (f : A -> outcome C) :
  (forall r, bind o f <> UB r) <->
  (forall r, o <> UB r) /\ (forall a, o = Ok a -> forall r, f a <> UB r).
Proof.
  destruct o as [a|u|]; cbn.
  - split; [|intros [_ H]; now apply H]. intros H. split; [discriminate|]. now intros a' [= <-].
  - split; [intros H; exfalso; now apply (H u)|]. intros [H _]. exfalso; now apply (H u).
  - split; [|discriminate]. intros _. split; discriminate.
Qed.

Lemma read_command_safe_iff al rs :
  (forall r, read_command al rs <> UB r) <-> SafeInput al rs.
Proof.
  unfold read_command, SafeInput. destruct rs as [|[b|t] rs]; [split; [tauto|discriminate]| |
    split; [tauto|discriminate]].
  destruct (Z.ltb_spec SSL_RECORD_SIZE (zlen b)) as [Hs|Hs]; [split; [tauto|discriminate]|].
  destruct (parse_command ERROR_SIZE (cstr (firstn (length b - 1) b))) as [[g c] m] eqn:E.
  assert (Hg : g = VALID_GRAMMAR \/ g <> VALID_GRAMMAR) by (destruct g; auto; right; discriminate).
  destruct Hg as [->|Hg].
  2:{ split.
      - intros _. right. intros c' V. exfalso.
        apply (parse_valid_iff ERROR_SIZE) in V as [m' V]. congruence.
      - intros _ r. destruct g; try congruence; discriminate. }
  assert (V : ValidLine (cstr (firstn (length b - 1) b)) c) by (eapply parse_valid_iff; eauto).
  assert (Hone : forall P : command -> Prop,
    (forall c', ValidLine (cstr (firstn (length b - 1) b)) c' -> has_payload (c_id c') = true -> P c')
    <-> (has_payload (c_id c) = true -> P c)).
  { intros P. split; [now auto|]. intros H c' V' P'. destruct (valid_det _ _ _ V V'). auto. }
  destruct (has_payload (c_id c)) eqn:Hp.
  2:{ split.
      - intros _. right. apply (proj2 (Hone _)). congruence.
      - intros _ r. rewrite (no_payload_length _ _ V Hp). destruct rs; discriminate. }
  set (len := c_length c) in *.
  pose proof (valid_length_range _ _ V) as Hlen. fold len in Hlen.
  assert (Hmain : (forall r, bind (extract_data al len b) (fun '(p, total) =>
       bind (read_rest len p total rs) (fun '(p', rest) =>
       Ok (ReadOk c p' match p with Some _ => None | None => Some (B "End Of File.") end, rest)))
       <> UB r) <-> PayloadSafe al len b rs).
  { rewrite bind_not_ub. split.
    - intros [H1 H2].
      assert (Hok : exists r, extract_data al len b = Ok r).
      { destruct (extract_data al len b) eqn:X; [eauto| |].
        - exfalso. now apply (H1 r).
        - exfalso. unfold extract_data in X. destruct (strstr_nl b); try discriminate.
          destruct (al (len + 1)%Z); [destruct (_ <? _)%Z|]; discriminate. }
      apply extract_safe_iff in Hok as [Hn|(h & d & H & Hl)].
      + right. split; [now left|]. pose proof Hn as (h & t & Eb & A1 & A2).
        assert (X : extract_data al len b = Ok (None, 0%Z)).
        { unfold extract_data. rewrite Eb, strstr_nl_none by assumption. reflexivity. }
        specialize (H2 _ X). cbn beta iota in H2. rewrite bind_not_ub in H2. destruct H2 as [H2 _].
        destruct rs as [|x rs]; [now right|]. left. cbn [read_rest] in H2.
        destruct (Z.ltb_spec 0 len); [|lia]. exfalso.
        destruct x; [now apply (H2 NullDeref)|now apply (H2 NegativeSize)].
      + destruct (al (len + 1)%Z) eqn:Ha.
        * left. exists h, d. specialize (Hl eq_refl). repeat split; auto; try apply H.
          pose proof (extract_header al len b h d H Ha Hl) as X.
          specialize (H2 _ X). cbn beta iota in H2. rewrite bind_not_ub in H2.
          destruct H2 as [H2 _]. apply read_rest_safe_iff in H2; auto.
          -- cbn [p_bytes]. unfold zlen. rewrite firstn_length. lia.
          -- apply zlen_nonneg.
        * right. split; [right; exists h, d; tauto|].
          assert (X : extract_data al len b = Ok (None, 0%Z)).
          { unfold extract_data. destruct H as (Eb & A1 & A2). rewrite Eb, strstr_nl_at, Ha by assumption.
            reflexivity. }
          specialize (H2 _ X). cbn beta iota in H2. rewrite bind_not_ub in H2. destruct H2 as [H2 _].
          destruct rs as [|x rs]; [now right|]. left. cbn [read_rest] in H2.
          destruct (Z.ltb_spec 0 len); [|lia]. exfalso.
          destruct x; [now apply (H2 NullDeref)|now apply (H2 NegativeSize)].
    - intros [(h & d & H & Ha & Hl & F)|[HN Hr]].
      + pose proof (extract_header al len b h d H Ha Hl) as X. rewrite X.
        split; [discriminate|]. intros a [= <-]. cbn beta iota. rewrite bind_not_ub.
        split; [|intros [p' r'] _; discriminate].
        apply read_rest_safe_iff; auto.
        * cbn [p_bytes]. unfold zlen. rewrite firstn_length. lia.
        * apply zlen_nonneg.
      + assert (X : extract_data al len b = Ok (None, 0%Z)).
        { destruct HN as [(h & t & Eb & A1 & A2)|(h & d & (Eb & A1 & A2) & Ha)]; unfold extract_data.
          - rewrite Eb, strstr_nl_none by assumption. reflexivity.
          - rewrite Eb, strstr_nl_at, Ha by assumption. reflexivity. }
        rewrite X. split; [discriminate|]. intros a [= <-]. cbn beta iota. rewrite bind_not_ub.
        split; [|intros [p' r'] _; discriminate]. intros r.
        destruct Hr as [->| ->].
        * destruct rs; discriminate.
        * cbn [read_rest]. destruct (0 <? len)%Z; discriminate. }
  rewrite Hmain. split.
  - intros H. right. apply (proj2 (Hone _)). intros _. exact H.
  - intros [H|H]; [lia|]. exact (proj1 (Hone _) H eq_refl).
Qed.

(** ** the tool's payloads are complete *)

Lemma firstn_firstn_app {A} n (a b : list A) : firstn n (firstn n a ++ b) = firstn n (a ++ b).
Proof.
  revert a; induction n as [|n IH]; intros [|x a]; cbn; try reflexivity. now rewrite IH.
Qed.

Lemma read_rest_result need p total rs p' rest :
  p_len p = need -> zlen (p_bytes p) = Z.min total need -> (0 <= total)%Z ->
  read_rest need (Some p) total rs = Ok (p', rest) ->
  exists q used, p' = Some q /\ rs = used ++ rest /\ p_len q = need /\ zlen (p_bytes q) = Z.max 0 need /\
    p_bytes q = firstn (Z.to_nat need) (p_bytes p ++ read_bytes used).
Proof.
  revert p total. induction rs as [|x rs IH]; intros p total Hlen Hb H0 H; cbn [read_rest] in H.
  - destruct (Z.ltb_spec total need); [discriminate|]. injection H as <- <-.
    exists p, []. unfold read_bytes. cbn [map concat app]. rewrite app_nil_r.
    pose proof (zlen_nonneg (p_bytes p)).
    repeat split; auto; [lia|]. symmetry. apply firstn_all2. unfold zlen in *. lia.
  - destruct (Z.ltb_spec total need).
    2:{ injection H as <- <-. exists p, []. unfold read_bytes. cbn [map concat app].
        rewrite app_nil_r. pose proof (zlen_nonneg (p_bytes p)).
        repeat split; auto; [lia|]. symmetry. apply firstn_all2. unfold zlen in *. lia. }
    destruct x as [b|t]; [|discriminate]. unfold append in H. rewrite Hlen in H.
    destruct (Z.ltb_spec (need + 1) (total + zlen b)); [discriminate|]. cbn [bind] in H.
    apply IH in H; cbn [p_len p_bytes] in *; auto.
    + destruct H as (q & used & -> & -> & Hq1 & Hq2 & Hq3). exists q, (RMsg b :: used).
      repeat split; auto. rewrite Hq3. unfold read_bytes. cbn [map concat].
      rewrite app_assoc. apply firstn_firstn_app.
    + unfold zlen in *. rewrite firstn_length, app_length. lia.
    + pose proof (zlen_nonneg b). lia.
Qed.

Lemma read_command_payload al b rs c p err rest :
  read_command al (RMsg b :: rs) = Ok (ReadOk c (Some p) err, rest) ->
  exists h d used, HeaderThen b h d /\ rs = used ++ rest /\ p_len p = c_length c /\
    zlen (p_bytes p) = c_length c /\
    p_bytes p = firstn (Z.to_nat (c_length c)) (d ++ read_bytes used).
Proof.
  unfold read_command. destruct (SSL_RECORD_SIZE <? zlen b)%Z; [discriminate|].
  destruct (parse_command ERROR_SIZE (cstr (firstn (length b - 1) b))) as [[g c'] m] eqn:E.
  destruct g; try discriminate.
  assert (V : ValidLine (cstr (firstn (length b - 1) b)) c') by (eapply parse_valid_iff; eauto).
  destruct (has_payload (c_id c')) eqn:Hp.
  2:{ rewrite (no_payload_length _ _ V Hp). intros H. destruct rs; discriminate. }
  unfold extract_data. pose proof (strstr_nl_cases b) as K.
  destruct (strstr_nl b) as [i| |]; [| |discriminate].
  2:{ cbn [bind]. intros H. exfalso. destruct rs as [|x rs]; cbn [read_rest] in H;
        destruct (0 <? c_length c')%Z; cbn in H; try discriminate; destruct x; discriminate. }
  destruct K as (h & d & H & <-). pose proof H as (Eb & A1 & A2). subst b. rewrite skipn_header.
  destruct (al (c_length c' + 1)%Z).
  2:{ cbn [bind]. intros X. exfalso. destruct rs as [|x rs]; cbn [read_rest] in X;
        destruct (0 <? c_length c')%Z; cbn in X; try discriminate; destruct x; discriminate. }
  destruct (Z.ltb_spec (c_length c' + 1) (zlen d)); [discriminate|]. cbn [bind].
  destruct (read_rest _ _ _ rs) as [[p' rest']| |] eqn:R; cbn [bind]; try discriminate.
  intros [= -> -> _ ->].
  pose proof (valid_length_range _ _ V) as Hlen.
  apply read_rest_result in R; cbn [p_len p_bytes] in *; auto.
  - destruct R as (q & used & [= <-] & -> & Hq1 & Hq2 & Hq3).
    exists h, d, used. repeat split; auto; [lia|]. rewrite Hq3.
    apply firstn_firstn_app.
  - unfold zlen. rewrite firstn_length. lia.
  - apply zlen_nonneg.
Qed.

Lemma sent_safe al al' c data m first more :
  Sent al c data m -> CutIntoRecords m first more -> al' (zlen data + 1)%Z = true ->
  SafeInput al' (map RMsg (first :: more)).
Proof.
  intros S K A. apply read_command_safe_iff. intros r.
  pose proof (read_command_sent al al' c data m first more [] S K A) as E.
  rewrite app_nil_r in E. rewrite E. discriminate.
Qed.
