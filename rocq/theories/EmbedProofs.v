(** Proofs about generated headers. *)
From Verif Require Import Base BaseProofs WireModel ParseModel ParseProofs DecProofs EmbedModel EmbedSpec.

Arguments line : simpl never.

(** ** Reading *)

Lemma eat_app p s : eat p (p ++ s) = Some s.
Proof. induction p as [|c p IH]; cbn; [reflexivity|]. now rewrite Ascii.eqb_refl. Qed.

Lemma eat_eq p s r : s = p ++ r -> eat p s = Some r.
Proof. intros ->. apply eat_app. Qed.

Lemma eat_some p s r : eat p s = Some r -> s = p ++ r.
Proof.
  revert s. induction p as [|a p IH]; intros s H.
  - cbn in H. now injection H as ->.
  - destruct s as [|b s]; cbn in H; [discriminate|]. destruct (Ascii.eqb_spec a b) as [->|]; [|discriminate].
    cbn. f_equal. now apply IH.
Qed.

Lemma eat_none_hd a p b s : Ascii.eqb a b = false -> eat (a :: p) (b :: s) = None.
Proof. intros H. cbn. now rewrite H. Qed.

Lemma digit_ten c : is_digit c = true -> digit_of 10 c = Some (digit_val c).
Proof.
  intros H.
  pose proof (ascii_cases (fun c => implb (is_digit c) match digit_of 10 c with Some v => (v =? digit_val c)%Z | None => false end)
     ltac:(vm_compute; reflexivity) c) as K.
  cbv beta in K. rewrite H in K. cbn [implb] in K. destruct (digit_of 10 c) as [v|]; [|discriminate].
  apply Z.eqb_eq in K. now subst.
Qed.

Definition stops (base : Z) (s : bytes) : Prop := match s with [] => True | c :: _ => digit_of base c = None end.

Lemma more_digits_stop base acc s : stops base s -> more_digits base acc s = (acc, s).
Proof. destruct s as [|c s]; cbn; [reflexivity|]. now intros ->. Qed.

Lemma more_digits_ten ds : forallb is_digit ds = true -> forall acc rest, stops 10 rest ->
  more_digits 10 acc (ds ++ rest) = (fold_left (fun a c => a * 10 + digit_val c)%Z ds acc, rest).
Proof.
  induction ds as [|c ds IH]; intros H acc rest Hr; [now apply more_digits_stop|].
  cbn [forallb] in H. apply andb_true_iff in H as [Hc H]. cbn [more_digits app fold_left]. rewrite (digit_ten c Hc).
  now apply IH.
Qed.

Lemma number_print n rest : (0 <= n)%Z -> stops 10 rest -> number 10 (print_dec n ++ rest) = Some (n, rest).
Proof.
  intros Hn Hr. rewrite print_dec_eq. destruct (Z.ltb_spec n 0) as [K|_]; [lia|].
  destruct (udigits_spec n Hn) as (H1 & H2 & H3). destruct (udigits n) as [|c ds] eqn:E; [now elim H3|].
  unfold number. cbn [app]. pose proof H2 as H2'. cbn [forallb] in H2'. apply andb_true_iff in H2' as [Hc _].
  rewrite (digit_ten c Hc). change (c :: ds ++ rest) with ((c :: ds) ++ rest). rewrite (more_digits_ten _ H2 0 rest Hr).
  do 2 f_equal. exact H1.
Qed.

Lemma hex_cases c : (exists a, print_hex c = [a] /\ digit_of 16 a = Some (Z.of_nat (nat_of_ascii c))) \/
  (exists a b x y, print_hex c = [a; b] /\ digit_of 16 a = Some x /\ digit_of 16 b = Some y /\ (x * 16 + y = Z.of_nat (nat_of_ascii c))%Z).
Proof.
  pose proof (ascii_cases (fun c => match print_hex c with
     | [a] => match digit_of 16 a with Some v => (v =? Z.of_nat (nat_of_ascii c))%Z | None => false end
     | [a; b] => match digit_of 16 a, digit_of 16 b with Some x, Some y => (x * 16 + y =? Z.of_nat (nat_of_ascii c))%Z | _, _ => false end
     | _ => false end) ltac:(vm_compute; reflexivity) c) as K. cbv beta in K.
  destruct (print_hex c) as [|a [|b [|]]]; try discriminate.
  - left. exists a. destruct (digit_of 16 a) as [v|]; [|discriminate]. apply Z.eqb_eq in K. now subst.
  - right. exists a, b. destruct (digit_of 16 a) as [x|]; [|discriminate]. destruct (digit_of 16 b) as [y|]; [|discriminate].
    exists x, y. apply Z.eqb_eq in K. tauto.
Qed.

Lemma number_hex c rest : stops 16 rest -> number 16 (print_hex c ++ rest) = Some (Z.of_nat (nat_of_ascii c), rest).
Proof.
  intros Hr. destruct (hex_cases c) as [(a & -> & Ha)|(a & b & x & y & -> & Ha & Hb & E)].
  - cbn [app number more_digits]. rewrite Ha. now rewrite more_digits_stop.
  - cbn [app number more_digits]. rewrite Ha, Hb, more_digits_stop by exact Hr. cbn. now rewrite <- E.
Qed.

Lemma nat_ch c : ch (nat_of_ascii c) = c.
Proof. apply ascii_nat_embedding. Qed.

Lemma byte_small c : nat_of_ascii c < 256.
Proof. apply nat_ascii_bounded. Qed.

Lemma character_hex c rest : character (B "'\x" ++ print_hex c ++ B "'" ++ rest) = Some (c, rest).
Proof.
  unfold character. change (eat (B "'\0'") (B "'\x" ++ print_hex c ++ B "'" ++ rest)) with (@None bytes). cbv iota.
  rewrite eat_app, number_hex by reflexivity. rewrite eat_app.
  pose proof (byte_small c). destruct (Z.ltb_spec (Z.of_nat (nat_of_ascii c)) 256); [|lia].
  now rewrite Nat2Z.id, nat_ch.
Qed.

Lemma character_nul rest : character (B "'\0'" ++ rest) = Some (NUL, rest).
Proof. unfold character. now rewrite eat_app. Qed.

(** ** Assignments *)

Fixpoint numbered (i : nat) (data : bytes) : list (Z * byte) :=
  match data with [] => [] | c :: r => (Z.of_nat i, c) :: numbered (S i) r end.

Lemma assignments_one fuel name s i s2 s3 c s4 s5 :
  eat (name ++ B "[") s = Some s2 -> number 10 s2 = Some (i, s3) -> eat (B "] = ") s3 = Some s4 -> character s4 = Some (c, s5) ->
  assignments (S fuel) name s = match eat (B "; ") s5 with
                                | Some s6 => match assignments fuel name s6 with Some (l, s7) => Some ((i, c) :: l, s7) | None => None end
                                | None => None end.
Proof. intros H1 H2 H3 H4. cbn [assignments]. rewrite H1, H2, H3, H4. reflexivity. Qed.

Lemma assignments_end fuel name s : eat (name ++ B "[") s = None -> assignments fuel name s = Some ([], s).
Proof. intros H. destruct fuel; cbn [assignments]; now rewrite H. Qed.

Lemma assignments_body name data : forall i fuel l tail rest,
  assignments fuel name tail = Some (l, rest) ->
  assignments (length data + fuel) name (macro_body name i data ++ tail) = Some (numbered i data ++ l, rest).
Proof.
  induction data as [|c data IH]; intros i fuel l tail rest H; [exact H|].
  cbn [length plus macro_body numbered app]. rewrite <- !app_assoc.
  erewrite (assignments_one _ name).
  2:{ apply eat_eq. rewrite <- app_assoc. reflexivity. }
  2:{ apply number_print; [lia|]. reflexivity. }
  2:{ apply eat_eq. change (B "] = '\x") with (B "] = " ++ B "'\x"). rewrite <- app_assoc. reflexivity. }
  2:{ change (B "'; ") with (B "'" ++ B "; "). rewrite <- app_assoc. apply character_hex. }
  rewrite eat_app. rewrite (IH (S i) fuel l tail rest H). reflexivity.
Qed.

Lemma assignments_more fuel name : forall s l rest k, assignments fuel name s = Some (l, rest) -> assignments (fuel + k) name s = Some (l, rest).
Proof.
  induction fuel as [|fuel IH]; intros s l rest k H.
  - cbn [assignments] in H. destruct (eat (name ++ B "[") s) eqn:E; [discriminate|]. rewrite assignments_end by exact E. exact H.
  - cbn [assignments plus] in *. destruct (eat (name ++ B "[") s) as [s1|]; [|exact H].
    destruct (number 10 s1) as [[i s2]|]; [|discriminate]. destruct (eat (B "] = ") s2) as [s3|]; [|discriminate].
    destruct (character s3) as [[c s4]|]; [|discriminate]. destruct (eat (B "; ") s4) as [s5|]; [|discriminate].
    destruct (assignments fuel name s5) as [[l' s6]|] eqn:E; [|discriminate]. now rewrite (IH _ _ _ k E).
Qed.

(** ** Removal of carriage returns *)

Lemma unix_app a b : unix (a ++ b) = unix a ++ unix b.
Proof. apply filter_app. Qed.

Lemma unix_le s : length (unix s) <= length s.
Proof. apply filter_length_le || (unfold unix; induction s as [|c s IH]; cbn; [lia|]; destruct (negb _); cbn; lia). Qed.

Lemma poke_length j c s : j < length s -> length (poke j c s) = length s.
Proof. intros H. unfold poke. rewrite app_length. cbn [length]. rewrite firstn_length, skipn_length. lia. Qed.

Lemma strip_loop d : forall rest done, d = done ++ rest ->
  strip_cr (length rest) (length done) (length (unix done)) (unix done ++ skipn (length (unix done)) d) =
  (unix d ++ skipn (length (unix d)) d, length (unix d)).
Proof.
  induction rest as [|c rest IH]; intros done E.
  - rewrite app_nil_r in E. subst. reflexivity.
  - cbn [strip_cr length].
    pose proof (unix_le done) as L.
    assert (N : nth (length done) (unix done ++ skipn (length (unix done)) d) NUL = c).
    { rewrite app_nth2 by lia. rewrite E, skipn_app. replace (length (unix done) - length done) with 0 by lia. cbn [skipn].
      rewrite app_nth2 by (rewrite skipn_length; lia). rewrite skipn_length. now replace (_ - _ - _) with 0 by lia. }
    rewrite N. specialize (IH (done ++ [c])). rewrite <- app_assoc in IH. specialize (IH E).
    rewrite app_length in IH. cbn [length] in IH. rewrite Nat.add_1_r in IH.
    rewrite unix_app in IH. unfold unix at 2 4 6 in IH. cbn [filter] in IH.
    destruct (Ascii.eqb c CR) eqn:Ec; cbn [negb] in IH.
    + rewrite app_nil_r in IH. exact IH.
    + rewrite app_length in IH. cbn [length] in IH. rewrite Nat.add_1_r in IH. rewrite <- IH. clear IH. f_equal.
      assert (Len : length (unix done) < length d) by (rewrite E, app_length; cbn [length]; lia).
      rewrite <- app_assoc. cbn [app].
      assert (P : poke (length (unix done)) c (unix done ++ skipn (length (unix done)) d) = unix done ++ c :: skipn (S (length (unix done))) d).
      { unfold poke. rewrite firstn_app, firstn_all, Nat.sub_diag, firstn_O, app_nil_r. do 2 f_equal.
        rewrite skipn_app. rewrite skipn_all2 by lia. cbn [app].
        replace (S (length (unix done)) - length (unix done)) with 1 by lia.
        destruct (skipn (length (unix done)) d) as [|x t] eqn:Et.
        - apply (f_equal (@length _)) in Et. rewrite skipn_length in Et. cbn in Et. lia.
        - cbn [skipn]. assert (K : skipn 1 (skipn (length (unix done)) d) = t) by now rewrite Et.
          rewrite <- K. clear. revert d. induction (length (unix done)) as [|k IH]; intros d; [reflexivity|].
          destruct d as [|y d]; [reflexivity|]. exact (IH d). }
      destruct (Nat.eqb_spec (length done) (length (unix done))) as [Q|Q]; [|exact P].
      rewrite <- P. unfold poke.
      rewrite firstn_app, firstn_all, Nat.sub_diag, firstn_O, app_nil_r. f_equal.
      assert (S1 : skipn (length (unix done)) d = c :: rest) by (rewrite E, <- Q, skipn_app, skipn_all, Nat.sub_diag; reflexivity).
      rewrite S1, skipn_app. rewrite skipn_all2 by lia. cbn [app]. now replace (S (length (unix done)) - length (unix done)) with 1 by lia.
Qed.

Lemma strip_all d : strip_cr (length d) 0 0 d = (unix d ++ skipn (length (unix d)) d, length (unix d)).
Proof. exact (strip_loop d d [] eq_refl). Qed.

(** What is written into the array. *)
Definition kept (d : bytes) : bytes :=
  let s := unix d ++ skipn (length (unix d)) d in
  if length (unix d) <? length d then poke (length (unix d)) NUL s else s.

Lemma kept_eq d : kept d = if length (unix d) <? length d then unix d ++ [NUL] ++ skipn (S (length (unix d))) d else d.
Proof.
  unfold kept. destruct (Nat.ltb_spec (length (unix d)) (length d)) as [L|L].
  - unfold poke. rewrite firstn_app, firstn_all, Nat.sub_diag, firstn_O, app_nil_r. f_equal. cbn [app]. f_equal.
    rewrite skipn_app. rewrite skipn_all2 by lia. cbn [app]. replace (S (length (unix d)) - length (unix d)) with 1 by lia.
    clear L. revert d. intros d. generalize (length (unix d)). intros k. revert d.
    induction k as [|k IH]; intros d; [reflexivity|]. destruct d as [|y d]; [reflexivity|]. exact (IH d).
  - rewrite skipn_all2 by exact L. rewrite app_nil_r. clear -L.
    induction d as [|c d IH]; [reflexivity|]. unfold unix in *. cbn [filter] in *.
    destruct (negb (Ascii.eqb c CR)); cbn [length] in *.
    + f_equal. apply IH. lia.
    + exfalso. pose proof (unix_le d) as U. unfold unix in U. lia.
Qed.

Lemma kept_length d : length (kept d) = length d.
Proof.
  rewrite kept_eq. destruct (Nat.ltb_spec (length (unix d)) (length d)) as [L|L]; [|reflexivity].
  rewrite !app_length, skipn_length. cbn. lia.
Qed.

(** The array. *)
Lemma kept_start d : exists rest, kept d ++ [NUL] = unix d ++ [NUL] ++ rest.
Proof.
  rewrite kept_eq. destruct (Nat.ltb_spec (length (unix d)) (length d)) as [L|L].
  - rewrite <- !app_assoc. eexists. reflexivity.
  - exists []. rewrite app_nil_r. f_equal. clear -L.
    induction d as [|c d IH]; [reflexivity|]. unfold unix in *. cbn [filter] in *.
    destruct (negb (Ascii.eqb c CR)); cbn [length] in *.
    + f_equal. apply IH. lia.
    + exfalso. pose proof (unix_le d) as U. unfold unix in U. lia.
Qed.

(** ** The header of one key *)

Definition meaning (d : bytes) : macros :=
  {| m_size := Z.of_nat (length d + 1); m_length := Z.of_nat (length (unix d));
     m_assignments := numbered 0 (kept d) ++ [(Z.of_nat (length d), NUL)] |}.

Lemma header_eq name d : header name d =
  (B "#define DECLARE_" ++ name ++ B "() unsigned char " ++ name ++ B "[") ++ print_dec (Z.of_nat (length d + 1)) ++
  (B "]" ++ line ++ B "#define " ++ name ++ B "_LEN (") ++ print_dec (Z.of_nat (length (unix d))) ++
  (B ")" ++ line ++ B "#define INITIALIZE_" ++ name ++ B "() do { ") ++
  macro_body name 0 (kept d) ++ ((name ++ B "[") ++ print_dec (Z.of_nat (length d)) ++ B "] = " ++ B "'\0'" ++ B "; " ++
  (B "} while (0)" ++ line ++ B "#define CLEAR_" ++ name ++ B "() memset(" ++ name ++ B ", 0, " ++ name ++ B "_LEN)" ++ line)).
Proof.
  unfold header. rewrite strip_all. cbv beta iota zeta. fold (kept d). rewrite <- !app_assoc.
  change (B "] = '\0'; } while (0)") with (B "] = " ++ B "'\0'" ++ B "; " ++ B "} while (0)"). rewrite <- !app_assoc. reflexivity.
Qed.

Lemma macro_body_length name d : forall i, length d <= length (macro_body name i d).
Proof.
  induction d as [|c d IH]; intros i; [cbn; lia|]. cbn [macro_body length]. rewrite !app_length. specialize (IH (S i)).
  change (length (B "[")) with 1. lia.
Qed.

Lemma identifier_not_brace name s : Identifier name -> eat (name ++ B "[") (B "} while (0)" ++ s) = None.
Proof.
  intros (H1 & H2 & _). destruct name as [|c n]; [now elim H1|]. cbn [app]. apply eat_none_hd.
  cbn [forallb] in H2. apply andb_true_iff in H2 as [H2 _]. destruct (Ascii.eqb_spec c "}"%char) as [->|]; [|reflexivity].
  vm_compute in H2. discriminate.
Qed.

Lemma header_reads name d : Identifier name -> read_header name (header name d) = Some (meaning d).
Proof.
  intros Hn. rewrite header_eq. unfold read_header. rewrite eat_app.
  rewrite number_print; [|lia|reflexivity]. rewrite eat_app. rewrite number_print; [|lia|reflexivity]. rewrite eat_app.
  set (tail := B "} while (0)" ++ line ++ _).
  set (fin := (name ++ B "[") ++ _).
  assert (F : assignments 1 name fin = Some ([(Z.of_nat (length d), NUL)], tail)).
  { erewrite assignments_one.
    2:{ apply eat_eq. unfold fin. reflexivity. }
    2:{ apply number_print; [lia|]. reflexivity. }
    2:{ apply eat_app. }
    2:{ apply character_nul. }
    rewrite eat_app. rewrite assignments_end; [reflexivity|]. unfold tail. now apply identifier_not_brace. }
  pose proof (assignments_body name (kept d) 0 1 _ fin tail F) as A.
  rewrite kept_length in A.
  assert (L : length d + 1 <= length (macro_body name 0 (kept d) ++ fin)).
  { rewrite app_length. pose proof (macro_body_length name (kept d) 0) as M. rewrite kept_length in M.
    assert (1 <= length fin) by (unfold fin; rewrite !app_length; change (length (B "[")) with 1; lia). lia. }
  replace (length (macro_body name 0 (kept d) ++ fin)) with (length d + 1 + (length (macro_body name 0 (kept d) ++ fin) - (length d + 1))) by lia.
  rewrite (assignments_more _ _ _ _ _ _ A). unfold tail.
  rewrite (eat_eq _ _ []) by (now rewrite app_nil_r). reflexivity.
Qed.

(** ** Initialization *)

Lemma assign_numbered data : forall pre mem l, length data <= length mem ->
  assign (numbered (length pre) data ++ l) (pre ++ mem) = assign l (pre ++ data ++ skipn (length data) mem).
Proof.
  induction data as [|c data IH]; intros pre mem l H; [reflexivity|].
  cbn [numbered app assign length] in *. destruct mem as [|x mem]; cbn [length] in H; [lia|].
  destruct (Z.leb_spec 0 (Z.of_nat (length pre))); [|lia].
  destruct (Z.ltb_spec (Z.of_nat (length pre)) (Z.of_nat (length (pre ++ x :: mem)))) as [_|K]; [|rewrite app_length in K; cbn [length] in K; lia].
  cbn [andb]. rewrite Nat2Z.id.
  rewrite firstn_app, firstn_all, Nat.sub_diag, firstn_O, app_nil_r.
  rewrite skipn_app. rewrite skipn_all2 by lia. replace (length pre + 1 - length pre) with 1 by lia. cbn [skipn app].
  replace (pre ++ c :: mem) with ((pre ++ [c]) ++ mem) by (rewrite <- app_assoc; reflexivity).
  replace (S (length pre)) with (length (pre ++ [c])) by (rewrite app_length; cbn; lia).
  rewrite IH by lia. rewrite <- app_assoc. reflexivity.
Qed.

Lemma header_initializes d mem : Declared (meaning d) mem -> initialize (meaning d) mem = Some (kept d ++ [NUL]).
Proof.
  unfold Declared, initialize. cbn [meaning m_size m_assignments]. intros H.
  assert (L : length mem = length d + 1) by lia. clear H.
  pose proof (assign_numbered (kept d) [] mem [(Z.of_nat (length d), NUL)]) as A. cbn [length app] in A.
  rewrite kept_length in A. rewrite A by lia. clear A.
  assert (S1 : exists x, skipn (length d) mem = [x]).
  { assert (K : length (skipn (length d) mem) = 1) by (rewrite skipn_length; lia).
    destruct (skipn (length d) mem) as [|x [|]]; cbn in K; try lia. now exists x. }
  destruct S1 as (x & ->). cbn [assign].
  destruct (Z.leb_spec 0 (Z.of_nat (length d))); [|lia].
  destruct (Z.ltb_spec (Z.of_nat (length d)) (Z.of_nat (length (kept d ++ [x])))) as [_|K]; [|rewrite app_length, kept_length in K; cbn [length] in K; lia].
  cbn [andb]. rewrite Nat2Z.id. rewrite <- (kept_length d) at 1 2.
  rewrite firstn_app, firstn_all, Nat.sub_diag, firstn_O, app_nil_r.
  rewrite skipn_all2 by (rewrite app_length; cbn; lia). now rewrite app_nil_r.
Qed.

(** ** Clearing *)

Lemma header_clears d : clear (meaning d) (kept d ++ [NUL]) =
  Some (repeat NUL (length (unix d)) ++ skipn (length (unix d)) (kept d ++ [NUL])).
Proof.
  unfold clear. cbn [meaning m_length]. destruct (Z.leb_spec (Z.of_nat (length (unix d))) (Z.of_nat (length (kept d ++ [NUL])))) as [_|K].
  - now rewrite Nat2Z.id.
  - rewrite app_length, kept_length in K. pose proof (unix_le d). lia.
Qed.

Lemma cleared_rest d : skipn (length (unix d)) (kept d ++ [NUL]) =
  if length (unix d) <? length d then NUL :: skipn (S (length (unix d))) d ++ [NUL] else [NUL].
Proof.
  rewrite kept_eq. destruct (Nat.ltb_spec (length (unix d)) (length d)) as [L|L].
  - rewrite <- app_assoc. rewrite skipn_app, skipn_all, Nat.sub_diag. reflexivity.
  - pose proof (unix_le d). rewrite skipn_app. rewrite skipn_all2 by lia.
    replace (length (unix d) - length d) with 0 by lia. reflexivity.
Qed.

(** ** Line ends *)

Lemma unix_id d : ~ In CR d -> unix d = d.
Proof.
  induction d as [|c d IH]; intros H; [reflexivity|]. unfold unix. cbn [filter].
  destruct (Ascii.eqb_spec c CR) as [->|]; [elim H; now left|]. cbn [negb]. f_equal. apply IH. intros K. apply H. now right.
Qed.

Lemma unix_dos d : unix (dos d) = unix d.
Proof.
  induction d as [|c d IH]; [reflexivity|]. unfold dos. cbn [flat_map]. fold (dos d). rewrite unix_app, IH.
  change (c :: d) with ([c] ++ d). rewrite (unix_app [c] d). f_equal.
  destruct (Ascii.eqb_spec c LF) as [->|]; reflexivity.
Qed.

Lemma unix_no_cr d : ~ In CR (unix d).
Proof. unfold unix. intros H. apply filter_In in H as [_ H]. rewrite Ascii.eqb_refl in H. discriminate. Qed.

Lemma unix_shorter d : In CR d -> length (unix d) < length d.
Proof.
  intros H. apply in_split in H as (a & b & ->). rewrite unix_app, !app_length. unfold unix at 2. cbn [filter]. rewrite Ascii.eqb_refl.
  cbn [negb length]. fold (unix b). pose proof (unix_le a). pose proof (unix_le b). lia.
Qed.
