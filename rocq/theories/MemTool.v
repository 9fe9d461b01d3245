(** Proofs about the use of memory by the tool side. *)
From Coq Require Import Permutation.
From Verif Require Import Base ParseModel ParseSpec WireModel SslModel ToolModel MemModel MemSpec MemProofs MemLve MemToolModel.

Lemma elist_le x : length (elist x) <= 2.
Proof. destruct x as [[a b]|]; cbn; lia. Qed.

Lemma read_rest_shorter need : forall rs p total p' rest, read_rest need p total rs = Ok (p', rest) -> length rest <= length rs.
Proof.
  induction rs as [|r rs IH]; intros p total p' rest H; cbn in H.
  - destruct (total <? need)%Z; [discriminate|]. injection H as <- <-. lia.
  - destruct (total <? need)%Z; [|injection H as <- <-; cbn; lia].
    destruct r as [b|t]; [|discriminate]. destruct p as [p|]; [|discriminate].
    destruct (append p total b) as [p1|u|]; try discriminate. cbn in H. apply IH in H. cbn. lia.
Qed.

Lemma mt_read_rest br need d : forall rs p total p' rest pre k, read_rest need p total rs = Ok (p', rest) ->
  (forall r, d = Some r -> In r pre) -> length pre + length rs < k ->
  mt k pre (m_read_rest br need d total rs) (fun _ o => exists J, o = J ++ pre /\ length J + length rest = length rs).
Proof.
  induction rs as [|r rs IH]; intros p total p' rest pre k H Hd K; cbn in H |- *; destruct (total <? need)%Z.
  - discriminate.
  - injection H as <- <-. apply (mt_ret _ _ _ _ pre); [cbn in K; lia|reflexivity|]. exists []. auto.
  - destruct r as [b|t]; [|discriminate]. destruct p as [p|]; [|discriminate].
    destruct (append p total b) as [p1|u|]; try discriminate. cbn in H, K.
    apply mt_do_malloc; [lia| |discriminate]. intros n _.
    apply mt_do_use; [intros x [= <-]; now left|cbn [length]; lia|].
    apply mt_do_use; [intros x Hx; right; auto|cbn [length]; lia|].
    eapply mt_conseq; [apply (IH _ _ _ _ (Block n :: pre) k H)|lia|].
    + intros x Hx. right. auto.
    + cbn [length]. lia.
    + intros _ o (J & -> & L). exists (J ++ Block n :: pre). split; [reflexivity|].
      exists (J ++ [Block n]). split; [rewrite <- app_assoc; reflexivity|]. rewrite app_length. cbn. lia.
  - injection H as <- <-. apply (mt_ret _ _ _ _ pre); [cbn in K; lia|reflexivity|]. exists []. auto.
Qed.

Definition good (r : read_res) : Prop := match r with ReadOk _ _ _ => True | ReadFail _ => False end.

Lemma read_command_shorter al rs r rest : read_command al rs = Ok (r, rest) -> length rest < length rs.
Proof.
  unfold read_command. destruct rs as [|[b|t] rs]; try discriminate.
  - destruct (SSL_RECORD_SIZE <? zlen b)%Z; [intros [= <- <-]; cbn; lia|].
    destruct (parse_command _ _) as [[g c] m]. destruct g; try (intros [= <- <-]; cbn; lia).
    destruct (has_payload (c_id c)).
    + destruct (extract_data al (c_length c) b) as [[p n]|u|]; try discriminate. cbn [bind].
      destruct (read_rest (c_length c) p n rs) as [[p' rest']|u|] eqn:R; try discriminate. cbn [bind].
      intros [= <- <-]. apply read_rest_shorter in R. cbn. lia.
    + destruct (read_rest (c_length c) None 0%Z rs) as [[p' rest']|u|] eqn:R; try discriminate. cbn [bind].
      intros [= <- <-]. apply read_rest_shorter in R. cbn. lia.
  - intros [= <- <-]. cbn. lia.
Qed.

Lemma mt_read_command al br rs r rest k : read_command al rs = Ok (r, rest) -> 6 + length rs <= k ->
  mt k [] (m_read_command al br rs) (fun '(d, x) o => exists J, o = olist d ++ elist x ++ J /\
     length (olist d ++ elist x) <= 2 /\
     1 <= length J <= 1 + (length rs - length rest) /\ (good r -> 2 <= length J)).
Proof.
  intros H K. unfold m_read_command. apply mt_do_malloc; [cbn; lia| |discriminate]. intros first _.
  unfold read_command in H. destruct rs as [|[b|t] rs]; try discriminate; cbn [length m_message] in *.
  - apply mt_do_malloc; [cbn; lia| |discriminate]. intros p _.
    assert (Fail : (ReadFail (match r with ReadFail m => m | _ => [] end) = r /\ rest = rs) ->
      mt k [Block p; Block first] (take x <- m_error_new; tret (None, Some x))
       (fun '(d, x) o => exists J, o = olist d ++ elist x ++ J /\
         length (olist d ++ elist x) <= 2 /\
         1 <= length J <= 1 + (S (length rs) - length rest) /\ (good r -> 2 <= length J))).
    { intros (E & ->). apply mt_do_error; [cbn; lia|]. intros n. eapply mt_ret; [cbn; lia|reflexivity|].
      exists [Block p; Block first]. split; [reflexivity|]. split; [cbn; lia|]. split; [cbn [length]; lia|].
      intros _. cbn. lia. }
    destruct (SSL_RECORD_SIZE <? zlen b)%Z.
    { injection H as <- <-. apply Fail. auto. }
    apply mt_do_malloc; [cbn; lia| |discriminate]. intros token _.
    apply mt_do_use; [intros y [= <-]; right; now left|cbn; lia|].
    apply mt_do_use; [intros y [= <-]; now left|cbn; lia|].
    destruct (parse_command ERROR_SIZE (cstr (firstn (length b - 1) b))) as [[g c] m].
    apply (mt_do_release _ _ _ [Block p; Block first]); [reflexivity|cbn; lia|].
    destruct g; try (injection H as <- <-; apply Fail; auto).
    destruct (has_payload (c_id c)).
    + destruct (extract_data al (c_length c) b) as [[data n]|u|] eqn:EX; try discriminate. cbn [bind] in H.
      destruct (read_rest (c_length c) data n rs) as [[p' rest']|u|] eqn:R; try discriminate. cbn [bind] in H.
      injection H as <- <-. pose proof (read_rest_shorter _ _ _ _ _ _ R) as LR.
      apply mt_do_use; [intros y [= <-]; now left|cbn; lia|].
      apply mt_do_malloc; [cbn; lia| |].
      * intros d _. apply mt_do_use; [intros y [= <-]; now left|cbn; lia|]. apply mt_skip.
        eapply mt_bind; [apply (mt_read_rest br _ (Some (Block d)) _ _ _ _ _ [Block d; Block p; Block first] k R)|].
        -- intros y [= <-]. now left.
        -- cbn. lia.
        -- intros [] o (J & -> & LJ).
           apply (mt_ret _ _ _ _ (Block d :: J ++ [Block p; Block first])); [rewrite app_length; cbn; lia|perm|].
           exists (J ++ [Block p; Block first]). split; [reflexivity|]. split; [cbn; lia|].
           rewrite app_length. cbn [length]. lia.
      * intros _. apply mt_do_use; [discriminate|cbn; lia|]. apply mt_assoc. apply mt_do_error; [cbn; lia|]. intros e.
        apply mt_skip.
        eapply mt_bind; [apply (mt_read_rest br _ None _ _ _ _ _ [Block e; Block (S e); Block p; Block first] k R)|].
        -- discriminate.
        -- cbn. lia.
        -- intros [] o (J & -> & LJ).
           apply (mt_ret _ _ _ _ (Block e :: Block (S e) :: J ++ [Block p; Block first])); [rewrite app_length; cbn; lia|perm|].
           exists (J ++ [Block p; Block first]). split; [reflexivity|]. split; [cbn; lia|].
           rewrite app_length. cbn [length]. lia.
    + destruct (read_rest (c_length c) None 0%Z rs) as [[p' rest']|u|] eqn:R; try discriminate. cbn [bind] in H.
      injection H as <- <-. pose proof (read_rest_shorter _ _ _ _ _ _ R) as LR.
      eapply mt_bind; [apply (mt_read_rest br _ None _ _ _ _ _ [Block p; Block first] k R)|].
      * discriminate.
      * cbn. lia.
      * intros [] o (J & -> & LJ).
        apply (mt_ret _ _ _ _ (J ++ [Block p; Block first])); [rewrite app_length; cbn; lia|reflexivity|].
        exists (J ++ [Block p; Block first]). split; [reflexivity|]. split; [cbn; lia|].
        rewrite app_length. cbn [length]. lia.
  - injection H as <- <-. apply mt_assoc. apply mt_do_malloc; [cbn; lia| |].
    + intros p _. apply mt_skip. apply mt_do_error; [cbn; lia|]. intros n. eapply mt_ret; [cbn; lia|reflexivity|].
      exists [Block p; Block first]. split; [reflexivity|]. split; [cbn; lia|]. split; [cbn [length]; lia|]. intros [].
    + intros _. apply mt_skip. apply mt_do_error; [cbn; lia|]. intros n. eapply mt_ret; [cbn; lia|reflexivity|].
      exists [Block first]. split; [reflexivity|]. split; [cbn; lia|]. split; [cbn [length]; lia|]. intros [].
Qed.

Definition exp_post (rs rest : list rd) (r : read_res) (ok : bool) (d : option res) (x : option err_ptr) (o : list res) : Prop :=
  exists J, o = olist d ++ elist x ++ J /\ 
    length J + length (olist d) <= 3 + (length rs - length rest) /\
    (ok = true -> length (olist d ++ elist x) <= 2 /\ length J <= 1 + (length rs - length rest)) /\
    1 <= length J /\ (good r -> 2 <= length J).

Lemma mt_expect al br many ids rs r rest k : read_command al rs = Ok (r, rest) -> 9 + length rs <= k ->
  mt k [] (m_expect al br many ids rs) (fun '(ok, d, x) o => exp_post rs rest r ok d x o).
Proof.
  intros H K. unfold m_expect. eapply mt_bind; [apply (mt_read_command al br rs r rest k H); lia|].
  intros [d x] o (J & -> & L2 & LJ & G). rewrite H. pose proof (read_command_shorter _ _ _ _ H) as LS.
  remember (length rs - length rest) as u eqn:EU. assert (U : u <= length rs) by lia.
  assert (Ld : length (olist d) <= 1) by apply olist_le. assert (Lx : length (elist x) <= 2) by apply elist_le.
  assert (LA : length (olist d ++ elist x ++ J) <= 3 + u) by (rewrite !app_length in *; lia).
  assert (Same : forall ok, mt k (olist d ++ elist x ++ J) (tret (ok, d, x)) (fun '(ok, d, x) o => exp_post rs rest r ok d x o)).
  { intros ok. eapply mt_ret; [lia|reflexivity|]. exists J. split; [reflexivity|]. rewrite <- EU. split; [rewrite !app_length in *; lia|].
    split; [intros _; split; [exact L2|lia]|]. split; [lia|exact G]. }
  destruct r as [m|c p err]; [apply Same|]. cbn [good] in G.
  assert (New : forall d1 n R, Permutation (olist d ++ elist x ++ J) (olist d1 ++ R) -> R = elist x ++ J \/ R = olist d ++ elist x ++ J /\ d1 = None ->
     exp_post rs rest (ReadOk c p err) false d1 (Some (Block n, Block (S n))) (olist d1 ++ [Block n; Block (S n)] ++ R)).
  { intros d1 n R HP HR. exists R. split; [reflexivity|]. rewrite <- EU.
    apply Permutation_length in HP. split. { destruct HR as [E|[E E']]; subst; [|cbn; lia]. rewrite !app_length in *. lia. }
    split; [discriminate|]. split; [|intros _]; (destruct HR as [-> |[-> ->]]; rewrite !app_length; specialize (G I); lia). }
  destruct (cmd_id_eqb (c_id c) C_ERROR).
  - apply mt_do_use; [intros y ->; now left|lia|]. unfold m_error_set. apply mt_assoc. apply mt_do_error; [lia|].
    intros n. apply mt_skip. apply (mt_do_release _ _ _ (Block n :: Block (S n) :: elist x ++ J)); [perm|cbn [length]; lia|].
    eapply mt_ret; [cbn [length]; rewrite app_length in LA; lia|reflexivity|].
    exists (elist x ++ J). split; [reflexivity|]. cbn [olist length]. rewrite <- EU. rewrite !app_length in *. specialize (G I).
    split; [lia|]. split; [discriminate|]. split; [lia|]. intros _. lia.
  - destruct (existsb (cmd_id_eqb (c_id c)) ids); [apply Same|].
    destruct many.
    + apply mt_do_malloc; [lia| |].
      * intros m _. apply mt_do_use; [intros y [= <-]; now left|cbn [length]; lia|].
        unfold m_error_set. apply mt_assoc. apply mt_do_error; [cbn [length]; lia|]. intros n. apply mt_skip.
        apply (mt_do_release _ _ _ (Block n :: Block (S n) :: olist d ++ elist x ++ J)); [perm|cbn [length]; lia|].
        eapply mt_ret; [cbn [length]; lia| |apply (New d n (elist x ++ J)); [reflexivity|auto]]. perm.
      * intros _. apply mt_do_use; [discriminate|lia|].
        unfold m_error_set. apply mt_assoc. apply mt_do_error; [cbn [length]; lia|]. intros n. apply mt_skip.
        apply (mt_do_release _ _ _ (Block n :: Block (S n) :: olist d ++ elist x ++ J)); [reflexivity|cbn [length]; lia|].
        eapply mt_ret; [cbn [length]; lia| |apply (New d n (elist x ++ J)); [reflexivity|auto]]. perm.
    + unfold m_error_set. apply mt_assoc. apply mt_do_error; [cbn [length]; lia|]. intros n. apply mt_skip.
      eapply mt_ret; [cbn [length]; lia| |apply (New d n (elist x ++ J)); [reflexivity|auto]]. perm.
Qed.

(** What is handed to the caller. *)
Definition hlist (h : handed) : list res :=
  match fst h with Some (f, b) => f :: olist b | None => [] end ++ elist (snd h).

Lemma hlist_le h : length (hlist h) <= 4.
Proof.
  destruct h as [[[f b]|] x]; unfold hlist; cbn [fst snd]; rewrite app_length; pose proof (elist_le x); cbn [length app];
    [pose proof (olist_le b)|]; lia.
Qed.

Definition await_post (rs rest : list rd) (r : read_res) (h : handed) (o : list res) : Prop :=
  exists J, o = hlist h ++ J /\ length J <= 3 + (length rs - length rest) /\ 1 <= length J /\ (good r -> 2 <= length J).

Lemma mt_after_expect {A} k rs rest r ok d x o (f : bool * option res * option err_ptr -> T A) post : 
  exp_post rs rest r ok d x o ->
  (forall J, o = olist d ++ elist x ++ J -> mt k o (f (ok, d, x)) post) -> mt k o (f (ok, d, x)) post.
Proof. intros (J & E & _) H. exact (H J E). Qed.

(** Ending a call with the error it has, or with a new one; the data is forgotten. *)
Lemma mt_end k rs rest r ok d x o : exp_post rs rest r ok d x o -> length rest < length rs -> 9 + length rs <= k ->
  mt k o (tret (None, x)) (await_post rs rest r).
Proof.
  intros (J & -> & L & _ & L1 & G) LR K. pose proof (elist_le x) as Lx.
  eapply mt_ret; [rewrite !app_length; lia| |].
  - transitivity (hlist (None, x) ++ olist d ++ J); [unfold hlist; cbn [fst snd]; perm|reflexivity].
  - exists (olist d ++ J). split; [reflexivity|]. rewrite app_length. split; [lia|]. split; [lia|]. intros H. specialize (G H). lia.
Qed.
Lemma mt_end_new k rs rest r d x o : exp_post rs rest r true d x o -> length rest < length rs -> 9 + length rs <= k ->
  mt k o (take x1 <- m_error_set x ; tret (None, x1)) (await_post rs rest r).
Proof.
  intros (J & -> & L & OK & L1 & G) LR K. destruct (OK eq_refl) as [L2 LJ]. pose proof (elist_le x) as Lx. clear OK.
  unfold m_error_set. apply mt_assoc. apply mt_do_error; [rewrite !app_length; lia|]. intros n. apply mt_skip.
  eapply mt_ret; [cbn [length]; rewrite !app_length; lia|reflexivity|].
  exists (olist d ++ elist x ++ J). split; [reflexivity|].
  rewrite !app_length in *. split; [lia|]. split; [lia|]. intros H. specialize (G H). lia.
Qed.

Lemma mt_answer al br ids rs r rest k : read_command al rs = Ok (r, rest) -> 9 + length rs <= k ->
  mt k [] (m_answer al br ids rs) (await_post rs rest r).
Proof.
  intros H K. pose proof (read_command_shorter _ _ _ _ H) as LS. unfold m_answer.
  eapply mt_bind; [apply (mt_expect al br true ids rs r rest k H K)|]. intros [[ok d] x] o E.
  destruct ok; [|apply (mt_end k _ _ _ _ _ _ _ E LS K)].
  destruct (cmd_id_eqb (got al rs) C_YES); [apply (mt_end k _ _ _ _ _ _ _ E LS K)|].
  destruct (cmd_id_eqb (got al rs) C_NOTSIMPLE); [apply (mt_end_new k _ _ _ _ _ _ E LS K)|].
  apply mt_do_use; [|destruct E as (J & -> & L & OK & _); destruct (OK eq_refl); rewrite !app_length in *; lia|].
  - intros y ->. destruct E as (J & -> & _). now left.
  - apply (mt_end_new k _ _ _ _ _ _ E LS K).
Qed.

(** A call that reads a reply. *)
Definition reads (w : Z) (c : call) : Prop := match c with Version _ _ => (w <? 0)%Z = false | _ => True end.

Lemma mt_await al br w c rs r rest k : read_command al rs = Ok (r, rest) -> reads w c -> 10 + length rs <= k ->
  mt k [] (m_await al br w c rs) (await_post rs rest r).
Proof.
  intros H RD K. pose proof (read_command_shorter _ _ _ _ H) as LS. assert (K' : 9 + length rs <= k) by lia.
  destruct c as [mi ma|s|s|s|s|s|s]; cbn [m_await reads] in *;
    try (apply (mt_answer al br _ rs r rest k H K')).
  1:{ rewrite RD. eapply mt_bind; [apply (mt_expect al br false _ rs r rest k H K')|]. intros [[ok d] x] o E.
      destruct ok; [|apply (mt_end k _ _ _ _ _ _ _ E LS K')]. rewrite H.
      destruct r as [m|c p err]; [apply (mt_end k _ _ _ _ _ _ _ E LS K')|].
      destruct ((c_number c <? mi)%Z || (ma <? c_number c)%Z);
        [apply (mt_end_new k _ _ _ _ _ _ E LS K')|apply (mt_end k _ _ _ _ _ _ _ E LS K')]. }
  1,2,3: eapply mt_bind; [apply (mt_expect al br false _ rs r rest k H K')|]; intros [[ok d] x] o E;
    apply (mt_end k _ _ _ _ _ _ _ E LS K').
  eapply mt_bind; [apply (mt_expect al br false _ rs r rest k H K')|]. intros [[ok d] x] o E.
  destruct ok; [|apply (mt_end k _ _ _ _ _ _ _ E LS K')].
  assert (LO : length o <= 3 + length rs).
  { destruct E as (J & -> & L & OK & _). destruct (OK eq_refl). rewrite !app_length in *. lia. }
  apply mt_do_malloc; [lia| |intros _; apply (mt_end_new k _ _ _ _ _ _ E LS K')].
  intros f _. apply mt_do_use; [intros y [= <-]; now left|cbn [length]; lia|].
  destruct E as (J & -> & L & OK & L1 & G). destruct (OK eq_refl) as [L2 LJ].
  eapply mt_ret; [cbn [length]; lia| |exists J; split; [reflexivity|]; split; [lia|]; split; [exact L1|exact G]].
  unfold hlist. cbn [fst snd app]. rewrite app_assoc. reflexivity.
Qed.

Lemma mt_caller {C} k all h R (f : unit -> T C) post : length (hlist h ++ R) <= k -> mt k R (f tt) post ->
  mt k (hlist h ++ R) (tbind (m_caller all h) f) post.
Proof.
  intros K H. unfold m_caller. apply mt_assoc. destruct h as [[[fp b]|] x]; unfold hlist in *; cbn [fst snd] in *.
  - cbn [app] in *. repeat rewrite <- app_assoc in *. rewrite app_assoc in K. cbn [length] in K.
    assert (KT : length (elist x ++ R) <= k).
    { rewrite <- app_assoc, !app_length in *. lia. }
    assert (Fin : mt k (elist x ++ R) (tbind (m_error_free x) f) post).
    { apply (mt_do_error_free _ _ x R); [reflexivity|exact KT|exact H]. }
    rewrite <- app_assoc in K.
    apply mt_assoc. apply mt_do_use; [intros y [= <-]; now left|cbn [length]; lia|].
    apply mt_assoc. apply mt_do_use; [intros y ->; right; now left|cbn [length]; lia|].
    assert (Free : forall b1, length (fp :: olist b1 ++ elist x ++ R) <= k ->
      mt k (fp :: olist b1 ++ elist x ++ R)
        (take _ <- (take _ <- touch (Some fp); take _ <- release b1; release (Some fp)); take x0 <- m_error_free x; f x0) post).
    { intros b1 K1. apply mt_assoc. apply mt_do_use; [intros y [= <-]; now left|exact K1|].
      apply mt_assoc. apply (mt_do_release _ _ _ (fp :: elist x ++ R)); [perm|exact K1|].
      apply (mt_do_release _ _ _ (elist x ++ R)); [reflexivity|cbn [length] in *; rewrite app_length in K1; lia|].
      exact Fin. }
    destruct all.
    + apply mt_assoc. apply mt_assoc. apply (mt_do_release _ _ _ (fp :: elist x ++ R)); [perm|cbn [length]; lia|].
      apply mt_skip. apply (Free None). cbn [length olist app]. rewrite app_length in K. lia.
    + apply mt_assoc. apply mt_skip. apply Free. cbn [length]. lia.
  - apply mt_skip. apply (mt_do_error_free _ _ x R); [reflexivity|exact K|exact H].
Qed.

Lemma mt_do_request {C} k pre al c (f : unit -> T C) post : length pre < k -> mt k pre (f tt) post ->
  mt k pre (tbind (m_request al c) f) post.
Proof. intros K H. destruct c; cbn [m_request]; [apply mt_skip, H|..]; apply mt_do_send; auto. Qed.

(** ** from the result of a call to what it read *)

Lemma await_read al w c rs v x rest : await al w c rs = Ok (v, x, rest) -> reads w c ->
  exists r, read_command al rs = Ok (r, rest) /\ (v <> None -> good r).
Proof.
  intros H RD.
  assert (E1 : forall id o v1 x1 rest1, expect_command al id rs = o -> o = Ok (v1, x1, rest1) ->
     exists r, read_command al rs = Ok (r, rest1) /\ (v1 <> None -> good r)).
  { intros id o v1 x1 rest1 <- HE. unfold expect_command in HE.
    destruct (read_command al rs) as [[r rest0]|u|]; try discriminate. cbn [bind] in HE. exists r.
    destruct r as [m|c0 p err]; [injection HE as <- <- <-; split; [reflexivity|intros N; now elim N]|].
    split; [|intros _; exact I]. f_equal. f_equal.
    destruct (cmd_id_eqb (c_id c0) C_ERROR).
    - destruct (data_text p); try discriminate. cbn in HE. congruence.
    - destruct (cmd_id_eqb (c_id c0) id); congruence. }
  assert (E2 : forall ids o v1 x1 rest1, expect_commands al ids rs = o -> o = Ok (v1, x1, rest1) ->
     exists r, read_command al rs = Ok (r, rest1) /\ (v1 <> None -> good r)).
  { intros ids o v1 x1 rest1 <- HE. unfold expect_commands in HE.
    destruct (read_command al rs) as [[r rest0]|u|]; try discriminate. cbn [bind] in HE. exists r.
    destruct r as [m|c0 p err]; [injection HE as <- <- <-; split; [reflexivity|intros N; now elim N]|].
    split; [|intros _; exact I]. f_equal. f_equal.
    destruct (cmd_id_eqb (c_id c0) C_ERROR).
    - destruct (data_text p); try discriminate. cbn in HE. congruence.
    - destruct (existsb (cmd_id_eqb (c_id c0)) ids); [congruence|].
      destruct (unexpected_msg al (c_id c0) ids); try discriminate. cbn in HE. congruence. }
  destruct c as [mi ma|s|s|s|s|s|s]; cbn [await reads] in *; unfold tool_version, tool_yes, tool_feature, tool_license, tool_file in H;
    [rewrite RD in H| | | | | |];
    match type of H with
    | bind (expect_command al ?id rs) _ = _ =>
        destruct (expect_command al id rs) as [[[v1 x1] rest1]|u|] eqn:EC; try discriminate;
        destruct (E1 _ _ _ _ _ EC eq_refl) as (r & R1 & R2)
    | bind (expect_commands al ?id rs) _ = _ =>
        destruct (expect_commands al id rs) as [[[v1 x1] rest1]|u|] eqn:EC; try discriminate;
        destruct (E2 _ _ _ _ _ EC eq_refl) as (r & R1 & R2)
    end; cbn [bind] in H; exists r;
    (destruct v1 as [[c0 p0]|]; [|injection H as <- <- <-; split; [exact R1|intros N; now elim N]]);
    (split; [|intros _; apply R2; discriminate]); rewrite R1; f_equal; f_equal;
    repeat match type of H with
    | (if ?b then _ else _) = _ => destruct b
    | bind (data_text ?p) _ = _ => destruct (data_text p); try discriminate; cbn [bind] in H
    end; congruence.
Qed.

(** ** sequences of calls *)

(** ** sequences of calls *)

Lemma reads_dec w c : reads w c \/ ~ reads w c.
Proof. destruct c; cbn; auto. destruct (w <? 0)%Z; auto. right. discriminate. Qed.

Lemma await_not al w c rs v x rest : await al w c rs = Ok (v, x, rest) -> ~ reads w c ->
  v = None /\ rest = rs /\ forall br, m_await al br w c rs = tret (None, None).
Proof.
  intros H N. destruct c; cbn in *; try (exfalso; apply N; exact I).
  unfold tool_version in H. destruct (w <? 0)%Z; [|exfalso; apply N; reflexivity].
  injection H as <- <- <-. auto.
Qed.

Lemma await_shorter al w c rs v x rest : await al w c rs = Ok (v, x, rest) -> length rest <= length rs.
Proof.
  intros H. destruct (reads_dec w c) as [R|R].
  - destruct (await_read _ _ _ _ _ _ _ H R) as (r & E & _). apply read_command_shorter in E. lia.
  - destruct (await_not _ _ _ _ _ _ _ H R) as (_ & -> & _). lia.
Qed.

Lemma mt_one {C} u rs v x rest R k (f : unit -> T C) post :
  await (u_al u) (u_written u) (u_call u) rs = Ok (v, x, rest) -> 10 + length rs + length R <= k ->
  (forall J, length J <= 3 + (length rs - length rest) -> (v <> None -> 2 <= length J) ->
     (reads (u_written u) (u_call u) -> 1 <= length J) -> mt k (J ++ R) (f tt) post) ->
  mt k R (take _ <- m_request (u_al u) (u_call u) ;
          take h <- m_await (u_al u) (u_broken u) (u_written u) (u_call u) rs ;
          take y <- m_caller (u_all u) h ; f y) post.
Proof.
  intros H K HJ. pose proof (await_shorter _ _ _ _ _ _ _ H) as LR.
  apply mt_do_request; [lia|]. destruct (reads_dec (u_written u) (u_call u)) as [RD|RD].
  - destruct (await_read _ _ _ _ _ _ _ H RD) as (r & RC & G).
    apply (mt_call _ (10 + length rs) _ [] R _ _ _ _ (mt_await _ (u_broken u) _ _ rs r rest (10 + length rs) RC RD (le_n _)));
      [reflexivity|lia|].
    intros h o (J & -> & L & L1 & G1). rewrite <- app_assoc. pose proof (hlist_le h) as LH.
    apply mt_caller; [rewrite !app_length; lia|]. apply HJ; [exact L|intros N; apply G1, G, N|intros _; exact L1].
  - destruct (await_not _ _ _ _ _ _ _ H RD) as (-> & -> & E). rewrite E. apply mt_skip.
    change R with (hlist (None, None) ++ R) at 1. apply mt_caller; [cbn; lia|].
    apply (HJ []); [cbn; lia|intros N; now elim N|intros X; contradiction].
Qed.

Definition succeeded (v : option value) : bool := match v with Some _ => true | None => false end.

Lemma mt_calls us : forall rs R k, 10 + 3 * length us + length rs + length R <= k ->
  mt k R (m_calls us rs) (fun _ o => exists J, o = J ++ R /\ length J <= 3 * length us + length rs /\
    forall vs rest, results us rs = Some (vs, rest) ->
      2 * length (filter succeeded vs) <= length J /\ length J + length rest <= 3 * length us + length rs).
Proof.
  induction us as [|u us IH]; intros rs R k K; cbn [m_calls results].
  - eapply mt_ret; [cbn in K; lia|reflexivity|]. exists []. split; [reflexivity|]. split; [cbn; lia|].
    intros vs rest [= <- <-]. cbn. lia.
  - destruct (await (u_al u) (u_written u) (u_call u) rs) as [[[v x] rest]|e|] eqn:A.
    + pose proof (await_shorter _ _ _ _ _ _ _ A) as LR. cbn [length] in K.
      eapply mt_one; [exact A|lia|]. intros J LJ GJ _.
      eapply mt_conseq; [apply (IH rest (J ++ R) k); rewrite app_length; lia|lia|].
      intros [] o (J2 & -> & L2 & H2). exists ((J2 ++ J) ++ R). split; [rewrite app_assoc; reflexivity|].
      exists (J2 ++ J). split; [reflexivity|]. rewrite app_length. cbn [length]. split; [lia|].
      intros vs r E. destruct (results us rest) as [[vs1 r1]|] eqn:RS; [|discriminate]. injection E as <- <-.
      destruct (H2 _ _ eq_refl) as [H3 H4]. split; [|lia].
      cbn [filter]. destruct v as [v|]; cbn [succeeded length].
      * specialize (GJ ltac:(discriminate)). lia.
      * lia.
    + eapply mt_ret; [lia|reflexivity|]. exists []. split; [reflexivity|]. split; [cbn [length]; lia|]. discriminate.
    + eapply mt_ret; [lia|reflexivity|]. exists []. split; [reflexivity|]. split; [cbn [length]; lia|]. discriminate.
Qed.

Lemma calls_facts us rs : Proper (calls_memory us rs) /\ AtMost (10 + 3 * length us + length rs) (calls_memory us rs) /\
  length (held (calls_memory us rs)) <= 3 * length us + length rs /\
  forall vs rest, results us rs = Some (vs, rest) ->
    2 * length (filter succeeded vs) <= length (held (calls_memory us rs)) /\
    length (held (calls_memory us rs)) + length rest <= 3 * length us + length rs.
Proof.
  pose proof (mt_trace _ _ _ (mt_calls us rs [] (10 + 3 * length us + length rs) ltac:(cbn [length]; lia))) as H.
  unfold calls_memory. destruct (m_calls us rs 0) as [[t a] n]. destruct H as (P & M & o & (J & -> & L & HR) & E).
  rewrite app_nil_r in E. apply Permutation_length in E. rewrite E.
  split; [exact P|]. split; [exact M|]. split; [exact L|exact HR].
Qed.

(** n calls that succeed. *)
Definition ask : use := {| u_al := fun _ => true; u_broken := false; u_written := 0; u_call := Feature (B "f"); u_all := true |}.
Lemma ask_yes rs : await (u_al ask) (u_written ask) (u_call ask) (RMsg (B "YES" ++ [LF]) :: rs) = Ok (Some One, None, rs).
Proof. destruct rs; vm_compute; reflexivity. Qed.
Lemma ask_n n : results (repeat ask n) (repeat (RMsg (B "YES" ++ [LF])) n) = Some (repeat (Some One) n, []).
Proof. induction n as [|n IH]; [reflexivity|]. cbn [repeat results]. rewrite ask_yes, IH. reflexivity. Qed.

Lemma results_length us : forall rs vs rest, results us rs = Some (vs, rest) -> length us = length vs.
Proof.
  induction us as [|u us IH]; intros rs vs rest H; cbn in H; [injection H as <- <-; reflexivity|].
  destruct (await (u_al u) (u_written u) (u_call u) rs) as [[[v x] r1]|e|]; try discriminate.
  destruct (results us r1) as [[vs1 r]|] eqn:E; [|discriminate]. injection H as <- <-. cbn. f_equal. eapply IH, E.
Qed.
Lemma all_succeeded vs : Forall (fun v => v <> None) vs -> length (filter succeeded vs) = length vs.
Proof.
  induction 1 as [|v vs H F IH]; [reflexivity|]. destruct v; [|now elim H]. cbn. f_equal. exact IH.
Qed.
