(** Proofs about the codes of errors and the size of files. *)
From Verif Require Import Base BaseProofs ParseModel ParseProofs WireModel WireSpec WireProofs LveProofs ToolModel ToolSpec ToolProofs CodesSpec.

Lemma feature_not_no k id : (forall n, k <> Feature n) -> (forall n, k <> License n) -> Code k id 1.
Proof. intros F L. apply Code_protocol; intros n E; [destruct (F n E)|destruct (L n E)]. Qed.

Lemma codes al rs rest c data written k : (forall n, al n = true) -> Incoming rs c data rest -> (0 <= written)%Z -> ~ Positive k c ->
  exists x, await al written k rs = Ok (None, Some x, rest) /\ err_domain x = tool_domain /\ Code k (c_id c) (err_code x).
Proof.
  intros Al I W NP.
  pose proof (expect_error al rs rest c data Al I) as EE. pose proof (expect_errors al rs rest c data Al I) as EEs.
  pose proof (expect_other al rs rest c data Al I) as EO. pose proof (expect_right al rs rest c data Al I) as ER.
  pose proof (expects_other al rs rest c data Al I) as EOs. pose proof (expects_right al rs rest c data Al I) as ERs.
  assert (One : forall id, c_id c <> id -> exists x, expect_command al id rs = Ok (None, Some x, rest) /\ err_domain x = tool_domain /\ err_code x = 1%Z).
  { intros id N. destruct (cmd_id_eqb (c_id c) C_ERROR) eqn:E.
    - apply cmd_id_eqb_spec in E. rewrite (EE id E). eexists. split; [reflexivity|]. split; reflexivity.
    - apply cmd_id_eqb_neq in E. rewrite (EO id E N). eexists. split; [reflexivity|]. split; reflexivity. }
  assert (Some_ : forall ids, ~ In (c_id c) ids -> exists x, expect_commands al ids rs = Ok (None, Some x, rest) /\ err_domain x = tool_domain /\ err_code x = 1%Z).
  { intros ids N. destruct (cmd_id_eqb (c_id c) C_ERROR) eqn:E.
    - apply cmd_id_eqb_spec in E. rewrite (EEs ids E). eexists. split; [reflexivity|]. split; reflexivity.
    - apply cmd_id_eqb_neq in E. rewrite (EOs ids E N). eexists. split; [reflexivity|]. split; reflexivity. }
  destruct k as [min max|p|p|p|p|p|p]; cbn [await Positive] in *.
  - unfold tool_version. rewrite (proj2 (Z.ltb_ge written 0)) by exact W. destruct (cmd_id_eqb (c_id c) C_VERSION) eqn:Y.
    + apply cmd_id_eqb_spec in Y. rewrite (ER C_VERSION); [|rewrite Y; discriminate|exact Y]. cbn [bind].
      destruct (Z.ltb_spec (c_number c) min); [|destruct (Z.ltb_spec max (c_number c))];
        [eexists; split; [reflexivity|split; [reflexivity|apply feature_not_no; discriminate]]..|].
      exfalso. apply NP. split; [exact Y|lia].
    + apply cmd_id_eqb_neq in Y. destruct (One _ Y) as (x & -> & Dx & Cx). exists x. cbn [bind]. rewrite Cx. split; [reflexivity|]. split; [exact Dx|]. apply feature_not_no; discriminate.
  - unfold tool_yes. destruct (One _ NP) as (x & -> & Dx & Cx). exists x. cbn [bind]. rewrite Cx. split; [reflexivity|]. split; [exact Dx|]. apply feature_not_no; discriminate.
  - unfold tool_feature. destruct (cmd_id_eqb (c_id c) C_NO) eqn:N.
    + apply cmd_id_eqb_spec in N. rewrite (ERs [C_YES; C_NO]); [|rewrite N; discriminate|rewrite N; cbn; auto]. cbn [bind]. rewrite N.
      change (has_payload C_NO) with true. cbn [cmd_id_eqb]. unfold data_text. rewrite payload_str_complete. cbn [bind].
      eexists. split; [reflexivity|]. split; [reflexivity|constructor].
    + apply cmd_id_eqb_neq in N. destruct (Some_ [C_YES; C_NO]) as (x & -> & Dx & Cx); [cbn; intuition congruence|]. exists x. cbn [bind]. rewrite Cx.
      split; [reflexivity|]. split; [exact Dx|]. apply Code_protocol; [intros n _; exact N|discriminate].
  - unfold tool_yes. destruct (One _ NP) as (x & -> & Dx & Cx). exists x. cbn [bind]. rewrite Cx. split; [reflexivity|]. split; [exact Dx|]. apply feature_not_no; discriminate.
  - unfold tool_license. destruct (cmd_id_eqb (c_id c) C_NO) eqn:N; [|destruct (cmd_id_eqb (c_id c) C_NOTSIMPLE) eqn:S].
    + apply cmd_id_eqb_spec in N. rewrite (ERs [C_YES; C_NOTSIMPLE; C_NO]); [|rewrite N; discriminate|rewrite N; cbn; auto]. cbn [bind]. rewrite N.
      change (has_payload C_NO) with true. cbn [cmd_id_eqb]. unfold data_text. rewrite payload_str_complete. cbn [bind].
      eexists. split; [reflexivity|]. split; [reflexivity|constructor].
    + apply cmd_id_eqb_spec in S. rewrite (ERs [C_YES; C_NOTSIMPLE; C_NO]); [|rewrite S; discriminate|rewrite S; cbn; auto]. cbn [bind]. rewrite S. cbn [cmd_id_eqb].
      eexists. split; [reflexivity|]. split; [reflexivity|constructor].
    + apply cmd_id_eqb_neq in N, S. destruct (Some_ [C_YES; C_NOTSIMPLE; C_NO]) as (x & -> & Dx & Cx); [cbn; intuition congruence|]. exists x. cbn [bind]. rewrite Cx.
      split; [reflexivity|]. split; [exact Dx|]. apply Code_protocol; [discriminate|intros n _; auto].
  - unfold tool_yes. destruct (One _ NP) as (x & -> & Dx & Cx). exists x. cbn [bind]. rewrite Cx. split; [reflexivity|]. split; [exact Dx|]. apply feature_not_no; discriminate.
  - unfold tool_file. destruct (One _ NP) as (x & -> & Dx & Cx). exists x. cbn [bind]. rewrite Cx. split; [reflexivity|]. split; [exact Dx|]. apply feature_not_no; discriminate.
Qed.

Lemma release_size h h' : release_buffer h = Ok h' -> fc_size h' = fc_size h /\ h_ptr h' = h_ptr h /\ h_live h' = h_live h.
Proof. unfold release_buffer. destruct (fc_cell h); [|discriminate]. intros [= <-]. auto. Qed.
Lemma read_size h n r h' : read_file_bytes h n = Ok (r, h') -> fc_size h' = fc_size h /\ h_ptr h' = h_ptr h /\ h_live h' = h_live h.
Proof.
  unfold read_file_bytes. destruct (negb (h_ptr h)); [discriminate|]. destruct (negb (h_live h)); [discriminate|].
  destruct (negb (fc_ptr h)); [intros [= _ <-]; cbn; auto|]. destruct (fc_size h <=? fc_off h)%Z.
  - destruct (release_buffer h) as [h1|u|] eqn:E; cbn [bind]; try discriminate. intros [= _ <-]. exact (release_size _ _ E).
  - cbv zeta. destruct (copy_out _ _ _) as [b|u|]; cbn [bind]; try discriminate. set (h1 := set_off h _).
    assert (S : fc_size h1 = fc_size h /\ h_ptr h1 = h_ptr h /\ h_live h1 = h_live h) by (cbn; auto). clearbody h1.
    destruct (fc_size h1 <=? fc_off h1)%Z.
    + destruct (release_buffer h1) as [h2|u|] eqn:E; cbn [bind]; try discriminate. intros [= _ <-].
      destruct (release_size _ _ E) as (-> & -> & ->). exact S.
    + cbn [bind]. intros [= _ <-]. exact S.
Qed.
Lemma read_all_size sizes : forall h rs h', read_all h sizes = Ok (rs, h') -> fc_size h' = fc_size h /\ h_ptr h' = h_ptr h /\ h_live h' = h_live h.
Proof.
  induction sizes as [|n sizes IH]; intros h rs h' H; cbn [read_all] in H; [injection H as <- <-; auto|].
  destruct (read_file_bytes h n) as [[r h1]|u|] eqn:E; cbn [bind] in H; try discriminate H.
  destruct (read_all h1 sizes) as [[rs1 h2]|u|] eqn:E2; cbn [bind] in H; try discriminate H. injection H as <- <-.
  destruct (read_size _ _ _ _ E) as (A1 & A2 & A3). destruct (IH _ _ _ E2) as (B1 & B2 & B3). rewrite B1, B2, B3. auto.
Qed.
Lemma size_stays data h sizes rs h' : Opened data h -> read_all h sizes = Ok (rs, h') -> get_file_size h' = Ok (zlen data).
Proof.
  intros (A & L & S & _) R. destruct (read_all_size _ _ _ _ R) as (B1 & B2 & B3). unfold get_file_size. rewrite B2, B3, A, L, B1, S. reflexivity.
Qed.

Lemma one_text id got : id = C_VERSION \/ id = C_YES \/ id = C_FILECONT ->
  snprintf 2048 (B "Unexpected command. Expected command " ++ cmd_name id ++ B ", but got command " ++ cmd_name got ++ B ".") =
  B "Unexpected command. Expected command " ++ cmd_name id ++ B ", but got command " ++ cmd_name got ++ B ".".
Proof. intros [-> | [-> | ->]]; destruct got; reflexivity. Qed.
Lemma name_differs got id : id = C_VERSION \/ id = C_YES \/ id = C_FILECONT \/ id = C_NO \/ id = C_NOTSIMPLE -> got <> id -> cmd_name got <> cmd_name id.
Proof. intros [-> | [-> | [-> | [-> | ->]]]] N H; destruct got; try (apply N; reflexivity); discriminate H. Qed.

Lemma texts al rs rest c data written k : (forall n, al n = true) -> Incoming rs c data rest -> (0 <= written)%Z -> ~ Positive k c ->
  exists x t, await al written k rs = Ok (None, Some x, rest) /\ err_text x = Some t /\ Text k c data t.
Proof.
  intros Al I W NP.
  pose proof (expect_error al rs rest c data Al I) as EE. pose proof (expect_errors al rs rest c data Al I) as EEs.
  pose proof (expect_other al rs rest c data Al I) as EO. pose proof (expect_right al rs rest c data Al I) as ER.
  pose proof (expects_other al rs rest c data Al I) as EOs. pose proof (expects_right al rs rest c data Al I) as ERs.
  assert (One : forall id, id = C_VERSION \/ id = C_YES \/ id = C_FILECONT -> awaited k = [cmd_name id] -> c_id c <> id ->
    exists x t, expect_command al id rs = Ok (None, Some x, rest) /\ err_text x = Some t /\ Text k c data t).
  { intros id Hid Aw N. destruct (cmd_id_eqb (c_id c) C_ERROR) eqn:E.
    - apply cmd_id_eqb_spec in E. rewrite (EE id E). eexists. eexists. split; [reflexivity|]. split; [reflexivity|]. exact (Text_error k c data E).
    - apply cmd_id_eqb_neq in E. rewrite (EO id E N). eexists. eexists. split; [reflexivity|]. split; [cbn [formatted err_text]; rewrite (one_text id (c_id c) Hid); reflexivity|].
      apply Text_one; [exact E|exact Aw|]. apply name_differs; [tauto|exact N]. }
  destruct k as [min max|p|p|p|p|p|p]; cbn [await Positive] in *.
  - unfold tool_version. rewrite (proj2 (Z.ltb_ge written 0)) by exact W. destruct (cmd_id_eqb (c_id c) C_VERSION) eqn:Y.
    + apply cmd_id_eqb_spec in Y. rewrite (ER C_VERSION); [|rewrite Y; discriminate|exact Y]. cbn [bind].
      destruct (Z.ltb_spec (c_number c) min); [|destruct (Z.ltb_spec max (c_number c))].
      * eexists. eexists. split; [reflexivity|]. split; [reflexivity|]. now apply Text_low.
      * eexists. eexists. split; [reflexivity|]. split; [reflexivity|]. now apply Text_high.
      * exfalso. apply NP. split; [exact Y|lia].
    + apply cmd_id_eqb_neq in Y. destruct (One C_VERSION) as (x & t & -> & Tx & Ct); [auto|reflexivity|exact Y|]. exists x, t. auto.
  - unfold tool_yes. destruct (One C_YES) as (x & t & -> & Tx & Ct); [auto|reflexivity|exact NP|]. exists x, t. auto.
  - unfold tool_feature. destruct (cmd_id_eqb (c_id c) C_NO) eqn:N; [|destruct (cmd_id_eqb (c_id c) C_ERROR) eqn:E].
    + apply cmd_id_eqb_spec in N. rewrite (ERs [C_YES; C_NO]); [|rewrite N; discriminate|rewrite N; cbn; auto]. cbn [bind]. rewrite N.
      change (has_payload C_NO) with true. cbn [cmd_id_eqb]. unfold data_text. rewrite payload_str_complete. cbn [bind].
      eexists. eexists. split; [reflexivity|]. split; [reflexivity|]. now apply (Text_feature p c data).
    + apply cmd_id_eqb_spec in E. rewrite (EEs _ E). cbn [bind]. eexists. eexists. split; [reflexivity|]. split; [reflexivity|]. exact (Text_error _ c data E).
    + apply cmd_id_eqb_neq in N, E. rewrite (EOs [C_YES; C_NO] E); [|cbn; intuition congruence]. cbn [bind]. eexists. eexists. split; [reflexivity|]. split; [reflexivity|].
      apply (Text_two (Feature p) c data (B "YES") (B "NO") E); [reflexivity|]. intros [H|[H|[]]]; symmetry in H.
      * exact (name_differs (c_id c) C_YES ltac:(auto) NP H).
      * exact (name_differs (c_id c) C_NO ltac:(auto) N H).
  - unfold tool_yes. destruct (One C_YES) as (x & t & -> & Tx & Ct); [auto|reflexivity|exact NP|]. exists x, t. auto.
  - unfold tool_license. destruct (cmd_id_eqb (c_id c) C_NO) eqn:N; [|destruct (cmd_id_eqb (c_id c) C_NOTSIMPLE) eqn:S; [|destruct (cmd_id_eqb (c_id c) C_ERROR) eqn:E]].
    + apply cmd_id_eqb_spec in N. rewrite (ERs [C_YES; C_NOTSIMPLE; C_NO]); [|rewrite N; discriminate|rewrite N; cbn; auto]. cbn [bind]. rewrite N.
      change (has_payload C_NO) with true. cbn [cmd_id_eqb]. unfold data_text. rewrite payload_str_complete. cbn [bind].
      eexists. eexists. split; [reflexivity|]. split; [reflexivity|]. now apply (Text_license p c data).
    + apply cmd_id_eqb_spec in S. rewrite (ERs [C_YES; C_NOTSIMPLE; C_NO]); [|rewrite S; discriminate|rewrite S; cbn; auto]. cbn [bind]. rewrite S. cbn [cmd_id_eqb].
      eexists. eexists. split; [reflexivity|]. split; [reflexivity|]. now apply Text_simple.
    + apply cmd_id_eqb_spec in E. rewrite (EEs _ E). cbn [bind]. eexists. eexists. split; [reflexivity|]. split; [reflexivity|]. exact (Text_error _ c data E).
    + apply cmd_id_eqb_neq in N, S, E. rewrite (EOs [C_YES; C_NOTSIMPLE; C_NO] E); [|cbn; intuition congruence]. cbn [bind]. eexists. eexists. split; [reflexivity|]. split; [reflexivity|].
      apply (Text_three (License p) c data (B "YES") (B "NOTSIMPLE") (B "NO") E); [reflexivity|]. intros [H|[H|[H|[]]]]; symmetry in H.
      * exact (name_differs (c_id c) C_YES ltac:(auto) NP H).
      * exact (name_differs (c_id c) C_NOTSIMPLE ltac:(auto 6) S H).
      * exact (name_differs (c_id c) C_NO ltac:(auto) N H).
  - unfold tool_yes. destruct (One C_YES) as (x & t & -> & Tx & Ct); [auto|reflexivity|exact NP|]. exists x, t. auto.
  - unfold tool_file. destruct (One C_FILECONT) as (x & t & -> & Tx & Ct); [auto|reflexivity|exact NP|]. exists x, t. auto.
Qed.
