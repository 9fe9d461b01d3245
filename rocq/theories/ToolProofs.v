(** Lemmas about the tool side API. *)
From Verif Require Import Base BaseProofs ParseModel ParseSpec ParseProofs WireModel WireSpec
  WireProofs ToolModel ToolSpec.

Lemma cmd_id_eqb_spec a b : cmd_id_eqb a b = true <-> a = b.
Proof. split; [destruct a, b; (reflexivity || discriminate)|intros ->; now destruct b]. Qed.
Lemma cmd_id_eqb_neq a b : cmd_id_eqb a b = false <-> a <> b.
Proof.
  split; [intros H E; apply cmd_id_eqb_spec in E; congruence|].
  intros H. destruct (cmd_id_eqb a b) eqn:E; [|reflexivity]. apply cmd_id_eqb_spec in E. congruence.
Qed.

(** ** texts *)

Lemma concat_names_length l :
  length (concat (map (fun j => B ", " ++ cmd_name j) l)) <= 19 * length l.
Proof.
  induction l as [|i l IH]; [cbn; lia|]. cbn [map concat length]. rewrite !app_length.
  pose proof (proj2 (proj2 (proj2 (proj2 (cmd_name_chars i))))). change (length (B ", ")) with 2. lia.
Qed.

Lemma unexpected_fits al got ids :
  al (Z.of_nat (unexpected_size (length ids))) = true ->
  unexpected_msg al got ids = Ok (Some (unexpected_text got ids)).
Proof.
  intros A. unfold unexpected_msg. rewrite A.
  assert (L : length (unexpected_text got ids) < unexpected_size (length ids)).
  { unfold unexpected_text, unexpected_size. rewrite !app_length.
    pose proof (proj2 (proj2 (proj2 (proj2 (cmd_name_chars got))))) as H.
    change (length (B "Unexpected command ")) with 19.
    change (length (B ". Expected one of the following commands: ")) with 42.
    destruct ids as [|i r]; [cbn [length]; lia|]. rewrite app_length.
    pose proof (proj2 (proj2 (proj2 (proj2 (cmd_name_chars i))))).
    pose proof (concat_names_length r). cbn [length]. lia. }
  apply Nat.leb_gt in L. now rewrite L.
Qed.

(** ** replies in good order *)

Lemma read_incoming al rs c data rest :
  Incoming rs c data rest -> al (zlen data + 1)%Z = true ->
  read_command al rs =
  Ok (ReadOk c (if has_payload (c_id c) then Some (complete_payload data) else None) None, rest).
Proof.
  intros (al0 & m & first & more & Sd & Cu & ->) A. now apply (read_command_sent al0 al c data m first more).
Qed.

Lemma payload_str_complete data : payload_str (complete_payload data) = Ok (cstr data).
Proof.
  unfold payload_str, complete_payload; cbn [p_bytes p_len p_term].
  destruct (has_byte NUL data) eqn:H; [reflexivity|]. rewrite Z.ltb_irrefl.
  replace (Ascii.eqb NUL NUL) with true by reflexivity. f_equal.
  assert (N : ~ In NUL data) by (rewrite <- has_byte_In; congruence).
  symmetry. pose proof (cstr_app_no_nul data [] N) as K. cbn [cstr] in K. now rewrite app_nil_r in K.
Qed.

Lemma has_payload_error c : c_id c = C_ERROR -> has_payload (c_id c) = true.
Proof. intros ->. reflexivity. Qed.

Section Reply.
Variables (al : alloc) (rs rest : list rd) (c : command) (data : bytes).
Hypothesis Al : forall n, al n = true.
Hypothesis In_ : Incoming rs c data rest.

Lemma expect_error id : c_id c = C_ERROR ->
  expect_command al id rs =
  Ok (None, Some (formatted DOMAIN_TOOL 1 (B "Got ERROR command with message: " ++ cstr data)), rest).
Proof.
  intros E. unfold expect_command. rewrite (read_incoming _ _ _ _ _ In_ (Al _)). cbn [bind].
  rewrite E. cbn [cmd_id_eqb has_payload form_of]. change (has_payload C_ERROR) with true. cbn iota.
  unfold data_text. rewrite payload_str_complete. reflexivity.
Qed.
Lemma expect_errors ids : c_id c = C_ERROR ->
  expect_commands al ids rs =
  Ok (None, Some (formatted DOMAIN_TOOL 1 (B "Got ERROR command with message: " ++ cstr data)), rest).
Proof.
  intros E. unfold expect_commands. rewrite (read_incoming _ _ _ _ _ In_ (Al _)). cbn [bind].
  rewrite E. change (has_payload C_ERROR) with true. cbn [cmd_id_eqb].
  unfold data_text. rewrite payload_str_complete. reflexivity.
Qed.
Lemma expect_other id : c_id c <> C_ERROR -> c_id c <> id ->
  expect_command al id rs =
  Ok (None, Some (formatted DOMAIN_TOOL 1 (B "Unexpected command. Expected command " ++ cmd_name id ++
               B ", but got command " ++ cmd_name (c_id c) ++ B ".")), rest).
Proof.
  intros E N. unfold expect_command. rewrite (read_incoming _ _ _ _ _ In_ (Al _)). cbn [bind].
  apply cmd_id_eqb_neq in E, N. now rewrite E, N.
Qed.
Lemma expect_right id : c_id c <> C_ERROR -> c_id c = id ->
  expect_command al id rs =
  Ok (Some (c, if has_payload (c_id c) then Some (complete_payload data) else None), None, rest).
Proof.
  intros E N. unfold expect_command. rewrite (read_incoming _ _ _ _ _ In_ (Al _)). cbn [bind].
  apply cmd_id_eqb_neq in E. apply cmd_id_eqb_spec in N. now rewrite E, N.
Qed.
Lemma expects_other ids : c_id c <> C_ERROR -> ~ In (c_id c) ids ->
  expect_commands al ids rs =
  Ok (None, Some (literal DOMAIN_TOOL 1 (Some (unexpected_text (c_id c) ids))), rest).
Proof.
  intros E N. unfold expect_commands. rewrite (read_incoming _ _ _ _ _ In_ (Al _)). cbn [bind].
  apply cmd_id_eqb_neq in E. rewrite E.
  destruct (existsb (cmd_id_eqb (c_id c)) ids) eqn:X.
  { apply existsb_exists in X as (y & Hy & K). apply cmd_id_eqb_spec in K. subst y. tauto. }
  now rewrite unexpected_fits by apply Al.
Qed.
Lemma expects_right ids : c_id c <> C_ERROR -> In (c_id c) ids ->
  expect_commands al ids rs =
  Ok (Some (c, if has_payload (c_id c) then Some (complete_payload data) else None), None, rest).
Proof.
  intros E N. unfold expect_commands. rewrite (read_incoming _ _ _ _ _ In_ (Al _)). cbn [bind].
  apply cmd_id_eqb_neq in E. rewrite E.
  assert (X : existsb (cmd_id_eqb (c_id c)) ids = true).
  { apply existsb_exists. exists (c_id c). split; [exact N|]. now apply cmd_id_eqb_spec. }
  now rewrite X.
Qed.

(** What a call returns for a reply. *)
Definition fails (t : bytes) : option value * option error * list rd :=
  (None, Some (formatted DOMAIN_TOOL 1 t), rest).

Lemma incoming_length : has_payload (c_id c) = true -> c_length c = zlen data.
Proof.
  destruct In_ as (al0 & m & first & more & Sd & _ & _). apply (sent_shape _ _ _ _ Sd).
Qed.

Lemma await_reply written k : (0 <= written)%Z ->
  exists r e, await al written k rs = Ok (r, e, rest) /\
    ((exists v, r = Some v) <-> Positive k c) /\
    ((exists v, r = Some v) <-> e = None) /\
    (c_id c = C_ERROR -> Says e (firstn 2047 (B "Got ERROR command with message: " ++ cstr data))) /\
    (c_id c = C_NO -> match k with Feature _ | License _ => Says e (firstn 2047 (cstr data)) | _ => True end) /\
    (forall p h, k = File p -> r = Some (Contents h) -> Opened data h) /\
    (forall p v, k = File p -> r = Some v -> exists h, v = Contents h).
Proof.
  intros W.
  assert (Er : c_id c = C_ERROR ->
    forall k, await al written k rs = Ok (fails (B "Got ERROR command with message: " ++ cstr data))).
  { intros E k'. destruct k'; cbn [await]; unfold tool_version, tool_yes, tool_feature, tool_license, tool_file;
      rewrite ?(proj2 (Z.ltb_ge written 0)) by exact W;
      rewrite ?expect_error, ?expect_errors by exact E; reflexivity. }
  destruct (cmd_id_eqb (c_id c) C_ERROR) eqn:E.
  { apply cmd_id_eqb_spec in E. rewrite (Er E). eexists _, _. split; [reflexivity|].
    split; [|split; [|split; [|split; [|split]]]].
    - split; [intros [v Hv]; discriminate|].
      destruct k; cbn [Positive]; rewrite E; intros H; try discriminate; now destruct H.
    - split; [intros [v Hv]; discriminate|discriminate].
    - intros _. eexists. split; reflexivity.
    - rewrite E. discriminate.
    - discriminate.
    - discriminate. }
  apply cmd_id_eqb_neq in E. clear Er.
  assert (Yes : forall k', (match k' with LibPath _ | ReturnFeature _ | ReturnLicense _ => True | _ => False end) ->
    exists r e, await al written k' rs = Ok (r, e, rest) /\ ((exists v, r = Some v) <-> c_id c = C_YES) /\
      ((exists v, r = Some v) <-> e = None)).
  { intros k' Hk. assert (Ha : await al written k' rs = tool_yes al rs) by (destruct k'; tauto || reflexivity).
    rewrite Ha. unfold tool_yes. destruct (cmd_id_eqb (c_id c) C_YES) eqn:Y.
    - apply cmd_id_eqb_spec in Y. rewrite expect_right by assumption. cbn [bind].
      eexists _, _. split; [reflexivity|]. split; split; eauto.
    - apply cmd_id_eqb_neq in Y. rewrite expect_other by assumption. cbn [bind].
      eexists _, _. split; [reflexivity|]. split; split; try discriminate; [intros [v Hv]; discriminate|tauto|intros [v Hv]; discriminate]. }
  assert (Fin : forall k' : call, match k' with LibPath _ | ReturnFeature _ | ReturnLicense _ => True | _ => False end ->
     k = k' -> (forall c', Positive k' c' <-> c_id c' = C_YES) -> (forall p, k' <> File p) ->
     exists r e, await al written k rs = Ok (r, e, rest) /\
    ((exists v, r = Some v) <-> Positive k c) /\
    ((exists v, r = Some v) <-> e = None) /\
    (c_id c = C_ERROR -> Says e (firstn 2047 (B "Got ERROR command with message: " ++ cstr data))) /\
    (c_id c = C_NO -> match k with Feature _ | License _ => Says e (firstn 2047 (cstr data)) | _ => True end) /\
    (forall p h, k = File p -> r = Some (Contents h) -> Opened data h) /\
    (forall p v, k = File p -> r = Some v -> exists h, v = Contents h)).
  { intros k' Hk -> Pk Nf. destruct (Yes k' Hk) as (r & e & A & P & Q). exists r, e.
    split; [exact A|]. split; [rewrite Pk; exact P|]. split; [exact Q|]. split; [tauto|].
    split; [destruct k'; tauto|]. split; intros p ? F; destruct (Nf p F). }
  destruct k as [min max|p|p|p|p|p|p];
    try (eapply Fin; [|reflexivity|intros c'; reflexivity|discriminate]; exact I); clear Yes Fin;
    cbn [await Positive].
  - (* Version *)
    unfold tool_version. rewrite (proj2 (Z.ltb_ge written 0)) by exact W.
    destruct (cmd_id_eqb (c_id c) C_VERSION) eqn:Y.
    + apply cmd_id_eqb_spec in Y. rewrite expect_right by assumption. cbn [bind].
      destruct (Z.ltb_spec (c_number c) min); [|destruct (Z.ltb_spec max (c_number c))];
        eexists _, _; (split; [reflexivity|]); (split; [|split; [|split; [tauto|split; [tauto|split; discriminate]]]]);
        (split; [intros [v Hv]; try discriminate|]); try discriminate; try (intros; eauto; lia).
      all: try reflexivity. all: split; [exact Y|lia].
    + apply cmd_id_eqb_neq in Y. rewrite expect_other by assumption. cbn [bind].
      eexists _, _. split; [reflexivity|]. split; [|split; [|split; [tauto|split; [tauto|split; discriminate]]]].
      * split; [intros [v Hv]; discriminate|intros [Q _]; tauto].
      * split; [intros [v Hv]; discriminate|discriminate].
  - (* Feature *)
    unfold tool_feature.
    destruct (cmd_id_eqb (c_id c) C_YES) eqn:Y; [|destruct (cmd_id_eqb (c_id c) C_NO) eqn:N].
    + pose proof Y as Y'. apply cmd_id_eqb_spec in Y. rewrite expects_right by (cbn; auto). cbn [bind]. rewrite Y'.
      eexists _, _. split; [reflexivity|]. split; [split; eauto|]. split; [split; eauto|].
      split; [tauto|]. split; [intros K; congruence|]. split; discriminate.
    + pose proof N as N'. apply cmd_id_eqb_spec in N. rewrite expects_right by (cbn; auto). cbn [bind].
      rewrite N. change (has_payload C_NO) with true. cbn [cmd_id_eqb]. unfold data_text.
      rewrite payload_str_complete. cbn [bind].
      eexists _, _. split; [reflexivity|]. split; [split; [intros [v Hv]; discriminate|discriminate]|].
      split; [split; [intros [v Hv]; discriminate|discriminate]|]. split; [discriminate|].
      split; [intros _; eexists; split; reflexivity|]. split; discriminate.
    + apply cmd_id_eqb_neq in Y, N. rewrite expects_other by (cbn; intuition congruence). cbn [bind].
      eexists _, _. split; [reflexivity|]. split; [split; [intros [v Hv]; discriminate|tauto]|].
      split; [split; [intros [v Hv]; discriminate|discriminate]|]. split; [tauto|]. split; [tauto|]. split; discriminate.
  - (* License *)
    unfold tool_license.
    destruct (cmd_id_eqb (c_id c) C_YES) eqn:Y; [|destruct (cmd_id_eqb (c_id c) C_NO) eqn:N;
      [|destruct (cmd_id_eqb (c_id c) C_NOTSIMPLE) eqn:S]].
    + pose proof Y as Y'. apply cmd_id_eqb_spec in Y. rewrite expects_right by (cbn; auto). cbn [bind]. rewrite Y'.
      eexists _, _. split; [reflexivity|]. split; [split; eauto|]. split; [split; eauto|].
      split; [tauto|]. split; [intros K; congruence|]. split; discriminate.
    + pose proof N as N'. apply cmd_id_eqb_spec in N. rewrite expects_right by (cbn; auto). cbn [bind].
      rewrite N. change (has_payload C_NO) with true. cbn [cmd_id_eqb]. unfold data_text.
      rewrite payload_str_complete. cbn [bind].
      eexists _, _. split; [reflexivity|]. split; [split; [intros [v Hv]; discriminate|discriminate]|].
      split; [split; [intros [v Hv]; discriminate|discriminate]|]. split; [discriminate|].
      split; [intros _; eexists; split; reflexivity|]. split; discriminate.
    + apply cmd_id_eqb_spec in S. rewrite expects_right by (cbn; auto). cbn [bind]. rewrite S. cbn [cmd_id_eqb].
      eexists _, _. split; [reflexivity|]. split; [split; [intros [v Hv]; discriminate|discriminate]|].
      split; [split; [intros [v Hv]; discriminate|discriminate]|]. split; [discriminate|].
      split; [discriminate|]. split; discriminate.
    + apply cmd_id_eqb_neq in Y, N, S. rewrite expects_other by (cbn; intuition congruence). cbn [bind].
      eexists _, _. split; [reflexivity|]. split; [split; [intros [v Hv]; discriminate|tauto]|].
      split; [split; [intros [v Hv]; discriminate|discriminate]|]. split; [tauto|]. split; [tauto|]. split; discriminate.
  - (* File *)
    unfold tool_file. destruct (cmd_id_eqb (c_id c) C_FILECONT) eqn:Y.
    + apply cmd_id_eqb_spec in Y. rewrite expect_right by assumption. cbn [bind]. rewrite (Al 24).
      rewrite Y. change (has_payload C_FILECONT) with true. cbn [option_map].
      eexists _, _. split; [reflexivity|]. split; [split; eauto|]. split; [split; eauto|].
      split; [discriminate|]. split; [discriminate|]. split.
      * intros p' h _ [= <-]. unfold Opened. cbn.
        repeat split. apply incoming_length. now rewrite Y.
      * intros p' v _ [= <-]. eauto.
    + apply cmd_id_eqb_neq in Y. rewrite expect_other by assumption. cbn [bind].
      eexists _, _. split; [reflexivity|]. split; [split; [intros [v Hv]; discriminate|tauto]|].
      split; [split; [intros [v Hv]; discriminate|discriminate]|]. split; [tauto|]. split; [tauto|].
      split; [discriminate|]. intros p' v _ [=].
Qed.
End Reply.

(** ** arbitrary input *)

Lemma expect_any al id rs r e rest :
  expect_command al id rs = Ok (r, e, rest) ->
  match r with
  | None => e <> None
  | Some (c, p) => c_id c = id /\ exists b rs', rs = RMsg b :: rs' /\ ValidLine (cstr (firstn (length b - 1) b)) c
  end.
Proof.
  unfold expect_command. destruct (read_command al rs) as [[rr rest']| |] eqn:R; cbn [bind]; try discriminate.
  destruct rr as [m|c p err]; [intros [= <- <- <-]; discriminate|].
  destruct (cmd_id_eqb (c_id c) C_ERROR) eqn:E.
  { destruct (data_text p); cbn [bind]; try discriminate. intros [= <- <- <-]. discriminate. }
  destruct (cmd_id_eqb (c_id c) id) eqn:I; [|intros [= <- <- <-]; discriminate].
  intros [= <- <- <-]. split; [now apply cmd_id_eqb_spec|].
  revert R. unfold read_command. destruct rs as [|[b|t] rs']; try discriminate.
  destruct (SSL_RECORD_SIZE <? zlen b)%Z; [discriminate|].
  destruct (parse_command ERROR_SIZE (cstr (firstn (length b - 1) b))) as [[g c'] m] eqn:P.
  intros R. exists b, rs'. split; [reflexivity|]. apply (parse_valid_iff ERROR_SIZE). exists m.
  destruct g; try discriminate. rewrite P. repeat f_equal.
  destruct (has_payload (c_id c')).
  - destruct (extract_data al (c_length c') b) as [[q tot]| |]; cbn [bind] in R; try discriminate.
    destruct (read_rest (c_length c') q tot rs') as [[q' rr']| |]; cbn [bind] in R; try discriminate. congruence.
  - destruct (read_rest (c_length c') None 0 rs') as [[q' rr']| |]; cbn [bind] in R; try discriminate. congruence.
Qed.
Lemma expects_any al ids rs r e rest :
  expect_commands al ids rs = Ok (r, e, rest) ->
  match r with
  | None => e <> None
  | Some (c, p) => In (c_id c) ids /\ exists b rs', rs = RMsg b :: rs' /\ ValidLine (cstr (firstn (length b - 1) b)) c
  end.
Proof.
  unfold expect_commands. destruct (read_command al rs) as [[rr rest']| |] eqn:R; cbn [bind]; try discriminate.
  destruct rr as [m|c p err]; [intros [= <- <- <-]; discriminate|].
  destruct (cmd_id_eqb (c_id c) C_ERROR) eqn:E.
  { destruct (data_text p); cbn [bind]; try discriminate. intros [= <- <- <-]. discriminate. }
  destruct (existsb (cmd_id_eqb (c_id c)) ids) eqn:I.
  2:{ destruct (unexpected_msg al (c_id c) ids); cbn [bind]; try discriminate. intros [= <- <- <-]. discriminate. }
  intros [= <- <- <-]. split.
  { apply existsb_exists in I as (y & Hy & K). apply cmd_id_eqb_spec in K. now subst y. }
  assert (X : expect_command al (c_id c) rs = Ok (Some (c, p), option_map (fun m => literal 1 1 (Some m)) err, rest')).
  { unfold expect_command. rewrite R. cbn [bind]. rewrite E.
    now rewrite (proj2 (cmd_id_eqb_spec (c_id c) (c_id c)) eq_refl). }
  apply expect_any in X. apply X.
Qed.

Ltac peel_bind H :=
  match type of H with
  | bind ?o _ = _ => let X := fresh "X" in
      destruct o as [[[? ?] ?]| |] eqn:X; cbn [bind] in H; try discriminate
  end.

Lemma await_any al written k rs r e rest :
  (0 <= written)%Z -> await al written k rs = Ok (r, e, rest) ->
  match r with
  | None => e <> None
  | Some _ => exists b rs' c, rs = RMsg b :: rs' /\ ValidLine (cstr (firstn (length b - 1) b)) c /\ Positive k c
  end.
Proof.
  intros W. assert (W0 : (written <? 0)%Z = false) by now apply Z.ltb_ge.
  destruct k as [min max|p|p|p|p|p|p]; cbn [await Positive];
    unfold tool_version, tool_yes, tool_feature, tool_license, tool_file; rewrite ?W0; intros H; peel_bind H;
    first [apply expect_any in X|apply expects_any in X];
    (destruct o as [[c q]|]; [destruct X as (I & b & rs' & E & V)|injection H as <- <- <-; exact X]).
  - destruct (Z.ltb_spec (c_number c) min); [injection H as <- <- <-; discriminate|].
    destruct (Z.ltb_spec max (c_number c)); [injection H as <- <- <-; discriminate|].
    injection H as <- <- <-. exists b, rs', c. auto.
  - injection H as <- <- <-. exists b, rs', c. auto.
  - destruct (cmd_id_eqb (c_id c) C_YES) eqn:Y.
    + injection H as <- <- <-. apply cmd_id_eqb_spec in Y. exists b, rs', c. auto.
    + destruct I as [I|[I|[]]]; rewrite <- I in *; [discriminate|]. cbn [cmd_id_eqb] in H.
      destruct (data_text q); cbn [bind] in H; try discriminate. injection H as <- <- <-. discriminate.
  - injection H as <- <- <-. exists b, rs', c. auto.
  - destruct (cmd_id_eqb (c_id c) C_YES) eqn:Y.
    + injection H as <- <- <-. apply cmd_id_eqb_spec in Y. exists b, rs', c. auto.
    + destruct I as [I|[I|[I|[]]]]; rewrite <- I in *; [discriminate| |]; cbn [cmd_id_eqb] in H.
      * injection H as <- <- <-. discriminate.
      * destruct (data_text q); cbn [bind] in H; try discriminate. injection H as <- <- <-. discriminate.
  - injection H as <- <- <-. exists b, rs', c. auto.
  - destruct (al 24%Z); injection H as <- <- <-; [|discriminate]. exists b, rs', c. auto.
Qed.

Lemma await_read_fails al written k t rs :
  (0 <= written)%Z -> await al written k (RErr t :: rs) = Ok (None, Some (literal 1 1 (Some t)), rs).
Proof.
  intros W. destruct k; cbn [await]; unfold tool_version; rewrite ?(proj2 (Z.ltb_ge written 0)) by exact W;
    reflexivity.
Qed.

(** ** reading file contents *)

(** The file is open and [rem] is left to read; at the end the buffer may be gone. *)
Definition open_at (rem : bytes) (h : handle) : Prop :=
  h_ptr h = true /\ h_live h = true /\
  ((exists data done, data = done ++ rem /\ fc_size h = zlen data /\ fc_off h = zlen done /\
     fc_ptr h = true /\ fc_cell h = Some data) \/
   (rem = [] /\ fc_ptr h = false /\ fc_cell h = None)).

Lemma opened_at data h : Opened data h -> open_at data h.
Proof.
  intros (A & B & C & D & E & F). split; [exact A|]. split; [exact B|]. left. exists data, [].
  repeat split; assumption.
Qed.

Lemma read_step rem h n : open_at rem h -> (0 <= n)%Z ->
  exists r h', read_file_bytes h n = Ok (r, h') /\
    ((rem = [] /\ r = None /\ open_at [] h') \/
     (exists a b, rem = a ++ b /\ rem <> [] /\ zlen a = Z.min n (zlen rem) /\ r = Some a /\ open_at b h')).
Proof.
  intros (A & B & H) Hn. unfold read_file_bytes. rewrite A, B. cbn [negb].
  destruct H as [(data & done & -> & Sz & Of & P & C)|(-> & P & C)].
  2:{ rewrite P. cbn [negb]. eexists _, _. split; [reflexivity|]. left. split; [reflexivity|]. split; [reflexivity|].
      split; [exact A|]. split; [exact B|]. right. auto. }
  rewrite P. cbn [negb]. rewrite Sz, Of, zlen_app. pose proof (zlen_nonneg rem). pose proof (zlen_nonneg done).
  destruct (Z.leb_spec (zlen done + zlen rem) (zlen done)) as [L|L].
  - assert (rem = []) as -> by (destruct rem; [reflexivity|unfold zlen in L; cbn [length] in L; lia]).
    unfold release_buffer. rewrite C. cbn [bind]. eexists _, _. split; [reflexivity|]. left.
    split; [reflexivity|]. split; [reflexivity|]. split; [exact A|]. split; [exact B|]. right. auto.
  - replace (zlen done + zlen rem - zlen done)%Z with (zlen rem) by lia.
    set (m := if (n <? zlen rem)%Z then n else zlen rem).
    assert (Hm : m = Z.min n (zlen rem)) by (unfold m; destruct (Z.ltb_spec n (zlen rem)); lia).
    clearbody m. rewrite C. unfold copy_out. rewrite zlen_app.
    rewrite (proj2 (Z.ltb_ge (zlen done + zlen rem) (zlen done + m))) by lia. cbn [bind].
    assert (Sk : skipn (Z.to_nat (zlen done)) (done ++ rem) = rem).
    { unfold zlen. rewrite Nat2Z.id. rewrite skipn_app, skipn_all, Nat.sub_diag. reflexivity. }
    rewrite Sk.
    set (a := firstn (Z.to_nat m) rem). set (b := skipn (Z.to_nat m) rem).
    assert (E : rem = a ++ b) by (symmetry; apply firstn_skipn).
    assert (La : zlen a = m).
    { unfold a, zlen. rewrite firstn_length. unfold zlen in Hm. lia. }
    clearbody a b.
    assert (Ne : rem <> []) by (intros ->; unfold zlen in L; cbn [length] in L; lia).
    unfold set_off at 1 2. cbn [fc_size fc_off]. rewrite Sz, zlen_app.
    destruct (Z.leb_spec (zlen done + zlen rem) (zlen done + m)) as [K|K].
    + unfold release_buffer, set_off. cbn [fc_cell]. rewrite C. cbn [bind]. eexists _, _. split; [reflexivity|].
      right. exists a, b. split; [exact E|]. split; [exact Ne|]. split; [lia|]. split; [reflexivity|].
      split; [exact A|]. split; [exact B|]. right. cbn [fc_ptr fc_cell]. split; [|auto].
      rewrite E, zlen_app in K. destruct b as [|x b]; [reflexivity|].
      pose proof (zlen_pos (x :: b) ltac:(discriminate)). lia.
    + cbn [bind]. eexists _, _. split; [reflexivity|]. right. exists a, b. split; [exact E|].
      split; [exact Ne|]. split; [lia|]. split; [reflexivity|]. split; [exact A|]. split; [exact B|].
      left. exists (done ++ rem), (done ++ a). split; [now rewrite <- app_assoc, <- E|].
      cbn. split; [exact Sz|]. split; [rewrite zlen_app; lia|auto].
Qed.

Lemma read_all_ok sizes : forall rem h, open_at rem h -> Forall (fun n => (0 <= n)%Z) sizes ->
  exists rs h' rem', read_all h sizes = Ok (rs, h') /\ Piecewise rem sizes rs /\ open_at rem' h' /\
    rem = delivered rs ++ rem'.
Proof.
  induction sizes as [|n sizes IH]; intros rem h O F.
  { exists [], h, rem. split; [reflexivity|]. split; [constructor|]. split; [exact O|reflexivity]. }
  inversion F as [|? ? F1 F2]; subst. destruct (read_step rem h n O F1) as (r & h1 & R & K).
  cbn [read_all]. rewrite R. cbn [bind].
  destruct K as [(-> & -> & O1)|(a & b & -> & Ne & La & -> & O1)];
    destruct (IH _ _ O1 F2) as (rs & h' & rem' & R2 & P & O2 & Dl); rewrite R2; cbn [bind].
  - exists (None :: rs), h', rem'. split; [reflexivity|]. split; [now constructor|]. split; [exact O2|exact Dl].
  - exists (Some a :: rs), h', rem'. split; [reflexivity|]. split; [now constructor|]. split; [exact O2|].
    unfold delivered in *. cbn [map concat]. rewrite <- app_assoc. now rewrite <- Dl.
Qed.

Lemma free_open rem h : open_at rem h ->
  exists h', file_contents_free h = Ok h' /\ Released h' /\ file_contents_free h' = Ok h'.
Proof.
  intros (A & B & H). unfold file_contents_free at 1. rewrite A, B. cbn [negb].
  destruct H as [(data & done & _ & _ & _ & P & C)|(_ & P & C)]; rewrite P.
  - unfold release_buffer. rewrite C. cbn [bind]. eexists. split; [reflexivity|]. split; [|reflexivity].
    repeat split.
  - cbn [bind]. eexists. split; [reflexivity|]. split; [|reflexivity]. repeat split. exact C.
Qed.

Lemma reads_then_free data h sizes : Opened data h -> Forall (fun n => (0 <= n)%Z) sizes ->
  exists rs h' h'', read_all h sizes = Ok (rs, h') /\ Piecewise data sizes rs /\
    (exists rem, data = delivered rs ++ rem) /\
    file_contents_free h' = Ok h'' /\ Released h'' /\ file_contents_free h'' = Ok h''.
Proof.
  intros O F. destruct (read_all_ok sizes data h (opened_at _ _ O) F) as (rs & h' & rem & R & P & O2 & D).
  destruct (free_open _ _ O2) as (h'' & Fr & Re & Ag). exists rs, h', h''. eauto 10.
Qed.

(** enough room in one read *)
Lemma read_everything data h n : Opened data h -> (zlen data <= n)%Z -> data <> [] ->
  exists h', read_file_bytes h n = Ok (Some data, h') /\ fc_cell h' = None.
Proof.
  intros O L Ne. pose proof (zlen_nonneg data).
  destruct (read_step data h n (opened_at _ _ O)) as (r & h' & R & K); [lia|].
  destruct K as [(-> & _)|(a & b & E & _ & La & -> & O1)]; [congruence|].
  assert (b = []) as ->.
  { destruct b as [|x b]; [reflexivity|]. exfalso. rewrite Z.min_r in La by exact L.
    rewrite E, zlen_app in La. pose proof (zlen_pos (x :: b)) as Z0. specialize (Z0 ltac:(discriminate)). lia. }
  rewrite app_nil_r in E. subst a. exists h'. split; [exact R|].
  unfold read_file_bytes in R. destruct O as (A & B & C & D & P & Q).
  rewrite A, B, P, C, D in R. cbn [negb] in R.
  pose proof (zlen_pos data Ne). destruct (Z.leb_spec (zlen data) 0); [lia|].
  rewrite Z.sub_0_r in R. replace (if (n <? zlen data)%Z then n else zlen data) with (zlen data) in R
    by (destruct (Z.ltb_spec n (zlen data)); lia).
  destruct (copy_out (fc_cell h) 0 (zlen data)); cbn [bind] in R; try discriminate.
  unfold set_off in R. cbn [fc_size fc_off] in R. rewrite C in R. rewrite (proj2 (Z.leb_le _ _)) in R by lia.
  unfold release_buffer in R. cbn [fc_cell] in R. rewrite Q in R. cbn [bind] in R. injection R as _ <-. reflexivity.
Qed.
