(** Proofs about TLS setup. *)
From Verif Require Import Base ParseModel WireModel LveModel LveSpec LveProofs LveHist LveThms LveProps EmbedModel EmbedSpec EmbedProofs EmbedProps TlsModel TlsSpec.

Lemma clear_clear m x y : clear m x = Some y -> clear m y = Some y.
Proof.
  unfold clear. destruct (m_length m <=? Z.of_nat (length x))%Z eqn:L; [|discriminate]. apply Z.leb_le in L. intros E.
  assert (y = repeat NUL (Z.to_nat (m_length m)) ++ skipn (Z.to_nat (m_length m)) x) as -> by congruence. clear E.
  set (n := Z.to_nat (m_length m)). assert (length (repeat NUL n ++ skipn n x) = length x) as Le.
  { rewrite app_length, repeat_length, skipn_length. unfold n. lia. }
  rewrite Le. apply Z.leb_le in L. rewrite L. f_equal. f_equal.
  rewrite skipn_app, skipn_all2 by (rewrite repeat_length; lia). rewrite repeat_length, Nat.sub_diag. reflexivity.
Qed.

Ltac tls_cases b :=
  repeat match goal with
  | H : context [if b_ctx b then _ else _] |- _ => destruct (b_ctx b)
  | H : context [if b_ciphers b then _ else _] |- _ => destruct (b_ciphers b)
  | H : context [if b_mem1 b then _ else _] |- _ => destruct (b_mem1 b)
  | H : context [match b_pem b ?t with _ => _ end] |- _ => destruct (b_pem b t) as [key|] eqn:Epem
  | H : context [if b_use b then _ else _] |- _ => destruct (b_use b)
  | H : context [if b_mem2 b then _ else _] |- _ => destruct (b_mem2 b)
  | H : context [if b_sign b then _ else _] |- _ => destruct (b_sign b)
  | H : context [if b_ssl b then _ else _] |- _ => destruct (b_ssl b)
  | H : context [if b_write b then _ else _] |- _ => destruct (b_write b)
  | H : context [if b_read b then _ else _] |- _ => destruct (b_read b)
  | H : context [if b_cert b then _ else _] |- _ => destruct (b_cert b)
  end.

Definition open_objects (key : bytes) : heap :=
  [{| o_kind := KCtx; o_refs := 2; o_holds := [2] |}; {| o_kind := KRsa key; o_refs := 2; o_holds := [] |};
   {| o_kind := KPkey; o_refs := 2; o_holds := [1] |}; {| o_kind := KRsa key; o_refs := 1; o_holds := [] |};
   {| o_kind := KPkey; o_refs := 2; o_holds := [3] |}; {| o_kind := KCert; o_refs := 2; o_holds := [4] |};
   {| o_kind := KSsl; o_refs := 1; o_holds := [0; 2; 5; 8; 7] |}; {| o_kind := KBio; o_refs := 1; o_holds := [] |};
   {| o_kind := KBio; o_refs := 1; o_holds := [] |}].
Definition left_objects (key : bytes) : heap :=
  [{| o_kind := KCtx; o_refs := 1; o_holds := [2] |}; {| o_kind := KRsa key; o_refs := 2; o_holds := [] |};
   {| o_kind := KPkey; o_refs := 1; o_holds := [1] |}; {| o_kind := KRsa key; o_refs := 1; o_holds := [] |};
   {| o_kind := KPkey; o_refs := 2; o_holds := [3] |}; {| o_kind := KCert; o_refs := 1; o_holds := [4] |};
   {| o_kind := KSsl; o_refs := 0; o_holds := [0; 2; 5; 8; 7] |}; {| o_kind := KBio; o_refs := 0; o_holds := [] |};
   {| o_kind := KBio; o_refs := 0; o_holds := [] |}].

Lemma setup_tool_spec b m mem u : ssl_setup_tool b m mem = Ok u ->
  exists used text, initialize m mem = Some used /\ key_text used = Ok text /\ clear m used = Some (u_mem u) /\
    ((exists key, b_pem b text = Some key /\ u_ssl u = Some 6 /\ u_heap u = open_objects key /\ u_errors u = []) \/
     (u_ssl u = None /\ exists code, u_errors u = [code])).
Proof.
  unfold ssl_setup_tool, macro_initialize, macro_clear. destruct (initialize m mem) as [used|]; [|discriminate]. cbn [bind].
  destruct (key_text used) as [text| |] eqn:Kt; [|discriminate|discriminate]. cbn [bind]. intros H. exists used, text. split; [reflexivity|]. split; [exact Kt|].
  destruct (clear m used) as [y|] eqn:C.
  - unfold create_CTX, get_rsa, generate_X509, ssl_new, make in H. pose proof (clear_clear m used y C) as C2. cbn [bind] in H.
    tls_cases b; cbn in H; rewrite ?C in H; cbn [bind] in H; rewrite ?C2 in H; cbn in H; try discriminate H; (apply (f_equal (fun o => match o with Ok x => x | _ => u end)) in H; subst u; cbn [u_mem u_ssl u_heap u_errors];
      split; [reflexivity|]; first [right; split; [reflexivity|eexists; reflexivity]|left; exists key; repeat split; reflexivity]).
  - exfalso. unfold create_CTX, get_rsa, generate_X509, ssl_new, make in H. cbn [bind] in H. tls_cases b; cbn in H; rewrite ?C in H; cbn in H; discriminate H.
Qed.

Definition served_objects (key : bytes) : heap :=
  [{| o_kind := KCtx; o_refs := 3; o_holds := [2] |}; {| o_kind := KRsa key; o_refs := 2; o_holds := [] |};
   {| o_kind := KPkey; o_refs := 3; o_holds := [1] |}; {| o_kind := KRsa key; o_refs := 1; o_holds := [] |};
   {| o_kind := KSsl; o_refs := 1; o_holds := [0; 2] |}; {| o_kind := KBio; o_refs := 1; o_holds := [] |};
   {| o_kind := KBio; o_refs := 1; o_holds := [] |};
   {| o_kind := KPkey; o_refs := 2; o_holds := [3] |}; {| o_kind := KCert; o_refs := 2; o_holds := [7] |};
   {| o_kind := KSsl; o_refs := 1; o_holds := [0; 2; 6; 5; 8] |}].
Lemma setup_lve_spec b m mem u : ssl_setup_lve b m mem = Ok u ->
  exists used text, initialize m mem = Some used /\ key_text used = Ok text /\ clear m used = Some (u_mem u) /\
    ((exists key, b_pem b text = Some key /\ u_ssl u = Some 9 /\ u_heap u = served_objects key /\ u_errors u = []) \/
     (u_ssl u = None /\ u_errors u = [ERR_SSL])).
Proof.
  unfold ssl_setup_lve, macro_initialize, macro_clear. destruct (initialize m mem) as [used|]; [|discriminate]. cbn [bind].
  destruct (key_text used) as [text| |] eqn:Kt; [|discriminate|discriminate]. cbn [bind]. intros H. exists used, text. split; [reflexivity|]. split; [exact Kt|].
  destruct (clear m used) as [y|] eqn:C.
  - unfold create_CTX, get_rsa, generate_X509, ssl_new, make in H. pose proof (clear_clear m used y C) as C2. cbn [bind] in H.
    tls_cases b; cbn in H; rewrite ?C in H; cbn [bind] in H; rewrite ?C2 in H; cbn in H; try discriminate H; (apply (f_equal (fun o => match o with Ok x => x | _ => u end)) in H; subst u; cbn [u_mem u_ssl u_heap u_errors];
      split; [reflexivity|]; first [right; split; reflexivity|left; exists key; repeat split; reflexivity]).
  - exfalso. unfold create_CTX, get_rsa, generate_X509, ssl_new, make in H. cbn [bind] in H. tls_cases b; cbn in H; rewrite ?C in H; cbn in H; discriminate H.
Qed.

(** ** The LVE *)
Lemma lift_ok {A} (o : outcome A) : fst (lift o) = [] /\ snd (lift o) = o.
Proof. now split. Qed.
Lemma no_key_session {D} cfg (ts : list (turn D)) : cfg_keys cfg = [] -> session cfg None ts = session cfg (Some []) ts.
Proof. intros E. unfold session, validate_pubkey. rewrite E. reflexivity. Qed.

Lemma serve_events {D} cfg b m mem p (ts : list (turn D)) e : In e (fst (lve_serve cfg b m mem p ts)) ->
  exists key, lve_perform_handshake p = Ok (Some key) /\ In e (fst (session cfg key ts)).
Proof.
  unfold lve_serve. destruct (ssl_setup_lve b m mem) as [u|r|] eqn:S0; cbn; try contradiction.
  destruct (u_ssl u) as [ssl|]; cbn; [|contradiction].
  destruct (lve_perform_handshake p) as [[key|]|r|] eqn:Hs; cbn.
  - intros I. exists key. split; [reflexivity|]. revert I. destruct (session cfg key ts) as [es [s|r|]] eqn:Se; cbn.
    + rewrite app_nil_r. exact (fun I => I).
    + exact (fun I => I).
    + exact (fun I => I).
  - intros I. destruct (release 8 ssl (u_heap u)); cbn in I; contradiction.
  - contradiction.
  - contradiction.
Qed.
Lemma handshake_key p key : lve_perform_handshake p = Ok (Some key) ->
  p_completes p = true /\ ((key = None /\ p_cert p = None) \/ exists pem, key = Some pem /\ p_cert p = Some (RsaCertificate pem)).
Proof.
  unfold lve_perform_handshake, cert_verify_callback. destruct (p_cert p) as [[pem|]|]; cbn [bind]; intros H.
  - destruct (p_extract p); [|discriminate]. destruct (p_malloc p); cbn [bind] in H; [|discriminate]. destruct (p_completes p); [|discriminate].
    split; [reflexivity|]. right. exists pem. split; congruence.
  - discriminate.
  - destruct (p_completes p); [|discriminate]. split; [reflexivity|]. left. split; congruence.
Qed.
Lemma serve_listed {D} cfg b m mem p (ts : list (turn D)) r :
  In (Reply r) (fst (lve_serve cfg b m mem p ts)) -> CarriesFile r -> exists pem, Presents p pem /\ In pem (cfg_keys cfg).
Proof.
  intros I C. apply serve_events in I. destruct I as (key & Hs & I). apply handshake_key in Hs. destruct Hs as [Co [[-> N]|(pem & -> & Ce)]].
  - destruct (cfg_keys cfg) as [|k l] eqn:E.
    + rewrite no_key_session in I by exact E. exfalso. destruct (session cfg (Some []) ts) as [es o] eqn:Se. cbn [fst] in I.
      refine (C11_no_file_contents D cfg [] ts es o r _ Se I C). rewrite E. exact (fun x => x).
    + exfalso. revert I. unfold session. rewrite (C12_no_certificate_refuted D cfg k l E). cbn. contradiction.
  - exists pem. split; [now split|]. destruct (in_dec (list_eq_dec Ascii.ascii_dec) pem (cfg_keys cfg)) as [Y|N]; [exact Y|]. exfalso.
    destruct (session cfg (Some pem) ts) as [es o] eqn:Se. cbn [fst] in I. exact (C11_no_file_contents D cfg pem ts es o r N Se I C).
Qed.
Lemma serve_opens {D} cfg b m mem p (ts : list (turn D)) f :
  In (ReadFile f) (fst (lve_serve cfg b m mem p ts)) -> exists pem, Presents p pem /\ In pem (cfg_keys cfg).
Proof.
  intros I. apply serve_events in I. destruct I as (key & Hs & I). apply handshake_key in Hs. destruct Hs as [Co [[-> N]|(pem & -> & Ce)]].
  - destruct (cfg_keys cfg) as [|k l] eqn:E.
    + rewrite no_key_session in I by exact E. exfalso. destruct (session cfg (Some []) ts) as [es o] eqn:Se. cbn [fst] in I.
      refine (C11_no_file_opened D cfg [] ts es o f _ Se I). rewrite E. exact (fun x => x).
    + exfalso. revert I. unfold session. rewrite (C12_no_certificate_refuted D cfg k l E). cbn. contradiction.
  - exists pem. split; [now split|]. destruct (in_dec (list_eq_dec Ascii.ascii_dec) pem (cfg_keys cfg)) as [Y|N]; [exact Y|]. exfalso.
    destruct (session cfg (Some pem) ts) as [es o] eqn:Se. cbn [fst] in I. exact (C11_no_file_opened D cfg pem ts es o f N Se I).
Qed.
Lemma serve_completed {D} cfg b m mem p (ts : list (turn D)) e : In e (fst (lve_serve cfg b m mem p ts)) -> p_completes p = true.
Proof. intros I. apply serve_events in I. destruct I as (key & Hs & _). now apply handshake_key in Hs. Qed.

(** ** Ends *)
Lemma serve_no_setup {D} cfg b m mem p (ts : list (turn D)) u : ssl_setup_lve b m mem = Ok u -> u_ssl u = None ->
  lve_serve cfg b m mem p ts = ([], UB NullDeref).
Proof. intros S0 N. unfold lve_serve. rewrite S0. cbn. rewrite N. reflexivity. Qed.
Lemma serve_refused {D} cfg b m mem p (ts : list (turn D)) u ssl : ssl_setup_lve b m mem = Ok u -> u_ssl u = Some ssl ->
  lve_perform_handshake p = Ok None -> exists h, lve_serve cfg b m mem p ts = ([], Ok h).
Proof.
  intros S0 N Hs. destruct (setup_lve_spec b m mem u S0) as (used & text & _ & _ & _ & [(key & _ & U & H & _)|[U _]]); [|congruence].
  eexists. unfold lve_serve. rewrite S0. cbn. rewrite U, Hs, H. reflexivity.
Qed.
Lemma serve_accepted {D} cfg b m mem p (ts : list (turn D)) u ssl key es s : ssl_setup_lve b m mem = Ok u -> u_ssl u = Some ssl ->
  lve_perform_handshake p = Ok (Some key) -> session cfg key ts = (es, Ok s) -> exists h, lve_serve cfg b m mem p ts = (es, Ok h).
Proof.
  intros S0 N Hs Se. destruct (setup_lve_spec b m mem u S0) as (used & text & _ & _ & _ & [(k & _ & U & H & _)|[U _]]); [|congruence].
  eexists. unfold lve_serve. rewrite S0. cbn. rewrite U, Hs, H, Se. cbn. rewrite app_nil_r. reflexivity.
Qed.

(** ** Objects *)
Lemma free_left key u : u_ssl u = Some 6 -> u_heap u = open_objects key -> free_tool u = Ok (left_objects key).
Proof. intros S0 H. unfold free_tool. rewrite S0, H. reflexivity. Qed.
Lemma tool_freed b m mem u : ssl_setup_tool b m mem = Ok u -> exists h, free_tool u = Ok h /\
  (u_ssl u <> None -> forall k, In k (kept_kinds h) -> k <> KSsl /\ k <> KBio).
Proof.
  intros S0. destruct (setup_tool_spec b m mem u S0) as (used & text & _ & _ & _ & [(key & _ & U & H & _)|[U _]]).
  - exists (left_objects key). split; [now apply free_left|]. intros _ k I. cbn in I. repeat (destruct I as [<-|I]; [split; discriminate|]). contradiction.
  - exists (u_heap u). split; [unfold free_tool; now rewrite U|]. congruence.
Qed.
Lemma tool_keys_left b m mem u : ssl_setup_tool b m mem = Ok u -> u_ssl u <> None ->
  exists h used text key, initialize m mem = Some used /\ key_text used = Ok text /\ b_pem b text = Some key /\ free_tool u = Ok h /\
    keys_in_memory h = [key; key].
Proof.
  intros S0 N. destruct (setup_tool_spec b m mem u S0) as (used & text & I & T & _ & [(key & P & U & H & _)|[U _]]); [|congruence].
  exists (left_objects key), used, text, key. repeat split; auto. now apply free_left.
Qed.

(** ** The arrays *)
Lemma tool_cleared b m mem u : ssl_setup_tool b m mem = Ok u -> exists used, initialize m mem = Some used /\ clear m used = Some (u_mem u).
Proof. intros S0. destruct (setup_tool_spec b m mem u S0) as (used & text & I & _ & C & _). exists used. now split. Qed.
Lemma lve_cleared b m mem u : ssl_setup_lve b m mem = Ok u -> exists used, initialize m mem = Some used /\ clear m used = Some (u_mem u).
Proof. intros S0. destruct (setup_lve_spec b m mem u S0) as (used & text & I & _ & C & _). exists used. now split. Qed.

(** ** Errors *)
Lemma start_error spawn connect b m mem r es : start_errors spawn connect b m mem = Ok (r, es) ->
  (r = None <-> es <> []) /\ length es <= 1.
Proof.
  unfold start_errors. destruct spawn as [[]|].
  - destruct (ssl_setup_tool b m mem) as [u| |] eqn:S0; cbn [bind]; [|discriminate|discriminate].
    destruct (tool_freed b m mem u S0) as (h & F & _).
    destruct (setup_tool_spec b m mem u S0) as (used & text & _ & _ & _ & [(key & _ & U & H & E)|[U (code & E)]]); rewrite U; [destruct connect as [[code queue]|]; [destruct (handshake_message code queue); cbn [bind]; [|discriminate..]|]|]; rewrite ?F; cbn [bind]; intros X;
      assert (r = fst (r, es)) as -> by reflexivity; assert (es = snd (r, es)) as -> by reflexivity.
    + assert ((r, es) = (None, [2%Z])) as -> by congruence. cbn. split; [split; congruence|lia].
    + assert ((r, es) = (Some u, [])) as -> by congruence. cbn. split; [split; congruence|lia].
    + assert ((r, es) = (None, [code])) as -> by congruence. cbn. split; [split; congruence|lia].
  - intros X. assert (r = None) as -> by congruence. assert (es = [1%Z]) as -> by congruence. cbn. split; [split; congruence|lia].
Qed.

(** ** The reason of a failed handshake *)
Lemma error_string_app size code : forall q1 q2 buffer, error_string size code (q1 ++ q2) buffer = error_string size code q2 (error_string size code q1 buffer).
Proof. induction q1 as [|r q1 IH]; intros q2 buffer; [reflexivity|]. apply IH. Qed.
Lemma handshake_reason code queue r : handshake_message code (queue ++ [r]) = Ok (B "SSL: Handshake failed. Reason: " ++ firstn 99 (error_name code ++ B ". reason: " ++ reason_text r)).
Proof.
  unfold handshake_message. rewrite error_string_app. cbn [error_string]. f_equal. unfold snprintf. change (SSL_ERROR_BUF_LEN - 1) with 99. apply firstn_all2.
  rewrite app_length. assert (length (firstn 99 (error_name code ++ B ". reason: " ++ reason_text r)) <= 99) by (rewrite firstn_length; apply Nat.le_min_l).
  change (length (B "SSL: Handshake failed. Reason: ")) with 31. apply (Nat.le_trans _ (31 + 99)); [lia|]. apply Nat.leb_le. reflexivity.
Qed.
Lemma handshake_silent code b m mem u : ssl_setup_tool b m mem = Ok u -> u_ssl u <> None -> start_errors (Some tt) (Some (code, [])) b m mem = UB UninitRead.
Proof. intros S0 N. unfold start_errors. rewrite S0. cbn [bind]. now destruct (u_ssl u). Qed.
