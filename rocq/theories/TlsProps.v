(** Theorems about setting up TLS connections. *)
From Verif Require Import Base ParseModel WireModel LveModel LveSpec LveProofs LveHist LveThms LveProps EmbedModel EmbedSpec EmbedProofs EmbedProps TlsModel TlsSpec TlsProofs.

(** A private key that is the text KEY, and OpenSSL calls that succeed. *)
Definition key_header : macros := {| m_size := 4; m_length := 3; m_assignments := [(0%Z, ch 75); (1%Z, ch 69); (2%Z, ch 89); (3%Z, NUL)] |}.
Definition works : tls_calls :=
  {| b_ctx := true; b_ciphers := true; b_mem1 := true; b_use := true; b_mem2 := true; b_sign := true; b_ssl := true; b_write := true; b_read := true;
     b_cert := true; b_pem := fun t => if beq t (B "KEY") then Some (B "secret") else None |}.
Definition stack : bytes := B "junk".

(** ** C67: only tools with a listed key *)

(** Whatever the other side does: contents of files are sent, and files are opened, only if it has completed the handshake with a
    certificate whose key is compiled in. *)
Theorem C67_only_listed : forall D cfg b m mem p (ts : list (turn D)),
  (forall r, In (Reply r) (fst (lve_serve cfg b m mem p ts)) -> CarriesFile r -> exists pem, Presents p pem /\ In pem (cfg_keys cfg)) /\
  (forall f, In (ReadFile f) (fst (lve_serve cfg b m mem p ts)) -> exists pem, Presents p pem /\ In pem (cfg_keys cfg)).
Proof. intros. split; [intros r; apply serve_listed|intros f; apply serve_opens]. Qed.
Print Assumptions C67_only_listed.
(** Nothing at all is read or sent before the handshake is completed. *)
Theorem C67_handshake_first : forall D cfg b m mem p (ts : list (turn D)) e,
  In e (fst (lve_serve cfg b m mem p ts)) -> p_completes p = true.
Proof. exact @serve_completed. Qed.
Print Assumptions C67_handshake_first.
Definition tool_with (k : bytes) : peer := {| p_cert := Some (RsaCertificate k); p_extract := true; p_malloc := true; p_completes := true |}.
Definition talk := [say version_record; say lib_record; say (file_record (B "a.mo"))].
Definition has_file (e : event) : bool := match e with Reply r => beq (firstn 8 r) (B "FILECONT") | _ => false end.
Example C67_ex : map has_file (fst (lve_serve vendor works key_header stack (tool_with (B "key2")) talk)) = [false; false; false; false; false; false; true] /\
  map has_file (fst (lve_serve vendor works key_header stack (tool_with (B "key3")) talk)) = [false; false; false; false; false; false] /\
  lve_serve vendor works key_header stack {| p_cert := None; p_extract := true; p_malloc := true; p_completes := true |} talk = ([], UB NullDeref).
Proof. split; [|split]; vm_compute; reflexivity. Qed.

(** ** C68: private keys are cleared *)

(** Whatever fails: when the setup returns, the array that held the key has been cleared; every byte of it if the key file has at
    most one carriage return (C43). *)
Theorem C68_cleared_partial : forall d out file name type data h m mem b u,
  Identifier name -> dk_file d file = Some data -> length data <= length (unix data) + 1 ->
  obfuscate d [out; file; name; type] = Ok (0%Z, Some (out, h)) -> read_header name h = Some m -> Declared m mem ->
  ssl_setup_tool b m mem = Ok u \/ ssl_setup_lve b m mem = Ok u -> Forall (eq NUL) (u_mem u).
Proof.
  intros d out file name type data h m mem b u I F L O Rd Dc [S0|S0]; [apply tool_cleared in S0|apply lve_cleared in S0]; destruct S0 as (used & In & Cl);
    destruct (C43_cleared_partial d out file name type data h m mem used I F L O Rd Dc In) as (z & Cz & A); congruence.
Qed.
Print Assumptions C68_cleared_partial.
(** With more carriage returns the end of the key stays, on every path. *)
Theorem C68_left_refuted : forall d out file name type data h m mem b u front last,
  Identifier name -> dk_file d file = Some data -> data = front ++ last -> length data = length (unix data) + 1 + length last ->
  obfuscate d [out; file; name; type] = Ok (0%Z, Some (out, h)) -> read_header name h = Some m -> Declared m mem ->
  ssl_setup_tool b m mem = Ok u \/ ssl_setup_lve b m mem = Ok u -> exists zeros, u_mem u = zeros ++ last ++ [NUL].
Proof.
  intros d out file name type data h m mem b u front last I F E L O Rd Dc [S0|S0]; [apply tool_cleared in S0|apply lve_cleared in S0]; destruct S0 as (used & In & Cl);
    destruct (C43_left_refuted d out file name type data h m mem used front last I F E L O Rd Dc In) as (z & Cz); exists z; congruence.
Qed.
Print Assumptions C68_left_refuted.
(** The header is the one generated for a key file; the certificate cannot be signed, or everything succeeds. *)
Definition key_disk (data : bytes) : disk := {| dk_file := fun _ => Some data; dk_readable := fun _ => true; dk_writable := fun _ => true |}.
Definition unsigned : tls_calls :=
  {| b_ctx := true; b_ciphers := true; b_mem1 := true; b_use := true; b_mem2 := true; b_sign := false; b_ssl := true; b_write := true; b_read := true;
     b_cert := true; b_pem := b_pem works |}.
Example C68_ex : exists h, obfuscate (key_disk (B "KEY")) [B "o.h"; B "k.pem"; B "PRIVATE_KEY_TOOL"; B "TOOL_PRIVATE"] = Ok (0%Z, Some (B "o.h", h)) /\
  read_header (B "PRIVATE_KEY_TOOL") h = Some key_header /\ Declared key_header stack /\
  (exists u, ssl_setup_tool unsigned key_header stack = Ok u /\ u_ssl u = None /\ u_mem u = [NUL; NUL; NUL; NUL]) /\
  (exists u, ssl_setup_lve works key_header stack = Ok u /\ u_ssl u = Some 9 /\ u_mem u = [NUL; NUL; NUL; NUL]).
Proof.
  eexists. split; [reflexivity|]. split; [vm_compute; reflexivity|]. split; [reflexivity|].
  split; eexists; (split; [vm_compute; reflexivity|split; reflexivity]).
Qed.
Definition dos_key : bytes := [ch 75; CR; CR; CR; ch 69].
Example C68_left_ex : exists h m, obfuscate (key_disk dos_key) [B "o.h"; B "k.pem"; B "PRIVATE_KEY_TOOL"; B "TOOL_PRIVATE"] = Ok (0%Z, Some (B "o.h", h)) /\
  read_header (B "PRIVATE_KEY_TOOL") h = Some m /\ length dos_key = length (unix dos_key) + 1 + length [CR; ch 69] /\
  exists u, ssl_setup_tool works m (B "012345") = Ok u /\ u_mem u = [NUL; NUL; NUL; CR; ch 69; NUL].
Proof.
  eexists. eexists. split; [reflexivity|]. split; [vm_compute; reflexivity|]. split; [reflexivity|].
  eexists. split; [vm_compute; reflexivity|reflexivity].
Qed.

(** ** C69: the LVE ends cleanly *)

(** Once TLS is set up, the LVE ends without undefined behaviour if the handshake fails, and as its session does otherwise. *)
Theorem C69_ends_partial : forall D cfg b m mem p (ts : list (turn D)) u ssl, ssl_setup_lve b m mem = Ok u -> u_ssl u = Some ssl ->
  (lve_perform_handshake p = Ok None -> exists h, lve_serve cfg b m mem p ts = ([], Ok h)) /\
  (forall key es s, lve_perform_handshake p = Ok (Some key) -> session cfg key ts = (es, Ok s) -> exists h, lve_serve cfg b m mem p ts = (es, Ok h)).
Proof.
  intros D cfg b m mem p ts u ssl S0 U. split; [intros H; exact (serve_refused cfg b m mem p ts u ssl S0 U H)|].
  intros key es s Hs Se. exact (serve_accepted cfg b m mem p ts u ssl key es s S0 U Hs Se).
Qed.
Print Assumptions C69_ends_partial.
(** If TLS cannot be set up, it passes a null pointer to SSL_shutdown. *)
Theorem C69_no_setup_refuted : forall D cfg b m mem p (ts : list (turn D)) u, ssl_setup_lve b m mem = Ok u -> u_ssl u = None ->
  lve_serve cfg b m mem p ts = ([], UB NullDeref).
Proof. exact @serve_no_setup. Qed.
Print Assumptions C69_no_setup_refuted.
Example C69_ex : (exists u, ssl_setup_lve works key_header stack = Ok u /\ u_ssl u = Some 9) /\
  lve_perform_handshake {| p_cert := Some OtherCertificate; p_extract := true; p_malloc := true; p_completes := true |} = Ok None /\
  lve_perform_handshake (tool_with (B "key3")) = Ok (Some (Some (B "key3"))) /\
  (exists u, ssl_setup_lve unsigned key_header stack = Ok u /\ u_ssl u = None).
Proof. split; [|split; [|split]]; try reflexivity; eexists; (split; [vm_compute; reflexivity|reflexivity]). Qed.

(** ** C70: what stays in memory *)

(** Freeing a connection never releases an object twice, and releases the connection and its two channels. *)
Theorem C70_released_partial : forall b m mem u, ssl_setup_tool b m mem = Ok u ->
  exists h, free_tool u = Ok h /\ (u_ssl u <> None -> forall k, In k (kept_kinds h) -> k <> KSsl /\ k <> KBio).
Proof. exact tool_freed. Qed.
Print Assumptions C70_released_partial.
(** Two structures with the private key of the tool stay in memory for every connection. *)
Theorem C70_key_left_refuted : forall b m mem u, ssl_setup_tool b m mem = Ok u -> u_ssl u <> None ->
  exists h used text key, initialize m mem = Some used /\ key_text used = Ok text /\ b_pem b text = Some key /\ free_tool u = Ok h /\
    keys_in_memory h = [key; key].
Proof. exact tool_keys_left. Qed.
Print Assumptions C70_key_left_refuted.
Example C70_ex : exists u h, ssl_setup_tool works key_header stack = Ok u /\ u_ssl u = Some 6 /\ free_tool u = Ok h /\
  kept_kinds (u_heap u) = [KCtx; KRsa (B "secret"); KPkey; KRsa (B "secret"); KPkey; KCert; KSsl; KBio; KBio] /\
  kept_kinds h = [KCtx; KRsa (B "secret"); KPkey; KRsa (B "secret"); KPkey; KCert].
Proof. eexists. eexists. split; [vm_compute; reflexivity|]. split; [reflexivity|]. split; [vm_compute; reflexivity|]. split; reflexivity. Qed.

(** ** C71: errors of mlle_start_executable *)
Theorem C71_error_iff : forall spawn connect b m mem r es, start_errors spawn connect b m mem = Ok (r, es) ->
  (r = None <-> es <> []) /\ length es <= 1.
Proof. exact start_error. Qed.
Print Assumptions C71_error_iff.
Example C71_ex : start_errors None None works key_header stack = Ok (None, [1%Z]) /\
  (exists u, start_errors (Some tt) None works key_header stack = Ok (Some u, [])) /\
  start_errors (Some tt) (Some (1%Z, [Some (B "wrong version number")])) works key_header stack = Ok (None, [2%Z]) /\
  start_errors (Some tt) None unsigned key_header stack = Ok (None, [3%Z]).
Proof. split; [reflexivity|]. split; [eexists; vm_compute; reflexivity|]. split; vm_compute; reflexivity. Qed.

(** ** C101: the reason of a failed handshake *)

(** If OpenSSL has noted a reason, the message has the last one noted.  Missing from the full statement: nothing noted (see below), and
    earlier reasons. *)
Theorem C101_reason_partial : forall code name queue reason, Named code name -> length name + length reason <= 89 ->
  handshake_message code (queue ++ [Some reason]) = Ok (B "SSL: Handshake failed. Reason: " ++ name ++ B ". reason: " ++ reason).
Proof.
  intros code name queue reason N L. assert (E : error_name code = name).
  { destruct N as [| | | |z N1 N2 N3 N5]; try reflexivity. unfold error_name. apply Z.eqb_neq in N1, N2, N3, N5. now rewrite N2, N3, N5, N1. }
  rewrite <- E in *. rewrite handshake_reason. do 2 f_equal. apply firstn_all2. rewrite !app_length. change (length (B ". reason: ")) with 10. cbn [reason_text]. lia.
Qed.
Print Assumptions C101_reason_partial.
(** If the LVE ends or closes the connection during the handshake, nothing is noted, and the text that goes into the message is read from
    an array that has not been written. *)
Theorem C101_silent_refuted : forall code b m mem u, ssl_setup_tool b m mem = Ok u -> u_ssl u <> None -> start_errors (Some tt) (Some (code, [])) b m mem = UB UninitRead.
Proof. exact handshake_silent. Qed.
Print Assumptions C101_silent_refuted.
(** Of several reasons only the last one is given. *)
Theorem C101_first_refuted : forall code queue1 queue2 reason, handshake_message code (queue1 ++ [reason]) = handshake_message code (queue2 ++ [reason]).
Proof. intros. now rewrite !handshake_reason. Qed.
Print Assumptions C101_first_refuted.
Example C101_ex : Named 1 (B "SSL_ERROR_SSL") /\ handshake_message 1%Z [Some (B "certificate verify failed"); Some (B "tlsv1 alert unknown ca")] = Ok (B "SSL: Handshake failed. Reason: SSL_ERROR_SSL. reason: tlsv1 alert unknown ca") /\
  (exists u, ssl_setup_tool works key_header stack = Ok u /\ u_ssl u <> None) /\ start_errors (Some tt) (Some (5%Z, [])) works key_header stack = UB UninitRead.
Proof. split; [constructor|]. split; [vm_compute; reflexivity|]. split; [eexists; split; [vm_compute; reflexivity|discriminate]|vm_compute; reflexivity]. Qed.
