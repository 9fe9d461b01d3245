(** Setting up TLS on both sides: /repo/src/common/mlle_ssl.c (create_CTX, get_rsa, get_public_key, generate_X509),
    /repo/src/tool/mlle_ssl_tool.c, /repo/src/lve/mlle_ssl_lve.c, and the end of main in /repo/src/lve/lve.c. *)
From Verif Require Import Base ParseModel WireModel LveModel EmbedSpec.

(** ** Objects of OpenSSL *)

(** The kinds used; an RSA structure made from a private key holds that key. *)
Inductive kind := KCtx | KRsa (key : bytes) | KPkey | KCert | KSsl | KBio.
(** Objects are counted references (as in OpenSSL 1.1); an object holds references to others. *)
Record obj := { o_kind : kind; o_refs : nat; o_holds : list nat }.
(** The objects made by one setup, by number; setups do not share objects. *)
Definition heap := list obj.

(** A new object with one reference, that of the caller (SSL_CTX_new, PEM_read_bio_RSAPrivateKey, EVP_PKEY_new, X509_new, SSL_new,
    BIO_new_fd, BIO_new_fp). *)
Definition make (k : kind) (h : heap) : heap * nat := (h ++ [{| o_kind := k; o_refs := 1; o_holds := [] |}], length h).
Fixpoint change (n : nat) (f : obj -> obj) (h : heap) : heap :=
  match n, h with
  | _, [] => []
  | 0, x :: r => f x :: r
  | S n', x :: r => x :: change n' f r
  end.
(** [a] takes over the caller's reference to [b] (EVP_PKEY_assign_RSA, SSL_set_bio). *)
Definition give (a b : nat) (h : heap) : heap :=
  change a (fun x => {| o_kind := o_kind x; o_refs := o_refs x; o_holds := o_holds x ++ [b] |}) h.
(** [a] gets a reference of its own to [b] (SSL_CTX_use_RSAPrivateKey, X509_set_pubkey, SSL_use_certificate, SSL_new). *)
Definition hold (a b : nat) (h : heap) : heap :=
  give a b (change b (fun x => {| o_kind := o_kind x; o_refs := S (o_refs x); o_holds := o_holds x |}) h).
(** Releasing a reference (SSL_free and the others); the last one releases what the object holds.  [fuel]: depth of the references. *)
Fixpoint release (fuel : nat) (n : nat) (h : heap) : outcome heap :=
  match fuel with
  | 0 => Blocked
  | S fuel =>
      match nth_error h n with
      | Some x =>
          match o_refs x with
          | 0 => UB UseAfterFree
          | S r =>
              let h1 := change n (fun x => {| o_kind := o_kind x; o_refs := r; o_holds := o_holds x |}) h in
              if r =? 0 then fold_left (fun o c => do h <- o ; release fuel c h) (o_holds x) (Ok h1) else Ok h1
          end
      | None => UB UseAfterFree
      end
  end.

(** What the calls of OpenSSL give.  Simplified: EVP_PKEY_new, X509_new and the functions that fill in the certificate do not fail. *)
Record tls_calls := {
  b_ctx : bool;       (* SSL_CTX_new *)
  b_ciphers : bool;   (* SSL_CTX_set_cipher_list *)
  b_mem1 : bool;      (* BIO_new_mem_buf in create_CTX *)
  b_use : bool;       (* SSL_CTX_use_RSAPrivateKey *)
  b_mem2 : bool;      (* BIO_new_mem_buf in the setup *)
  b_sign : bool;      (* X509_sign *)
  b_ssl : bool;       (* SSL_new *)
  b_write : bool; b_read : bool;   (* BIO_new_fd, BIO_new_fp *)
  b_cert : bool;      (* SSL_use_certificate *)
  b_pem : bytes -> option bytes    (* PEM_read_bio_RSAPrivateKey: the private key in a text *)
}.

(** get_rsa, common/mlle_ssl.c:133-150.  The BIO is released again and not kept in the heap. *)
Definition get_rsa (mem : bool) (b : tls_calls) (text : bytes) (h : heap) : heap * option nat :=
  if mem then match b_pem b text with
              | Some k => let (h1, n) := make (KRsa k) h in (h1, Some n)
              | None => (h, None)
              end
  else (h, None).

(** create_CTX, common/mlle_ssl.c:67-119, for both modes.  What has been made is left when a later step fails. *)
Definition create_CTX (b : tls_calls) (text : bytes) (h : heap) : heap * option nat :=
  if b_ctx b then
    let (h1, ctx) := make KCtx h in
    if b_ciphers b then
      match get_rsa (b_mem1 b) b text h1 with
      | (h2, Some rsa) =>
          if b_use b then
            let (h3, pkey) := make KPkey h2 in
            (give ctx pkey (hold pkey rsa h3), Some ctx)
          else (h2, None)
      | (h2, None) => (h2, None)
      end
    else (h1, None)
  else (h, None).

(** generate_X509, common/mlle_ssl.c:206-250. *)
Definition generate_X509 (b : tls_calls) (rsa : nat) (h : heap) : heap * option nat :=
  let (h1, pkey) := make KPkey h in
  let h2 := give pkey rsa h1 in
  let (h3, x509) := make KCert h2 in
  (hold x509 pkey h3, if b_sign b then Some x509 else None).

(** SSL_new: the connection has references to the context and to the key in it. *)
Definition ssl_new (b : tls_calls) (ctx : nat) (h : heap) : heap * option nat :=
  if b_ssl b then
    let (h1, ssl) := make KSsl h in
    let keys := match nth_error h ctx with Some x => o_holds x | None => [] end in
    (fold_left (fun h k => hold ssl k h) keys (hold ssl ctx h1), Some ssl)
  else (h, None).

(** The text of the private key in its array: the array is read up to its first NUL. *)
Definition key_text (mem : bytes) : outcome bytes := if has_byte NUL mem then Ok (cstr mem) else UB OobRead.

(** What a setup leaves: the objects, the array PRIVATE_KEY_..., the SSL object if it succeeded, the errors reported in order. *)
Record setup := { u_heap : heap; u_mem : bytes; u_ssl : option nat; u_errors : list Z }.

(** INITIALIZE_... and CLEAR_..., as generated by embedfile; an access outside of the array is undefined. *)
Definition macro_initialize (m : macros) (mem : bytes) : outcome bytes :=
  match initialize m mem with Some x => Ok x | None => UB OobWrite end.
Definition macro_clear (m : macros) (mem : bytes) : outcome bytes :=
  match clear m mem with Some x => Ok x | None => UB OobWrite end.

(** ssl_setup_tool, tool/mlle_ssl_tool.c:45-119.  [mem]: the array as declared.  The codes of mlle_error_set are listed (the second
    number). SSL_use_certificate is called with a null pointer if SSL_new failed. *)
Definition ssl_setup_tool (b : tls_calls) (m : macros) (mem : bytes) : outcome setup :=
  do used <- macro_initialize m mem ;
  do text <- key_text used ;
  let fail h mem code := do mem' <- macro_clear m mem ; Ok {| u_heap := h; u_mem := mem'; u_ssl := None; u_errors := [code] |} in
  match create_CTX b text [] with
  | (h1, None) => fail h1 used 1%Z
  | (h1, Some ctx) =>
      match get_rsa (b_mem2 b) b text h1 with
      | (h2, None) => fail h2 used 2%Z
      | (h2, Some rsa) =>
          do cleared <- macro_clear m used ;
          match generate_X509 b rsa h2 with
          | (h3, None) => fail h3 cleared 3%Z
          | (h3, Some x509) =>
              let (h4, ossl) := ssl_new b ctx h3 in
              let (h5, bw) := if b_write b then let (h, n) := make KBio h4 in (h, Some n) else (h4, None) in
              let (h6, br) := if b_read b then let (h, n) := make KBio h5 in (h, Some n) else (h5, None) in
              match bw, br with
              | Some bw, Some br =>
                  match ossl with
                  | None => UB NullDeref
                  | Some ssl =>
                      if b_cert b then
                        do mem' <- macro_clear m cleared ;
                        Ok {| u_heap := give ssl bw (give ssl br (hold ssl x509 h6)); u_mem := mem'; u_ssl := Some ssl; u_errors := [] |}
                      else fail h6 cleared 5%Z
                  end
              | _, _ => fail h6 cleared 4%Z
              end
          end
      end
  end.

(** mlle_connections_free, tool/mlle_licensing.c:48-63, on the objects of the connection (SSL_shutdown does not release any). *)
Definition free_tool (u : setup) : outcome heap :=
  match u_ssl u with Some ssl => release 8 ssl (u_heap u) | None => Ok (u_heap u) end.

(** ssl_get_error_string, common/mlle_ssl.c:421-450: the names of the codes (openssl/ssl.h), and the loop that takes errors out of
    OpenSSL's queue; each has a reason ([None]: ERR_reason_error_string knows none, glibc prints (null)).  [buffer]: the text in the
    array, [None] if nothing has been written to it. *)
Definition error_name (code : Z) : bytes :=
  if (code =? 2)%Z then B "SSL_ERROR_WANT_READ"
  else if (code =? 3)%Z then B "SSL_ERROR_WANT_WRITE"
  else if (code =? 5)%Z then B "SSL_ERROR_SYSCALL"
  else if (code =? 1)%Z then B "SSL_ERROR_SSL"
  else [].
Definition reason_text (r : option bytes) : bytes := match r with Some t => t | None => B "(null)" end.
Fixpoint error_string (size : nat) (code : Z) (queue : list (option bytes)) (buffer : option bytes) : option bytes :=
  match queue with
  | [] => buffer
  | r :: q => error_string size code q (Some (snprintf size (error_name code ++ B ". reason: " ++ reason_text r)))
  end.
(** SSL_ERROR_BUF_LEN, common/mlle_ssl.h:28. *)
Definition SSL_ERROR_BUF_LEN : nat := 100.

(** tool_perform_handshake, tool/mlle_ssl_tool.c:135-159, if SSL_connect fails: the message of the error; errorString is not initialised
    (line 139). *)
Definition handshake_message (code : Z) (queue : list (option bytes)) : outcome bytes :=
  match error_string SSL_ERROR_BUF_LEN code queue None with
  | Some t => Ok (snprintf DEFAULT_MSG_SIZE (B "SSL: Handshake failed. Reason: " ++ t))
  | None => UB UninitRead
  end.

(** mlle_start_executable, tool/mlle_licensing.c:65-98, on the errors: [spawn]: what mlle_spawn gives ([None]: it has set an error),
    [connect]: [None] if SSL_connect succeeds, otherwise what SSL_get_error gives and the queue.  The connection, if any, and the codes of the errors set. *)
Definition start_errors (spawn : option unit) (connect : option (Z * list (option bytes))) (b : tls_calls) (m : macros) (mem : bytes) : outcome (option setup * list Z) :=
  match spawn with
  | None => Ok (None, [1%Z])
  | Some _ =>
      do u <- ssl_setup_tool b m mem ;
      match u_ssl u with
      | None => do _ <- free_tool u ; Ok (None, u_errors u)
      | Some _ =>
          match connect with
          | None => Ok (Some u, [])
          | Some (code, queue) => do _ <- handshake_message code queue ; do _ <- free_tool u ; Ok (None, [2%Z])
          end
      end
  end.

(** ** The LVE *)

(** ssl_setup_lve, lve/mlle_ssl_lve.c:105-191.  The first SSL object is never used (line 140). *)
Definition ssl_setup_lve (b : tls_calls) (m : macros) (mem : bytes) : outcome setup :=
  do used <- macro_initialize m mem ;
  do text <- key_text used ;
  let fail h mem code := do mem' <- macro_clear m mem ; Ok {| u_heap := h; u_mem := mem'; u_ssl := None; u_errors := [code] |} in
  match create_CTX b text [] with
  | (h1, None) => fail h1 used ERR_SSL
  | (h1, Some ctx) =>
      match get_rsa (b_mem2 b) b text h1 with
      | (h2, None) => fail h2 used ERR_SSL
      | (h2, Some rsa) =>
          do cleared <- macro_clear m used ;
          let (h3, _) := ssl_new b ctx h2 in
          let (h4, bw) := if b_write b then let (h, n) := make KBio h3 in (h, Some n) else (h3, None) in
          let (h5, br) := if b_read b then let (h, n) := make KBio h4 in (h, Some n) else (h4, None) in
          match bw, br with
          | Some bw, Some br =>
              match generate_X509 b rsa h5 with
              | (h6, None) => fail h6 cleared ERR_SSL
              | (h6, Some x509) =>
                  let (h7, ossl) := ssl_new b ctx h6 in
                  match ossl with
                  | None => UB NullDeref
                  | Some ssl =>
                      if b_cert b then
                        do mem' <- macro_clear m cleared ;
                        Ok {| u_heap := hold ssl x509 (give ssl bw (give ssl br h7)); u_mem := mem'; u_ssl := Some ssl; u_errors := [] |}
                      else fail (give ssl bw (give ssl br h7)) cleared ERR_SSL
                  end
              end
          | _, _ => fail h5 cleared ERR_SSL
          end
      end
  end.

(** A certificate the tool presents: with an RSA key (whose public half in PEM format is given), or with another one. *)
Inductive certificate := RsaCertificate (public_pem : bytes) | OtherCertificate.
(** How the handshake goes: whether a certificate is presented; [p_extract]: PEM_write_bio_RSA_PUBKEY and its BIO succeed, [p_malloc]:
    memory for the text; [p_completes]: SSL_accept succeeds if the certificate is not refused. *)
Record peer := { p_cert : option certificate; p_extract : bool; p_malloc : bool; p_completes : bool }.

(** cert_verify_callback and get_public_key, lve/mlle_ssl_lve.c:52-88, common/mlle_ssl.c:162-193: the key stored in
    global_tool_pub_key; [None]: the certificate is refused. *)
Definition cert_verify_callback (p : peer) (c : certificate) : outcome (option bytes) :=
  match c with
  | OtherCertificate => Ok None
  | RsaCertificate pem =>
      if p_extract p then if p_malloc p then Ok (Some pem) else UB NullDeref else Ok None
  end.
(** lve_perform_handshake, lve/mlle_ssl_lve.c:208-232: SSL_accept calls the callback if there is a certificate (SSL_VERIFY_PEER without
    SSL_VERIFY_FAIL_IF_NO_PEER_CERT, mlle_ssl.c:96-99).  [None]: it fails; otherwise the value of global_tool_pub_key. *)
Definition lve_perform_handshake (p : peer) : outcome (option (option bytes)) :=
  match p_cert p with
  | None => Ok (if p_completes p then Some None else None)
  | Some c =>
      do k <- cert_verify_callback p c ;
      match k with
      | Some pem => Ok (if p_completes p then Some (Some pem) else None)
      | None => Ok None
      end
  end.

(** The last branch of main, lve/lve.c:280-298, with mlle_lve_shutdown, lve/mlle_lve.c:246-263: SSL_shutdown reads the SSL object.
    Simplified: mlle_license_free and free(libpath) are left out. *)
Definition lve_serve {D} (cfg : config) (b : tls_calls) (m : macros) (mem : bytes) (p : peer) (ts : list (turn D)) : M heap :=
  run u <- lift (ssl_setup_lve b m mem) ;
  match u_ssl u with
  | None => lift (UB NullDeref)
  | Some ssl =>
      run k <- lift (lve_perform_handshake p) ;
      match k with
      | Some key => run _ <- session cfg key ts ; lift (release 8 ssl (u_heap u))
      | None => lift (release 8 ssl (u_heap u))
      end
  end.
