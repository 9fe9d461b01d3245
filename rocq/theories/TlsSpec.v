(** TLS connections: what is in memory, what is shown of them.  Without reference to the code that sets them up. *)
From Verif Require Import Base TlsModel.

(** The kinds of the objects that have not been released. *)
Definition kept_kinds (h : heap) : list kind := map o_kind (filter (fun x => negb (o_refs x =? 0)) h).
(** The private keys in memory, once for each structure that holds one. *)
Definition keys_in_memory (h : heap) : list bytes := flat_map (fun k => match k with KRsa key => [key] | _ => [] end) (kept_kinds h).
(** The certificate that the tool shows has this key, and the handshake is completed. *)
Definition Presents (p : peer) (pem : bytes) : Prop := p_cert p = Some (RsaCertificate pem) /\ p_completes p = true.

(** The names of the codes of SSL_get_error (openssl/ssl.h); other codes are not named. *)
Inductive Named : Z -> bytes -> Prop :=
| N_ssl : Named 1 (B "SSL_ERROR_SSL")
| N_read : Named 2 (B "SSL_ERROR_WANT_READ")
| N_write : Named 3 (B "SSL_ERROR_WANT_WRITE")
| N_syscall : Named 5 (B "SSL_ERROR_SYSCALL")
| N_other z : z <> 1%Z -> z <> 2%Z -> z <> 3%Z -> z <> 5%Z -> Named z [].
