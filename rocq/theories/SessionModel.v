(** A tool and an LVE that talk to each other: the API calls of ToolModel against the
    receive loop of LveModel. *)
From Verif Require Import Base ParseModel WireModel LveModel ToolModel.

(** What is decided outside of both programs during one call: the world of the LVE, the
    tool's malloc, and how TLS cuts a message into records (SSL_write splits what does
    not fit one record; one ssl_read_message takes one record, see SslModel).
    Simplified: the connection does not break and SSL_write succeeds
    (common/mlle_ssl.c:412-480 returns a positive number then). *)
Record link (D : Type) := { k_env : env D; k_alloc : alloc; k_cut : bytes -> list bytes }.
Arguments k_env {D}. Arguments k_alloc {D}. Arguments k_cut {D}.

(** TLS as OpenSSL does it: records of 16384 bytes (SSL3_RT_MAX_PLAIN_LENGTH) and a rest;
    the fuel is the length of the message. *)
Definition record_max : Z := 16384.
Fixpoint chunks (fuel : nat) (m : bytes) : list bytes :=
  match fuel, m with
  | _, [] => []
  | O, _ => []
  | S f, _ => firstn (Z.to_nat record_max) m :: chunks f (skipn (Z.to_nat record_max) m)
  end.
Definition tls_records (m : bytes) : list bytes := chunks (length m) m.

(** The records that arrive at the tool because of the LVE's effects. *)
Definition arriving (cut : bytes -> list bytes) (es : list event) : list rd :=
  concat (map (fun ev => match ev with Reply m => map RMsg (cut m) | _ => [] end) es).

(** The LVE handles the records of one request, lve/mlle_lve.c:180-234. *)
Fixpoint handle_all {D} (cfg : config) (e : env D) (s : lve D) (rs : list bytes) : M (lve D) :=
  match rs with
  | [] => ret s
  | r :: l => run s1 <- lve_step cfg e s r ; handle_all cfg e s1 l
  end.

(** What one call did: its result, its error object and the effects of the LVE. *)
Record done := { d_result : option value; d_error : option error; d_events : list event }.

(** One API call, tool/mlle_licensing.c:199-422, while the LVE serves it.  [q] are the
    records that arrived earlier and were not read. *)
Definition api_call {D} (cfg : config) (k : link D) (s : lve D) (q : list rd) (c : call)
  : outcome (done * lve D * list rd) :=
  do ms <- request (k_alloc k) c ;
  match handle_all cfg (k_env k) s (concat (map (k_cut k) ms)) with
  | (_, UB r) => UB r
  | (_, Blocked) => Blocked
  | (es, Ok s1) =>
      do (r, err, q1) <- await (k_alloc k) 1 c (q ++ arriving (k_cut k) es) ;
      Ok ({| d_result := r; d_error := err; d_events := es |}, s1, q1)
  end.

(** A sequence of API calls. *)
Fixpoint api_calls {D} (cfg : config) (s : lve D) (q : list rd) (cs : list (link D * call))
  : outcome (list done * lve D * list rd) :=
  match cs with
  | [] => Ok ([], s, q)
  | (k, c) :: l =>
      do (d, s1, q1) <- api_call cfg k s q c ;
      do (ds, s2, q2) <- api_calls cfg s1 q1 l ;
      Ok (d :: ds, s2, q2)
  end.

(** From the start of the connection; the LVE first looks at the tool's key
    (lve/mlle_lve.c:175). *)
Definition tool_session {D} (cfg : config) (key : option bytes) (cs : list (link D * call))
  : outcome (list done * lve D * list rd) :=
  match validate_pubkey cfg key fresh with
  | (_, Ok s) => api_calls cfg s [] cs
  | (_, UB r) => UB r
  | (_, Blocked) => Blocked
  end.
