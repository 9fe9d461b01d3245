(** Model of the use of OpenSSL's error queue by the tool: common/mlle_ssl.c:264-450, common/mlle_utils.c:84-112,
    tool/mlle_licensing.c:48-98, tool/mlle_ssl_tool.c:44-159.  One thread.
    OpenSSL itself is not modelled; what its manual says of the queue is: a failing call appends errors to the queue of the thread,
    ERR_get_error takes the oldest one out, SSL_connect empties the queue before it starts, and SSL_get_error looks at the queue
    before it looks at the connection. *)
From Verif Require Import Base ParseModel WireModel SslModel ToolModel TlsModel.

(** An error in the queue: does it come from the operating system (ERR_LIB_SYS), and its reason as ERR_reason_error_string gives it. *)
Record entry := { e_sys : bool; e_reason : option bytes }.
(** The queue, oldest first (ERR_get_error, common/mlle_ssl.c:446). *)
Definition queue := list entry.

(** The state of the connection after SSL_read, SSL_write or SSL_connect failed: the call is to be repeated (a signal came while it
    waited), the other side has closed the connection properly, or it is gone. *)
Inductive cause := Again | AgainWrite | Closed | Gone.
(** SSL_get_error, called in common/mlle_ssl.c:272,331 and tool/mlle_ssl_tool.c:152, as in OpenSSL's manual: "the current thread's error
    queue must be empty before the TLS/SSL I/O operation is attempted, or SSL_get_error() will not work reliably". *)
Definition get_error (q : queue) (c : cause) : Z :=
  match q with
  | e :: _ => if e_sys e then 5%Z else 1%Z
  | [] => match c with Again => 2%Z | AgainWrite => 3%Z | Closed => 6%Z | Gone => 5%Z end
  end.
(** The codes that common/mlle_ssl.c:276,333-349 distinguishes. *)
Definition code_of (z : Z) : ssl_code :=
  if (z =? 2)%Z then WANT_READ else if (z =? 3)%Z then WANT_WRITE else OTHER_ERROR z.

(** What one call of SSL_read does: it returns bytes (see [rev_ev] in SslModel), or fails and appends [raised] to the queue;
    common/mlle_ssl.c:325. *)
Inductive reading := Data (b : bytes) (pending : Z) (want : bool) | Fails (c : cause) (raised : queue).
(** What ssl_read_message sees of these calls, common/mlle_ssl.c:322-331. *)
Fixpoint seen (q : queue) (rs : list reading) : list rev_ev :=
  match rs with
  | [] => []
  | Data b n w :: r => RData b n w :: seen q r
  | Fails c raised :: r => RFail (code_of (get_error (q ++ raised) c)) :: seen (q ++ raised) r
  end.
(** The queue after these calls, common/mlle_ssl.c:322-331: nothing is taken out. *)
Fixpoint queued (q : queue) (rs : list reading) : queue :=
  match rs with
  | [] => q
  | Data _ _ _ :: r => queued q r
  | Fails _ raised :: r => queued (q ++ raised) r
  end.
(** ssl_read_message, common/mlle_ssl.c:309-410: the result, the queue afterwards and the calls that were not made. *)
Definition read_message (al : alloc) (q : queue) (rs : list reading) : outcome (msg_res * queue * list reading) :=
  do (m, freed, rest) <- ssl_read_message al (seen q rs) ;
  let n := length rs - length rest in
  Ok (m, queued q (firstn n rs), skipn n rs).
(** The call of ssl_read_message in mlle_read_command and what is done if it fails, common/mlle_utils.c:90,105-113, with
    ssl_get_error_string, common/mlle_ssl.c:423-450: the text is written to an array that starts with a NUL, and the queue is emptied.
    Simplified: if memory runs out after a repeated call, the code is 0 and not that of the repeated call. *)
Definition read_one (al : alloc) (q : queue) (rs : list reading) : outcome (rd * queue * list reading) :=
  do (m, q', rest) <- read_message al q rs ;
  match m with
  | MsgOk b => Ok (RMsg b, q', rest)
  | MsgErr c =>
      let z := match c with WANT_READ => 2%Z | WANT_WRITE => 3%Z | OTHER_ERROR z => z end in
      Ok (RErr (match error_string ERROR_SIZE z (map e_reason q') (Some []) with Some t => t | None => [] end), [], rest)
  end.
(** A call of the tool library whose reply is one record, after its request was sent (tool/mlle_licensing.c:199-422): the result, the
    error, the queue and the calls of SSL_read that were not made. *)
Definition ask (al : alloc) (c : call) (q : queue) (rs : list reading)
  : outcome (option value * option error * queue * list reading) :=
  do (r, q', rest) <- read_one al q rs ;
  do (v, e, _) <- await al 0 c [r] ;
  Ok (v, e, q', rest).

(** ** Starts and frees *)

(** What OpenSSL does during mlle_start_executable, tool/mlle_licensing.c:65-98. *)
Inductive starting :=
| NoProcess                                                          (* mlle_spawn fails, lines 73-76 *)
| NoSetup (raised : queue)                                           (* ssl_setup_tool fails, lines 80-83: there is no SSL to shut down *)
| NoHandshake (before : queue) (c : cause) (raised shut : queue)     (* SSL_connect fails, lines 86-89; then SSL_shutdown, line 55 *)
| Started (before : queue).                                          (* SSL_connect succeeds *)
(** The queue after mlle_start_executable: SSL_connect empties it at its start; after a failed handshake tool_perform_handshake takes out
    what it raised (mlle_ssl_tool.c:152-153); what ssl_setup_tool (mlle_ssl_tool.c:44-122) and SSL_shutdown (mlle_licensing.c:55) raise
    stays.  (The message of a failed handshake: TlsModel.) *)
Definition after_start (q : queue) (s : starting) : queue :=
  match s with
  | NoProcess => q
  | NoSetup raised => q ++ raised
  | NoHandshake before c raised shut => shut
  | Started before => []
  end.
(** What a tool does between two readings: it starts an LVE, frees a connection (mlle_connections_free, tool/mlle_licensing.c:48-63;
    [raised]: by SSL_shutdown), sends a message (ssl_write_message, common/mlle_ssl.c:264-292: [None]: written; otherwise SSL_write
    returned a negative number ([true]: then the errors are taken out of the queue, lines 276-278) or 0), or a call on some connection. *)
Inductive action :=
| Start (s : starting)
| Free (raised : queue)
| Send (failed : option (bool * queue))
| Call (al : alloc) (c : call) (rs : list reading).
(** The queue afterwards; if a call does not return it does not matter. *)
Definition act (q : queue) (a : action) : queue :=
  match a with
  | Start s => after_start q s
  | Free raised => q ++ raised
  | Send None => q
  | Send (Some (true, raised)) => []
  | Send (Some (false, raised)) => q ++ raised
  | Call al c rs => match ask al c q rs with Ok (_, _, q', _) => q' | _ => q end
  end.
(** The queue after a history of the tool; it is empty at the start. *)
Definition after (h : list action) : queue := fold_left act h [].
