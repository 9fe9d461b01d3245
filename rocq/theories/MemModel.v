(** Model of how the LVE uses memory and streams: which blocks malloc, calloc and strdup
    deliver, which are used and freed, and which files are open.  It follows lve_step of
    LveModel and ssl_read of SslModel statement by statement and takes every decision from
    them; only pointers are kept.  /repo/src/lve/mlle_lve.c:162-263, mlle_lve_libpath.c,
    mlle_lve_file.c, mlle_lve_feature.c; /repo/src/common/mlle_ssl.c:309-410,
    mlle_io.c:58-295, mlle_utils.c:42-75. *)
From Verif Require Import Base ParseModel WireModel SslModel LveModel.

(** What a program holds: a heap block or an open stream (FILE).  Numbers tell the
    results of different calls apart. *)
Inductive res := Block (n : nat) | Stream (n : nat).

(** What a program does with it: malloc/calloc/strdup/fopen, reading or writing through
    the pointer, free/fclose. *)
Inductive mem := Get (r : res) | Touch (r : res) | Release (r : res).

(** A C function reduced to that; the number is the next one not yet used. *)
Definition T (A : Type) : Type := nat -> list mem * A * nat.
Definition tret {A} (a : A) : T A := fun n => ([], a, n).
Definition tbind {A C} (m : T A) (f : A -> T C) : T C := fun n =>
  let '(t1, a, n1) := m n in
  let '(t2, b, n2) := f a n1 in (t1 ++ t2, b, n2).
Notation "'take' x <- o ; f" := (tbind o (fun x => f))
  (at level 200, x pattern, o at level 100, f at level 200).

(** malloc, calloc, strdup; [None] is NULL. *)
Definition malloc (ok : bool) : T (option res) := fun n =>
  if ok then ([Get (Block n)], Some (Block n), S n) else ([], None, n).
(** A successful fopen. *)
Definition fopen : T res := fun n => ([Get (Stream n)], Stream n, S n).
(** free and fclose; free(NULL) does nothing. *)
Definition release (p : option res) : T unit := fun n =>
  match p with Some r => ([Release r], tt, n) | None => ([], tt, n) end.
(** An access through a pointer. *)
Definition touch (p : option res) : T unit := fun n =>
  match p with Some r => ([Touch r], tt, n) | None => ([], tt, n) end.

(** ** Library functions *)

(** mlle_send_length_form and mlle_send_string, common/mlle_io.c:209-248: the output
    buffer. *)
Definition m_send_length (al : alloc) (data : bytes) : T unit :=
  take p <- malloc (al (Z.of_nat NUMBER_FORM_BUFFER_SIZE + zlen data + 1)%Z) ;
  take _ <- touch p ;
  release p.
(** mlle_send_error, common/mlle_io.c:250-295; a NULL text is a crash in LveModel. *)
Definition m_send_error (al : alloc) (msg : option bytes) : T unit :=
  match msg with
  | None => tret tt
  | Some m =>
      take p <- malloc (al (Z.of_nat NUMBER_AND_LENGTH_FORM_BUFFER_SIZE + zlen m + 1)%Z) ;
      take _ <- touch p ;
      release p
  end.

(** An error object: the structure and its text. *)
Definition err_ptr : Type := (res * res)%type.
(** mlle_error_new, common/mlle_error.c:47-88.  Simplified as in LveModel: both calloc
    succeed. *)
Definition m_error_new : T err_ptr := fun n =>
  ([Get (Block n); Get (Block (S n)); Touch (Block n)], (Block n, Block (S n)), S (S n)).
(** mlle_error_get_message, common/mlle_error.c:189-193, and the use of the text. *)
Definition m_error_text (e : option err_ptr) : T unit :=
  match e with
  | None => tret tt
  | Some (o, t) => take _ <- touch (Some o) ; touch (Some t)
  end.
(** mlle_error_free, common/mlle_error.c:143-157, for an object without cause. *)
Definition m_error_free (e : option err_ptr) : T unit :=
  match e with
  | None => tret tt
  | Some (o, t) =>
      take _ <- touch (Some o) ;
      take _ <- release (Some t) ;
      release (Some o)
  end.

(** mlle_io_read_file, common/mlle_io.c:58-171, Linux branch: the buffer or an error
    object.  fclose is reached on the last path only. *)
Definition m_read_file {D} (e : env D) (path : bytes) : T (option res * option err_ptr) :=
  match e_file e path with
  | NoOpen _ => take x <- m_error_new ; tret (None, Some x)
  | NoStat _ => take _ <- fopen ; take x <- m_error_new ; tret (None, Some x)
  | Content size avail ferr =>
      take f <- fopen ;
      take b <- malloc (e_alloc e (size + 1)%Z) ;
      match b with
      | None => take x <- m_error_new ; tret (None, Some x)
      | Some _ =>
          take _ <- touch b ;
          take _ <- touch (Some f) ;
          let failed := match ferr with
                        | Some _ => (zlen (firstn (Z.to_nat size) avail) <? size)%Z
                        | None => false
                        end in
          if failed then
            take x <- m_error_new ;
            take _ <- release b ;
            take _ <- release (Some f) ;
            tret (None, Some x)
          else
            take _ <- release (Some f) ;
            tret (b, None)
      end
  end.

(** ssl_read_message, common/mlle_ssl.c:309-410: a new buffer for every chunk, the old
    one is freed.  When reading fails the buffer so far is not freed. *)
Fixpoint m_ssl_read (al : alloc) (total : Z) (buf : option res) (evs : list rev_ev) : T (option res) :=
  match evs with
  | [] => tret None
  | RFail WANT_READ :: evs' | RFail WANT_WRITE :: evs' => m_ssl_read al total buf evs'
  | RFail _ :: _ => tret None
  | RData b pending want :: evs' =>
      if al (total + zlen b + pending)%Z then
        take p <- malloc true ;
        take _ <- touch p ;
        take _ <- touch buf ;
        take _ <- release buf ;
        if want || negb (pending =? 0)%Z then m_ssl_read al (total + zlen b)%Z p evs'
        else tret p
      else tret None
  end.

(** ** The context *)

(** tool_error_msg, lve/mlle_lve.h:50: NULL, a string literal or a block made by strdup
    (lve/mlle_lve_libpath.c:106). *)
Inductive text_ptr := NoText | Literal | OnHeap (r : res).
(** The pointers in struct mlle_lve_ctx, lve/mlle_lve.h:44-55. *)
Record ptrs := { q_lib : option res; q_cr : option res; q_lic : option res; q_err : text_ptr }.
(** As initialised in main, lve/lve.c:218-219. *)
Definition no_ptrs : ptrs := {| q_lib := None; q_cr := None; q_lic := None; q_err := NoText |}.
Definition with_lib (q : ptrs) (p : option res) : ptrs :=
  {| q_lib := p; q_cr := q_cr q; q_lic := q_lic q; q_err := q_err q |}.
Definition with_cr (q : ptrs) (p : option res) : ptrs :=
  {| q_lib := q_lib q; q_cr := p; q_lic := q_lic q; q_err := q_err q |}.
Definition with_lic (q : ptrs) (p : option res) : ptrs :=
  {| q_lib := q_lib q; q_cr := q_cr q; q_lic := p; q_err := q_err q |}.
Definition with_err (q : ptrs) (p : text_ptr) : ptrs :=
  {| q_lib := q_lib q; q_cr := q_cr q; q_lic := q_lic q; q_err := p |}.
Definition touch_text (p : text_ptr) : T unit :=
  match p with OnHeap r => touch (Some r) | _ => tret tt end.

(** ** Handlers *)

(** The error object of a licence manager that refuses
    (license_managers/include/mlle_license_manager.h). *)
Definition m_refusal (t : option bytes) : T (option err_ptr) :=
  match t with
  | Some _ => take x <- m_error_new ; tret (Some x)
  | None => tret None
  end.

(** mlle_lve_setup_licensing, lve/mlle_lve_feature.c:29-37.  The licence manager is one
    block.  The result is false with the error object if it refuses. *)
Definition m_setup {D} (e : env D) (s : lve D) (q : ptrs) : T (ptrs * bool * option err_ptr) :=
  match q_lic q with
  | Some _ => tret (q, true, None)
  | None =>
      take _ <- touch (q_lib q) ;
      match e_lic_new e (match s_lib s with Some l => Some (cstr l) | None => None end) with
      | Granted => take p <- malloc true ; tret (with_lic q p, true, None)
      | Refused t => take x <- m_refusal t ; tret (q, false, x)
      end
  end.

(** lve/mlle_lve_libpath.c:95-118.  The boolean says whether to go on. *)
Definition m_global {D} (cfg : config) (e : env D) (s : lve D) (q : ptrs) : T (ptrs * bool) :=
  match cfg_global cfg with
  | None => tret (q, true)
  | Some feature =>
      if s_approved s then
        take (q1, ok, x) <- m_setup e s q ;
        take (ok', x') <- (if ok then
                             take _ <- touch (q_lic q1) ;
                             match e_checkout e feature with
                             | Granted => tret (true, None)
                             | Refused t => take y <- m_refusal t ; tret (false, y)
                             end
                           else tret (false, x)) ;
        if ok' then tret (q1, true)
        else
          let text := match (if ok then e_checkout e feature
                             else e_lic_new e (match s_lib s with Some l => Some (cstr l) | None => None end)) with
                      | Refused (Some t) => t
                      | _ => []
                      end in
          take _ <- m_error_text x' ;
          take dup <- malloc (e_alloc e (zlen text + 1)%Z) ;
          take _ <- touch dup ;
          let q2 := with_err q1 (match dup with Some r => OnHeap r | None => NoText end) in
          take _ <- m_send_error (e_alloc e) (match dup with Some _ => Some text | None => None end) ;
          take _ <- m_error_free x' ;
          tret (q2, false)
      else tret (q, true)
  end.

(** mlle_lve_libpath, lve/mlle_lve_libpath.c:56-159.  A failed malloc of the path is a
    crash in LveModel. *)
Definition m_lib {D} (cfg : config) (e : env D) (s : lve D) (q : ptrs) (len : Z)
  (data : option payload) (dptr : option res) : T ptrs :=
  match data with
  | None => tret (with_err q Literal)
  | Some p =>
      if (len =? 0)%Z then tret (with_err q Literal)
      else
        take lib <- malloc (e_alloc e (len + 1)%Z) ;
        take _ <- touch dptr ;
        take _ <- touch lib ;
        let q1 := with_lib q lib in
        let path := match payload_bytes p with Ok raw => trim raw | _ => [] end in
        match e_cr_create e (cstr path) with
        | None => tret (with_err (with_cr q1 None) Literal)
        | Some d =>
            take cr <- malloc true ;
            let s1 := set_cr (set_lib s (Some path)) (Some d) in
            take (q3, go) <- m_global cfg e s1 (with_cr q1 cr) ;
            if go then
              take _ <- touch (q_lib q3) ;
              tret (match e_stat e (cstr path) with StatDir => q3 | _ => with_err q3 Literal end)
            else tret q3
        end
  end.

(** mlle_lve_setup_licensing_check_error, lve/mlle_lve_feature.c:39-52. *)
Definition m_setup_check {D} (e : env D) (s : lve D) (q : ptrs) : T (ptrs * bool) :=
  take (q1, ok, x) <- m_setup e s q ;
  if ok then tret (q1, true)
  else
    take _ <- m_error_text x ;
    take _ <- m_send_error (e_alloc e)
                (match e_lic_new e (match s_lib s with Some l => Some (cstr l) | None => None end) with
                 | Refused t => t
                 | Granted => None
                 end) ;
    take _ <- m_error_free x ;
    tret (q1, false).

(** mlle_lve_feature, lve/mlle_lve_feature.c:54-82. *)
Definition m_feature {D} (e : env D) (s : lve D) (q : ptrs) (data : option payload)
  (dptr : option res) : T ptrs :=
  take (q1, ok) <- m_setup_check e s q ;
  if ok then
    take _ <- touch (q_lic q1) ;
    take _ <- touch dptr ;
    let name := match feature_name data with Ok t => t | _ => [] end in
    match e_checkout e name with
    | Granted => tret q1
    | Refused t =>
        take x <- m_refusal t ;
        take _ <- m_error_text x ;
        take _ <- match t with Some m => m_send_length (e_alloc e) m | None => tret tt end ;
        take _ <- m_error_free x ;
        tret q1
    end
  else tret q1.

(** mlle_lve_returnfeature, lve/mlle_lve_feature.c:84-106. *)
Definition m_returnfeature {D} (e : env D) (s : lve D) (q : ptrs) (data : option payload)
  (dptr : option res) : T ptrs :=
  take (q1, ok) <- m_setup_check e s q ;
  if ok then
    take _ <- touch (q_lic q1) ;
    take _ <- touch dptr ;
    let name := match feature_name data with Ok t => t | _ => [] end in
    match e_checkin e name with
    | Granted => tret q1
    | Refused t =>
        take x <- m_refusal t ;
        take _ <- m_error_text x ;
        take _ <- m_send_error (e_alloc e) t ;
        take _ <- m_error_free x ;
        tret q1
    end
  else tret q1.

(** malloc(100 + path_size) for an error text, lve/mlle_lve_file.c:77-80,88-91, and what
    follows the label CLEANUP, 106-119: [keep] is decrypted_size >= 0, in which case the
    text is not freed. *)
Definition m_file_error {D} (e : env D) (size : Z) (text : bytes) (keep : bool) : T unit :=
  take p <- malloc (e_alloc e (100 + size)%Z) ;
  take _ <- touch p ;
  take _ <- m_send_error (e_alloc e) (match p with Some _ => Some (zsnprintf (100 + size) text) | None => None end) ;
  if keep then tret tt else release p.

(** mlle_lve_file, lve/mlle_lve_file.c:27-122.  Simplified: the memory mlle_cr_decrypt
    needs for itself (decryptors/default/src/mlle_cr_decrypt.c) is not counted; its table
    of keys belongs to the block of the context. *)
Definition m_file {D} (e : env D) (s : lve D) (q : ptrs) (len : Z) (data : option payload)
  (dptr : option res) : T ptrs :=
  if negb (s_approved s) then
    take _ <- touch_text (q_err q) ;
    take _ <- m_send_error (e_alloc e) (s_errmsg s) ;
    tret q
  else
    let size := ((match s_lib s with Some l => zlen l | None => 0 end) + len + 2)%Z in
    take fp <- malloc (e_alloc e size) ;
    match fp with
    | None =>
        take _ <- m_send_error (e_alloc e) (Some (B "Couldn't allocate memory")) ;
        tret q
    | Some _ =>
        let rel := match data with
                   | Some p => match payload_str p with Ok r => r | _ => [] end
                   | None => []
                   end in
        let path := zsnprintf size (cstr (match s_lib s with Some l => l | None => [] end) ++ [SLASH] ++ rel) in
        take _ <- touch (q_lib q) ;
        take _ <- touch dptr ;
        take _ <- touch fp ;
        take (fb, x) <- m_read_file e path ;
        match fb with
        | None =>
            take _ <- release fp ;
            take _ <- m_error_text x ;
            take _ <- m_send_error (e_alloc e) (match read_file e path with (_, Ok (inl m)) => Some m | _ => None end) ;
            take _ <- m_error_free x ;
            tret q
        | Some _ =>
            let file := match read_file e path with (_, Ok (inr f)) => f | _ => [] end in
            if is_moc rel then
              take out <- malloc (e_alloc e (zlen file + 1)%Z) ;
              match out with
              | None =>
                  take _ <- touch fp ;
                  take _ <- release fb ;
                  take _ <- release fp ;
                  take _ <- m_file_error e size
                              (B "Could not allocate memory to decrypt file " ++ path ++ B ".") true ;
                  tret q
              | Some _ =>
                  take _ <- touch (q_cr q) ;
                  take _ <- touch fb ;
                  take _ <- touch out ;
                  match e_decrypt e (s_cr s) rel file with
                  | Ok (_, None) =>
                      take _ <- touch fp ;
                      take _ <- release fb ;
                      take _ <- release out ;
                      take _ <- release fp ;
                      take _ <- m_file_error e size
                                  (B "Failed to decrypt file " ++ path ++ B ", might be corrupted.") false ;
                      tret q
                  | Ok (_, Some d) =>
                      take _ <- m_send_length (e_alloc e) d ;
                      take _ <- release fb ;
                      take _ <- release out ;
                      take _ <- release fp ;
                      tret q
                  | _ => tret q
                  end
              end
            else
              take _ <- touch fb ;
              take _ <- m_send_length (e_alloc e) file ;
              take _ <- release fb ;
              take _ <- release fp ;
              tret q
        end
    end.

(** ** One message *)

(** mlle_lve_handle_command from the extraction of the data on, lve/mlle_lve.c:79-150. *)
Definition m_dispatch {D} (cfg : config) (e : env D) (s : lve D) (q : ptrs) (p' : phase)
  (c : command) (msg : res) (record : bytes) : T ptrs :=
  let data := match form_of (c_id c) with
              | F_LENGTH => match extract_data (e_alloc e) (c_length c) record with Ok (d, _) => d | _ => None end
              | _ => None
              end in
  take _ <- match form_of (c_id c) with F_LENGTH => touch (Some msg) | _ => tret tt end ;
  take dptr <- malloc (is_some data) ;
  take _ <- touch dptr ;
  let s' := set_phase s p' in
  take q1 <- match s_phase s with
             | P_VERSION =>
                 if (c_number c <? MIN_PROTOCOL_VERSION)%Z then
                   take _ <- m_send_error (e_alloc e)
                               (Some (snprintf ERROR_SIZE (B "Minimum supported protocol version is " ++
                                                           print_dec MIN_PROTOCOL_VERSION))) ;
                   tret q
                 else tret q
             | P_TOOLS =>
                 if cmd_id_eqb (c_id c) C_TOOLS then tret q
                 else m_lib cfg e s' q (c_length c) data dptr
             | P_LIB => m_lib cfg e s' q (c_length c) data dptr
             | P_LICENSE =>
                 if cmd_id_eqb (c_id c) C_FEATURE then m_feature e s' q data dptr
                 else if cmd_id_eqb (c_id c) C_RETURNFEATURE then m_returnfeature e s' q data dptr
                 else if cmd_id_eqb (c_id c) C_LICENSE then tret q
                 else if cmd_id_eqb (c_id c) C_RETURNLICENSE then tret q
                 else m_file e s' q (c_length c) data dptr
             end ;
  take _ <- release dptr ;
  tret q1.

(** The body of the loop for a message, lve/mlle_lve.c:191-220, and
    mlle_lve_handle_command, 59-78. *)
Definition m_step {D} (cfg : config) (e : env D) (s : lve D) (q : ptrs) (msg : res)
  (record : bytes) : T ptrs :=
  take token <- malloc (e_alloc e (zlen record + 1)%Z) ;
  take _ <- touch (Some msg) ;
  take _ <- touch token ;
  let '(g, c, m) := parse_command ERROR_SIZE (cstr record) in
  let s0 := match m with Some t => set_buf s t | None => s end in
  take _ <- release token ;
  take q1 <- match g with
             | VALID_GRAMMAR =>
                 match next_phase (s_phase s0) (c_id c) with
                 | None =>
                     take _ <- m_send_error (e_alloc e)
                                 (match invalid_text ERROR_SIZE (s_phase s0) (c_id c) with Ok t => Some t | _ => None end) ;
                     tret q
                 | Some p' => m_dispatch cfg e s0 q p' c msg record
                 end
             | UNKNOWN_ERROR =>
                 take _ <- m_send_error (e_alloc e) (Some (B "Internal error in parsing.")) ; tret q
             | _ => take _ <- m_send_error (e_alloc e) (Some (s_buf s0)) ; tret q
             end ;
  take _ <- release (Some msg) ;
  tret q1.

(** ** A session *)

(** One round of the loop: what the world looks like, what SSL_read delivers, and whether
    SSL_get_shutdown reports something afterwards (lve/mlle_lve.c:180-234). *)
Record round (D : Type) := { r_env : env D; r_reads : list rev_ev; r_shutdown : bool }.
Arguments r_env {D}. Arguments r_reads {D}. Arguments r_shutdown {D}.

(** The loop of mlle_lve_receive, lve/mlle_lve.c:178-234: it ends with a failed read.  A
    message on which lve_step crashes ends it, too. *)
Fixpoint m_loop {D} (cfg : config) (s : lve D) (q : ptrs) (rs : list (round D)) : T ptrs :=
  match rs with
  | [] => tret q
  | r :: l =>
      take msg <- m_ssl_read (e_alloc (r_env r)) 0 None (r_reads r) ;
      match ssl_read_message (e_alloc (r_env r)) (r_reads r), msg with
      | Ok (MsgOk record, _, _), Some p =>
          match lve_step cfg (r_env r) s record with
          | (_, Ok s1) =>
              take q1 <- m_step cfg (r_env r) s q p record ;
              if r_shutdown r then tret q1 else m_loop cfg s1 q1 l
          | _ => tret q
          end
      | _, _ => tret q
      end
  end.

(** mlle_lve_receive, lve/mlle_lve.c:162-237; mlle_lve_validate_pubkey allocates nothing. *)
Definition m_session {D} (cfg : config) (key : option bytes) (rs : list (round D)) : T ptrs :=
  match validate_pubkey cfg key (@fresh D) with
  | (_, Ok s) => m_loop cfg s (with_err no_ptrs (match s_errmsg s with Some _ => Literal | None => NoText end)) rs
  | _ => tret no_ptrs
  end.

(** mlle_lve_shutdown, lve/mlle_lve.c:246-263, without TLS.  mlle_license_free releases
    the licence manager. *)
Definition m_shutdown (q : ptrs) : T unit :=
  take _ <- release (q_lic q) ;
  release (q_lib q).

(** What a whole session does. *)
Definition session_memory {D} (cfg : config) (key : option bytes) (rs : list (round D)) : list mem :=
  let '(t, _, _) := m_session cfg key rs 0 in t.
Definition process_memory {D} (cfg : config) (key : option bytes) (rs : list (round D)) : list mem :=
  let '(t, _, _) := (take q <- m_session cfg key rs ; m_shutdown q) 0 in t.
