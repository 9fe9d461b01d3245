(** Model of the library vendor executable (LVE): state table, command handlers and
    receive loop.  /repo/src/lve/mlle_protocol_lve_state.c, mlle_lve.c,
    mlle_lve_libpath.c, mlle_lve_file.c, mlle_lve_feature.c, mlle_lve_license.c,
    mlle_lve_tools.c, mlle_lve_pubkey.c; /repo/src/common/mlle_io.c:58-171. *)
From Verif Require Import Base ParseModel WireModel.

(** ** Observable effects *)

(** What the LVE does that somebody else can observe: it takes a record from the
    tool, hands a message to ssl_write_message, opens a file, or calls the licence
    manager (license_managers/include/mlle_license_manager.h). *)
Inductive event :=
| Recv (record : bytes)
| Reply (message : bytes)
| ReadFile (path : bytes)
| LicNew (libpath : option bytes) (ok : bool)
| Checkout (feature : bytes) (ok : bool)
| Checkin (feature : bytes) (ok : bool).

(** A C function run with its effects up to its end (normal or not). *)
Definition M (A : Type) : Type := (list event * outcome A)%type.
(** Return without effects. *)
Definition ret {A} (a : A) : M A := ([], Ok a).
(** Undefined behaviour from here on. *)
Definition crash {A} (r : ub) : M A := ([], UB r).
(** One observable effect. *)
Definition emit (e : event) : M unit := ([e], Ok tt).
(** Sequencing of C statements; effects before a crash are kept. *)
Definition mbind {A C} (m : M A) (f : A -> M C) : M C :=
  match m with
  | (es, Ok a) => let '(es', o) := f a in (es ++ es', o)
  | (es, UB r) => (es, UB r)
  | (es, Blocked) => (es, Blocked)
  end.
Notation "'run' x <- o ; f" := (mbind o (fun x => f))
  (at level 200, x pattern, o at level 100, f at level 200).
(** Pure computations inside. *)
Definition lift {A} (o : outcome A) : M A := ([], o).
(** Hand the messages produced by a send function to TLS; the result of
    ssl_write_message is ignored by every caller in lve/. *)
Definition reply (o : outcome (list bytes)) : M unit :=
  match o with
  | Ok ms => (map Reply ms, Ok tt)
  | UB r => ([], UB r)
  | Blocked => ([], Blocked)
  end.

(** ** Environment *)

(** Answer of a licence manager call: success, or failure with the message of the
    error object ([None]: no error object was made). *)
Inductive lic_res := Granted | Refused (text : option bytes).
Definition lic_ok (r : lic_res) : bool := match r with Granted => true | Refused _ => false end.

(** stat(2) on the library path, lve/mlle_lve_libpath.c:141-159. *)
Inductive stat_res := StatFails | StatFile | StatDir.

(** What fopen, stat and fread deliver for a path, common/mlle_io.c:76-168.
    [size] is st_size, [avail] what can be read, [err] a read error with its text. *)
Inductive file_view :=
| NoOpen (strerror : bytes)
| NoStat (strerror : bytes)
| Content (size : Z) (avail : bytes) (err : option bytes).

(** Everything the LVE asks while it handles one record.  [D] is the type of
    decryption contexts (mlle_cr_context, decryptors/include/mlle_cr_decrypt.h). *)
Record env (D : Type) := {
  e_alloc : alloc;
  e_cr_create : bytes -> option D;
  e_decrypt : option D -> bytes -> bytes -> outcome (option D * option bytes);
  e_lic_new : option bytes -> lic_res;
  e_checkout : bytes -> lic_res;
  e_checkin : bytes -> lic_res;
  e_stat : bytes -> stat_res;
  e_file : bytes -> file_view }.
Arguments e_alloc {D}. Arguments e_cr_create {D}. Arguments e_decrypt {D}.
Arguments e_lic_new {D}. Arguments e_checkout {D}. Arguments e_checkin {D}.
Arguments e_stat {D}. Arguments e_file {D}.

(** Compiled-in configuration: PUBLIC_KEY_TOOL (generated header used in
    lve/mlle_lve_pubkey.c:73) and MLLE_GLOBAL_LICENSE_FEATURE
    (lve/mlle_lve_libpath.c:95). *)
Record config := { cfg_keys : list bytes; cfg_global : option bytes }.

(** ** State *)

(** enum mlle_lve_state without INVALID and SIZE, lve/mlle_protocol_lve_state.h. *)
Inductive phase := P_VERSION | P_TOOLS | P_LIB | P_LICENSE.
Definition all_phases : list phase := [P_VERSION; P_TOOLS; P_LIB; P_LICENSE].

(** struct mlle_lve_ctx (lve/mlle_lve.h:44-55) and the locals `state` and
    `error_msg` of mlle_lve_receive (lve/mlle_lve.c:164,168).  [s_lib] holds the
    path_size bytes of libpath. [s_lic]: lic_mgr is not NULL. *)
Record lve (D : Type) := {
  s_phase : phase;
  s_lib : option bytes;
  s_approved : bool;
  s_err : Z;
  s_errmsg : option bytes;
  s_lic : bool;
  s_cr : option D;
  s_buf : bytes }.
Arguments s_phase {D}. Arguments s_lib {D}. Arguments s_approved {D}. Arguments s_err {D}.
Arguments s_errmsg {D}. Arguments s_lic {D}. Arguments s_cr {D}. Arguments s_buf {D}.

(** Assignments to one or two fields of the structure. *)
Definition set_phase {D} (s : lve D) (x : phase) : lve D :=
  {| s_phase := x; s_lib := s_lib s; s_approved := s_approved s; s_err := s_err s;
     s_errmsg := s_errmsg s; s_lic := s_lic s; s_cr := s_cr s; s_buf := s_buf s |}.
Definition set_lib {D} (s : lve D) (x : option bytes) : lve D :=
  {| s_phase := s_phase s; s_lib := x; s_approved := s_approved s; s_err := s_err s;
     s_errmsg := s_errmsg s; s_lic := s_lic s; s_cr := s_cr s; s_buf := s_buf s |}.
Definition set_approved {D} (s : lve D) (x : bool) : lve D :=
  {| s_phase := s_phase s; s_lib := s_lib s; s_approved := x; s_err := s_err s;
     s_errmsg := s_errmsg s; s_lic := s_lic s; s_cr := s_cr s; s_buf := s_buf s |}.
Definition set_error {D} (s : lve D) (code : Z) (m : option bytes) : lve D :=
  {| s_phase := s_phase s; s_lib := s_lib s; s_approved := s_approved s; s_err := code;
     s_errmsg := m; s_lic := s_lic s; s_cr := s_cr s; s_buf := s_buf s |}.
Definition set_lic {D} (s : lve D) (x : bool) : lve D :=
  {| s_phase := s_phase s; s_lib := s_lib s; s_approved := s_approved s; s_err := s_err s;
     s_errmsg := s_errmsg s; s_lic := x; s_cr := s_cr s; s_buf := s_buf s |}.
Definition set_cr {D} (s : lve D) (x : option D) : lve D :=
  {| s_phase := s_phase s; s_lib := s_lib s; s_approved := s_approved s; s_err := s_err s;
     s_errmsg := s_errmsg s; s_lic := s_lic s; s_cr := x; s_buf := s_buf s |}.
Definition set_buf {D} (s : lve D) (x : bytes) : lve D :=
  {| s_phase := s_phase s; s_lib := s_lib s; s_approved := s_approved s; s_err := s_err s;
     s_errmsg := s_errmsg s; s_lic := s_lic s; s_cr := s_cr s; s_buf := x |}.

(** enum mlle_protocol_error_id, common/mlle_protocol.h:66-80. *)
Definition ERR_UNDEFINED : Z := 0.
Definition ERR_NOT_UNDERSTOOD : Z := 1.
Definition ERR_VERSION_TOO_LOW : Z := 2.
Definition ERR_FILE_NOT_FOUND : Z := 4.
Definition ERR_TOOL_NOT_ALLOWED : Z := 5.
Definition ERR_FILE_IO : Z := 6.
Definition ERR_LICENSE : Z := 7.
Definition ERR_OTHER : Z := 8.
Definition ERR_SSL : Z := 9.

(** ** State table *)

(** mlle_lve_valid_command_for_state, lve/mlle_protocol_lve_state.c:29-47; [None] is
    MLLE_LVE_STATE_INVALID. *)
Definition next_phase (p : phase) (id : cmd_id) : option phase :=
  match id, p with
  | C_TOOLS, P_TOOLS => Some P_LIB
  | C_VERSION, P_VERSION => Some P_TOOLS
  | C_FEATURE, P_LICENSE => Some P_LICENSE
  | C_FILE, P_LICENSE => Some P_LICENSE
  | C_LIB, P_TOOLS => Some P_LICENSE
  | C_LIB, P_LIB => Some P_LICENSE
  | C_LICENSE, P_LICENSE => Some P_LICENSE
  | C_RETURNFEATURE, P_LICENSE => Some P_LICENSE
  | C_RETURNLICENSE, P_LICENSE => Some P_LICENSE
  | _, _ => None
  end.
Definition is_some {A} (o : option A) : bool := match o with Some _ => true | None => false end.

(** The commands of the table after MLLE_PROTOCOL_UNDEFINED_CMD in enum order
    (common/mlle_protocol.h:45-64). *)
Definition all_cmds : list cmd_id :=
  [C_NOTSIMPLE; C_TOOLS; C_YES; C_VERSION; C_FEATURE; C_FILE; C_FILECONT; C_LIB; C_LICENSE;
   C_NO; C_RETURNFEATURE; C_RETURNLICENSE; C_TOOLLIST; C_ERROR].

(** VALID_COMMANDS_LEN, lve/mlle_protocol_lve_state.c:49: MLLE_PROTOCOL_COMMAND_ID_SIZE
    is 15, MLLE_PROTOCOL_MAX_CMD_LENGTH is 17. *)
Definition VALID_COMMANDS_LEN : nat := 15 * (17 + 2).

(** The loop that lists the valid commands, lve/mlle_protocol_lve_state.c:78-84.  [acc]
    is the text so far; `i` is its length.  snprintf is called with the buffer
    address buffer+i and size LEN - i; the pointer would be out of bounds (and
    the size wrap around) if i exceeded LEN.  In the code a piece that does not fit is cut
    while i advances by its full length; here a piece that does not fit is already
    reported as undefined behaviour, which is stricter. *)
Fixpoint list_valid (p : phase) (cmds : list cmd_id) (n : nat) (acc : bytes) : outcome (nat * bytes) :=
  match cmds with
  | [] => Ok (n, acc)
  | c :: r =>
      if is_some (next_phase p c) then
        if VALID_COMMANDS_LEN <? length acc then UB OobWrite
        else
          let piece := (if 0 <? n then B ", " else []) ++ cmd_name c in
          if VALID_COMMANDS_LEN - length acc <=? length piece then UB OobWrite
          else list_valid p r (S n) (acc ++ piece)
      else list_valid p r n acc
  end.

(** The text for a command that is not allowed, lve/mlle_protocol_lve_state.c:63-95. *)
Definition invalid_text (size : nat) (p : phase) (id : cmd_id) : outcome bytes :=
  if existsb (fun q => is_some (next_phase q id)) all_phases then
    do (n, valid) <- list_valid p all_cmds 0 [] ;
    Ok (snprintf size (B "Protocol error: Command " ++ cmd_name id ++
                       B " is not valid in this state, expected command " ++
                       (if 1 <? n then B "is one of " else []) ++ valid ++ B "."))
  else
    Ok (snprintf size (B "Protocol error: Command " ++ cmd_name id ++
                       B " can't be sent to the library vendor executable.")).

(** ** Reading a file *)

(** DEFAULT_MSG_SIZE, common/mlle_error.c:31: texts of error objects made with a
    format string are cut to 2047 characters (common/mlle_error.c:80-82). *)
Definition DEFAULT_MSG_SIZE : nat := 2048.

(** mlle_io_read_file, common/mlle_io.c:58-171, Linux branch.  Left: the error
    message.  Simplified: the allocations of the error object itself (common/
    mlle_error.c:71-80) succeed. *)
Definition read_file {D} (e : env D) (path : bytes) : M (bytes + bytes) :=
  run _ <- emit (ReadFile path) ;
  let err t := inl (snprintf DEFAULT_MSG_SIZE t) in
  match e_file e path with
  | NoOpen t => ret (err (B "Couldn't open file " ++ path ++ B ". The error message was: " ++ t))
  | NoStat t => ret (err (B "Couldn't find file size for " ++ path ++ B ". The error message was: " ++ t))
  | Content size avail ferr =>
      if e_alloc e (size + 1)%Z then
        let got := firstn (Z.to_nat size) avail in
        match ferr with
        | Some t =>
            if (zlen got <? size)%Z then
              ret (err (B "I/O error while reading file " ++ path ++ B ". The error message was: " ++ t))
            else ret (inr got)
        | None => ret (inr got)
        end
      else ret (err (B "Couldn't allocate memory to read file: " ++ path))
  end.

(** ** Handlers *)

(** Take [n] bytes of a received payload with memcpy and look at them
    (lve/mlle_lve_libpath.c:71-76, licence manager calls): all of them must have
    been written. *)
Definition payload_bytes (p : payload) : outcome bytes :=
  if (zlen (p_bytes p) <? p_len p)%Z then UB UninitRead else Ok (p_bytes p).

(** Removal of trailing slashes, lve/mlle_lve_libpath.c:75-81, on the reversed
    path: while more than one byte is left and the last one is a slash. *)
Fixpoint trim_rev (r : bytes) : bytes :=
  match r with
  | x :: ((_ :: _) as r') =>
      if Ascii.eqb x BSLASH || Ascii.eqb x SLASH then trim_rev r' else r
  | _ => r
  end.
Definition trim (path : bytes) : bytes := rev (trim_rev (rev path)).

(** mlle_lve_setup_licensing, lve/mlle_lve_feature.c:29-37.  The result is the
    refusal, if any. *)
Definition setup_licensing {D} (e : env D) (s : lve D) : M (lve D * option (option bytes)) :=
  if s_lic s then ret (s, None)
  else
    let path := match s_lib s with Some l => Some (cstr l) | None => None end in
    let r := e_lic_new e path in
    run _ <- emit (LicNew path (lic_ok r)) ;
    match r with
    | Granted => ret (set_lic s true, None)
    | Refused t => ret (s, Some t)
    end.

(** validate_directory, lve/mlle_lve_libpath.c:141-159. *)
Definition validate_directory {D} (e : env D) (s : lve D) (lib : bytes) : lve D * bool :=
  match e_stat e (cstr lib) with
  | StatFails => (set_error s ERR_FILE_NOT_FOUND (Some (B "Library path does not exist.")), false)
  | StatFile => (set_error s ERR_FILE_NOT_FOUND (Some (B "Library path is not a directory.")), false)
  | StatDir => (s, true)
  end.

(** The part of mlle_lve_libpath under MLLE_GLOBAL_LICENSE_FEATURE,
    lve/mlle_lve_libpath.c:95-118; [None] when not compiled in.  The boolean says
    whether to go on.  [quiet] is is_in_checkout_feature_without_tool_mode. *)
Definition global_licence {D} (cfg : config) (e : env D) (quiet : bool) (s : lve D)
  : M (lve D * bool) :=
  match cfg_global cfg with
  | None => ret (s, true)
  | Some feature =>
      if s_approved s then
        run (s1, refused) <- setup_licensing e s ;
        run refused' <- match refused with
                        | Some t => ret (Some t)
                        | None =>
                            let r := e_checkout e feature in
                            run _ <- emit (Checkout feature (lic_ok r)) ;
                            ret (match r with Granted => None | Refused t => Some t end)
                        end ;
        match refused' with
        | None => ret (s1, true)
        | Some None => crash NullDeref
        | Some (Some t) =>
            let dup := if e_alloc e (zlen t + 1)%Z then Some t else None in
            let s2 := set_approved (set_error s1 ERR_LICENSE dup) false in
            run _ <- (if quiet then ret tt else reply (send_error (e_alloc e) ERR_LICENSE dup)) ;
            ret (s2, false)
        end
      else ret (s, true)
  end.

(** mlle_lve_libpath, lve/mlle_lve_libpath.c:56-129.  A failed malloc of the path is
    not checked. *)
Definition handle_lib {D} (cfg : config) (e : env D) (quiet : bool) (s : lve D)
  (len : Z) (data : option payload) : M (lve D * bool) :=
  let missing := ret (set_error s ERR_FILE_NOT_FOUND (Some (B "Path to library is missing.")), false) in
  match data with
  | None => missing
  | Some p =>
      if (len =? 0)%Z then missing
      else if negb (e_alloc e (len + 1)%Z) then crash NullDeref
      else
        run raw <- lift (payload_bytes p) ;
        let lib := trim raw in
        let s1 := set_lib s (Some lib) in
        match e_cr_create e (cstr lib) with
        | None =>
            ret (set_error (set_cr s1 None) ERR_OTHER
                   (Some (B "Failed to allocate memory for decryption context.")), false)
        | Some d =>
            let s2 := set_cr s1 (Some d) in
            run (s3, go) <- global_licence cfg e quiet s2 ;
            if go then
              run _ <- (if quiet then ret tt else reply (Ok [send_simple C_YES])) ;
              ret (validate_directory e s3 lib)
            else ret (s3, false)
        end
  end.

(** mlle_lve_setup_licensing_check_error, lve/mlle_lve_feature.c:39-52. *)
Definition setup_check {D} (e : env D) (s : lve D) : M (lve D * bool) :=
  run (s1, refused) <- setup_licensing e s ;
  match refused with
  | None => ret (s1, true)
  | Some None => crash NullDeref
  | Some (Some t) =>
      run _ <- reply (send_error (e_alloc e) ERR_LICENSE (Some t)) ;
      ret (s1, false)
  end.

(** The feature name handed to the licence manager: a pointer and a length
    (lve/mlle_lve_feature.c:66,96).  The manager reads that many bytes; NULL is
    counted as undefined behaviour (testingdummy calls strcmp on it). *)
Definition feature_name (data : option payload) : outcome bytes :=
  match data with
  | None => UB NullDeref
  | Some p => payload_bytes p
  end.

(** mlle_lve_feature, lve/mlle_lve_feature.c:54-82. *)
Definition handle_feature {D} (e : env D) (quiet : bool) (s : lve D) (data : option payload)
  : M (lve D * bool) :=
  run (s1, ok) <- setup_check e s ;
  if ok then
    run name <- lift (feature_name data) ;
    let r := e_checkout e name in
    run _ <- emit (Checkout name (lic_ok r)) ;
    match r with
    | Granted =>
        run _ <- (if quiet then ret tt else reply (Ok [send_simple C_YES])) ;
        ret (s1, true)
    | Refused t =>
        if quiet then ret (s1, false)
        else
          match t with
          | None => crash NullDeref
          | Some m =>
              run _ <- reply (send_string (e_alloc e) C_NO m) ;
              ret (s1, false)
          end
    end
  else ret (s1, false).

(** mlle_lve_returnfeature, lve/mlle_lve_feature.c:84-106. *)
Definition handle_returnfeature {D} (e : env D) (s : lve D) (data : option payload) : M (lve D) :=
  run (s1, ok) <- setup_check e s ;
  if ok then
    run name <- lift (feature_name data) ;
    let r := e_checkin e name in
    run _ <- emit (Checkin name (lic_ok r)) ;
    match r with
    | Granted =>
        run _ <- reply (Ok [send_simple C_YES]) ;
        ret s1
    | Refused t =>
        match t with
        | None => crash NullDeref
        | Some m =>
            run _ <- reply (send_error (e_alloc e) ERR_LICENSE (Some m)) ;
            ret s1
        end
    end
  else ret s1.

(** mlle_lve_license and mlle_lve_returnlicense, lve/mlle_lve_license.c:30-45. *)
Definition handle_license {D} (s : lve D) : M (lve D) :=
  run _ <- reply (Ok [send_simple C_NOTSIMPLE]) ; ret s.
Definition handle_returnlicense {D} (s : lve D) : M (lve D) :=
  run _ <- reply (Ok [send_simple C_NOTSIMPLE]) ; ret s.

(** mlle_lve_tools, lve/mlle_lve_tools.c:24-32. *)
Definition handle_tools {D} (s : lve D) : M (lve D) :=
  run _ <- reply (Ok [send_number C_VERSION 4]) ; ret s.

(** Text after the last dot, lve/mlle_lve_file.c:66-68. *)
Definition extension (path : bytes) : option bytes :=
  match rfind_byte DOT path with
  | Some i => Some (skipn (S i) path)
  | None => None
  end.

(** MLLE_ENCRYPTED_MODELICA_FILE_EXTENSION, lve/mlle_lve_config.h; test in
    lve/mlle_lve_file.c:71-72. *)
Definition is_moc (path : bytes) : bool :=
  match extension path with
  | Some x => caseeq x (B "moc")
  | None => false
  end.

(** snprintf into a buffer whose size is a run-time value. *)
Definition zsnprintf (size : Z) (s : bytes) : bytes := firstn (Z.to_nat (size - 1)) s.

(** malloc(100 + path_size) and snprintf of an error text; [None] is NULL and means
    that no error is sent (lve/mlle_lve_file.c:77-80,88-91,110). *)
Definition file_error {D} (e : env D) (code : Z) (size : Z) (text : bytes) : M unit :=
  if e_alloc e (100 + size)%Z
  then reply (send_error (e_alloc e) code (Some (zsnprintf (100 + size) text)))
  else ret tt.

(** mlle_lve_file, lve/mlle_lve_file.c:27-122. *)
Definition handle_file {D} (e : env D) (s : lve D) (len : Z) (data : option payload) : M (lve D) :=
  if negb (s_approved s) then
    match s_errmsg s with
    | None => ret s
    | Some m => run _ <- reply (send_error (e_alloc e) (s_err s) (Some m)) ; ret s
    end
  else
    let size := ((match s_lib s with Some l => zlen l | None => 0 end) + len + 2)%Z in
    if negb (e_alloc e size) then
      run _ <- reply (send_error (e_alloc e) ERR_OTHER (Some (B "Couldn't allocate memory"))) ; ret s
    else
      match s_lib s, data with
      | Some lib, Some p =>
          run rel <- lift (payload_str p) ;
          let path := zsnprintf size (cstr lib ++ [SLASH] ++ rel) in
          run content <- read_file e path ;
          match content with
          | inl m => run _ <- reply (send_error (e_alloc e) ERR_FILE_IO (Some m)) ; ret s
          | inr file =>
              if is_moc rel then
                if negb (e_alloc e (zlen file + 1)%Z) then
                  run _ <- file_error e ERR_OTHER size
                             (B "Could not allocate memory to decrypt file " ++ path ++ B ".") ;
                  ret s
                else
                  run (cr, plain) <- lift (e_decrypt e (s_cr s) rel file) ;
                  let s1 := set_cr s cr in
                  match plain with
                  | None =>
                      run _ <- file_error e ERR_OTHER size
                                 (B "Failed to decrypt file " ++ path ++ B ", might be corrupted.") ;
                      ret s1
                  | Some d => run _ <- reply (send_length (e_alloc e) C_FILECONT d) ; ret s1
                  end
              else
                run _ <- reply (send_length (e_alloc e) C_FILECONT file) ; ret s
          end
      | _, _ => crash NullDeref
      end.

(** ** Command dispatch *)

(** MIN_PROTOCOL_VERSION and MAX_PROTOCOL_VERSION, lve/mlle_lve.h:41-42. *)
Definition MIN_PROTOCOL_VERSION : Z := 1.
Definition MAX_PROTOCOL_VERSION : Z := 1.

(** Case MLLE_LVE_STATE_VERSION, lve/mlle_lve.c:93-109.  [s] already has the next
    phase. *)
Definition handle_version {D} (e : env D) (s : lve D) (number : Z) : M (lve D) :=
  if (number <? MIN_PROTOCOL_VERSION)%Z then
    let text := snprintf ERROR_SIZE (B "Minimum supported protocol version is " ++
                                     print_dec MIN_PROTOCOL_VERSION) in
    run _ <- reply (send_error (e_alloc e) ERR_VERSION_TOO_LOW (Some text)) ;
    ret (set_phase (set_buf s text) P_VERSION)
  else
    run _ <- reply (Ok [send_number C_VERSION MAX_PROTOCOL_VERSION]) ;
    ret s.

(** The second half of mlle_lve_handle_command, lve/mlle_lve.c:79-150: the payload is
    extracted and the handler for the current state is called. *)
Definition dispatch {D} (cfg : config) (e : env D) (s : lve D) (p' : phase) (c : command)
  (record : bytes) : M (lve D) :=
  run data <- match form_of (c_id c) with
              | F_LENGTH => lift (do (d, _) <- extract_data (e_alloc e) (c_length c) record ; Ok d)
              | _ => ret None
              end ;
  let s' := set_phase s p' in
  match s_phase s with
  | P_VERSION => handle_version e s' (c_number c)
  | P_TOOLS =>
      if cmd_id_eqb (c_id c) C_TOOLS then handle_tools s'
      else run (s1, _) <- handle_lib cfg e false s' (c_length c) data ; ret s1
  | P_LIB => run (s1, _) <- handle_lib cfg e false s' (c_length c) data ; ret s1
  | P_LICENSE =>
      if cmd_id_eqb (c_id c) C_FEATURE then
        run (s1, _) <- handle_feature e false s' data ; ret s1
      else if cmd_id_eqb (c_id c) C_RETURNFEATURE then handle_returnfeature e s' data
      else if cmd_id_eqb (c_id c) C_LICENSE then handle_license s'
      else if cmd_id_eqb (c_id c) C_RETURNLICENSE then handle_returnlicense s'
      else handle_file e s' (c_length c) data
  end.

(** mlle_lve_handle_command, lve/mlle_lve.c:59-150. *)
Definition handle_command {D} (cfg : config) (e : env D) (s : lve D) (c : command)
  (record : bytes) : M (lve D) :=
  match next_phase (s_phase s) (c_id c) with
  | None =>
      run text <- lift (invalid_text ERROR_SIZE (s_phase s) (c_id c)) ;
      run _ <- reply (send_error (e_alloc e) ERR_NOT_UNDERSTOOD (Some text)) ;
      ret (set_buf s text)
  | Some p' => dispatch cfg e s p' c record
  end.

(** ** Receive loop *)

(** One round of the loop in mlle_lve_receive, lve/mlle_lve.c:191-217, for one record
    returned by ssl_read_message.  malloc of the token buffer is not checked.  The
    error buffer keeps its old text when the parser does not write to it. *)
Definition lve_step {D} (cfg : config) (e : env D) (s : lve D) (record : bytes) : M (lve D) :=
  run _ <- emit (Recv record) ;
  if negb (e_alloc e (zlen record + 1)%Z) then crash NullDeref
  else
    let '(g, c, m) := parse_command ERROR_SIZE (cstr record) in
    let s0 := match m with Some t => set_buf s t | None => s end in
    match g with
    | VALID_GRAMMAR => handle_command cfg e s0 c record
    | UNKNOWN_ERROR =>
        run _ <- reply (send_error (e_alloc e) ERR_NOT_UNDERSTOOD (Some (B "Internal error in parsing."))) ;
        ret s0
    | _ =>
        run _ <- reply (send_error (e_alloc e) ERR_NOT_UNDERSTOOD (Some (s_buf s0))) ;
        ret s0
    end.

(** validate, lve/mlle_lve_pubkey.c:66-90; [None]: global_tool_pub_key is NULL. *)
Fixpoint validate (key : option bytes) (keys : list bytes) : outcome bool :=
  match keys with
  | [] => Ok false
  | k :: r =>
      match key with
      | None => UB NullDeref
      | Some t => if beq t k then Ok true else validate key r
      end
  end.

(** struct mlle_lve_ctx as initialised in main (lve/lve.c:218-219) and the locals of
    mlle_lve_receive. *)
Definition fresh {D} : lve D :=
  {| s_phase := P_VERSION; s_lib := None; s_approved := false; s_err := 0; s_errmsg := None;
     s_lic := false; s_cr := None; s_buf := [] |}.

(** mlle_lve_validate_pubkey, lve/mlle_lve_pubkey.c:40-55, called at the start of
    mlle_lve_receive (lve/mlle_lve.c:175). *)
Definition validate_pubkey {D} (cfg : config) (key : option bytes) (s : lve D) : M (lve D) :=
  run ok <- lift (validate key (cfg_keys cfg)) ;
  if ok then ret (set_approved s true)
  else ret (set_approved (set_error s ERR_TOOL_NOT_ALLOWED (Some (B "Not a valid tool"))) false).

(** One successful read: what the world looks like, the record, and whether
    SSL_get_shutdown reports something afterwards (lve/mlle_lve.c:224). *)
Record turn (D : Type) := { t_env : env D; t_record : bytes; t_shutdown : bool }.
Arguments t_env {D}. Arguments t_record {D}. Arguments t_shutdown {D}.

(** The loop, lve/mlle_lve.c:180-234; the end of the list is a failed read. *)
Fixpoint lve_loop {D} (cfg : config) (s : lve D) (ts : list (turn D)) : M (lve D) :=
  match ts with
  | [] => ret s
  | t :: r =>
      run s1 <- lve_step cfg (t_env t) s (t_record t) ;
      if t_shutdown t then ret s1 else lve_loop cfg s1 r
  end.

(** mlle_lve_receive, lve/mlle_lve.c:162-237: a whole session. *)
Definition session {D} (cfg : config) (key : option bytes) (ts : list (turn D)) : M (lve D) :=
  run s <- validate_pubkey cfg key fresh ;
  lve_loop cfg s ts.
