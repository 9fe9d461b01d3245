(** Model of message sending and receiving on top of TLS records:
    /repo/src/common/mlle_io.c:173-295 (send), /repo/src/common/mlle_utils.c:42-172
    (split a record into header and payload, read a whole command). *)
From Verif Require Import Base ParseModel.

(** Buffer sizes, common/mlle_io.h:39-43. *)
Definition SIMPLE_FORM_BUFFER_SIZE : nat := 20.
Definition NUMBER_FORM_BUFFER_SIZE : nat := SIMPLE_FORM_BUFFER_SIZE + 1 + 20.
Definition NUMBER_AND_LENGTH_FORM_BUFFER_SIZE : nat := NUMBER_FORM_BUFFER_SIZE + 1 + 20.

(** ERROR_SIZE, common/mlle_utils.c:29 and lve/mlle_lve.h. *)
Definition ERROR_SIZE : nat := 4096.

(** SSL_RECORD_SIZE, common/mlle_utils.c:27. *)
Definition SSL_RECORD_SIZE : Z := 16400.

(** malloc as an oracle: does a request for this many bytes succeed? *)
Definition alloc := Z -> bool.

(** Length of a byte string as Z (size_t / int arithmetic is done in Z). *)
Definition zlen (s : bytes) : Z := Z.of_nat (length s).

(** ** Sending *)

(** mlle_send_simple_form, common/mlle_io.c:176-188: the message handed to
    ssl_write_message.  The name contains no NUL, so strlen(output) is the length
    of what snprintf kept. *)
Definition simple_header (id : cmd_id) : bytes := cmd_name id ++ [LF].
Definition send_simple (id : cmd_id) : bytes :=
  snprintf SIMPLE_FORM_BUFFER_SIZE (simple_header id).

(** mlle_send_number_form, common/mlle_io.c:193-207. *)
Definition number_header (id : cmd_id) (n : Z) : bytes :=
  cmd_name id ++ [SP] ++ print_dec n ++ [LF].
Definition send_number (id : cmd_id) (n : Z) : bytes :=
  snprintf NUMBER_FORM_BUFFER_SIZE (number_header id n).

(** mlle_send_length_form, common/mlle_io.c:209-240.  No message is sent when
    malloc fails.  The output buffer has NUMBER_FORM_BUFFER_SIZE + length + 1
    bytes; writing header and payload beyond it is UB (the model also counts the
    NUL that snprintf writes after the header, i.e. it is one byte stricter). *)
Definition length_header (id : cmd_id) (len : Z) : bytes :=
  cmd_name id ++ [SP] ++ print_dec len ++ [LF].
Definition send_length (al : alloc) (id : cmd_id) (data : bytes) : outcome (list bytes) :=
  let size := (Z.of_nat NUMBER_FORM_BUFFER_SIZE + zlen data + 1)%Z in
  if al size then
    let h := length_header id (zlen data) in
    if (size <=? zlen h + zlen data)%Z then UB OobWrite else Ok [h ++ data]
  else Ok [].

(** mlle_send_string, common/mlle_io.c:242-248; [s] is the C string. *)
Definition send_string (al : alloc) (id : cmd_id) (s : bytes) : outcome (list bytes) :=
  send_length al id s.

(** mlle_send_number_and_length_form, common/mlle_io.c:250-283. *)
Definition number_and_length_header (id : cmd_id) (n len : Z) : bytes :=
  cmd_name id ++ [SP] ++ print_dec n ++ [SP] ++ print_dec len ++ [LF].
Definition send_number_and_length (al : alloc) (id : cmd_id) (n : Z) (data : bytes)
  : outcome (list bytes) :=
  let size := (Z.of_nat NUMBER_AND_LENGTH_FORM_BUFFER_SIZE + zlen data + 1)%Z in
  if al size then
    let h := number_and_length_header id n (zlen data) in
    if (size <=? zlen h + zlen data)%Z then UB OobWrite else Ok [h ++ data]
  else Ok [].

(** mlle_send_error, common/mlle_io.c:285-295.  strlen is called before the NULL
    test, so a NULL text is UB. *)
Definition send_error (al : alloc) (code : Z) (msg : option bytes) : outcome (list bytes) :=
  match msg with
  | None => UB NullDeref
  | Some m => send_number_and_length al C_ERROR code m
  end.

(** ** Receiving *)

(** The payload buffer of a command (struct mlle_command.data): [length]+1 bytes
    from malloc of which the first ones were written ([p_bytes]), and the byte at
    index [length] ([p_term]). *)
Record payload := { p_len : Z; p_bytes : bytes; p_term : byte }.

(** Using the payload as a C string ("%s", strlen, strrchr ...). *)
Definition payload_str (p : payload) : outcome bytes :=
  if has_byte NUL (p_bytes p) then Ok (cstr (p_bytes p))
  else if (zlen (p_bytes p) <? p_len p)%Z then UB UninitRead
  else if Ascii.eqb (p_term p) NUL then Ok (p_bytes p) else UB OobRead.

(** strstr(buffer, "\n") on a heap block that holds exactly [s] (ssl_read_message
    allocates exactly the number of bytes read and adds no NUL): found at an
    index, not found because a NUL comes first, or reads past the block.
    common/mlle_utils.c:55. *)
Inductive nl_search := NlAt (i : nat) | NlNone | NlPastEnd.
Fixpoint strstr_nl (s : bytes) : nl_search :=
  match s with
  | [] => NlPastEnd
  | x :: r => if Ascii.eqb x NUL then NlNone
              else if Ascii.eqb x LF then NlAt 0
              else match strstr_nl r with NlAt i => NlAt (S i) | o => o end
  end.

(** extract_data, common/mlle_utils.c:42-75, for a command whose data pointer is
    NULL (mlle_parse_command has just reset it).  Returns the new data pointer and
    the number of payload bytes found in the record. *)
Definition extract_data (al : alloc) (len : Z) (buffer : bytes) : outcome (option payload * Z) :=
  match strstr_nl buffer with
  | NlPastEnd => UB OobRead
  | NlNone => Ok (None, 0%Z)
  | NlAt i =>
      let data := skipn (S i) buffer in
      if al (len + 1)%Z then
        if (len + 1 <? zlen data)%Z then UB OobWrite
        else Ok (Some {| p_len := len; p_bytes := firstn (Z.to_nat len) data; p_term := NUL |},
                 zlen data)
      else Ok (None, 0%Z)
  end.

(** What one call of ssl_read_message yields: a record, or -1 with an error text
    (common/mlle_ssl.c:309-410; see SslModel for the call itself). *)
Inductive rd := RMsg (b : bytes) | RErr (text : bytes).

(** Result of mlle_read_command: failure with the error text that was set, or
    success (return 1) with the command, its data pointer, and an error text if
    one was set nevertheless. *)
Inductive read_res :=
| ReadFail (msg : bytes)
| ReadOk (c : command) (p : option payload) (err : option bytes).

(** Does this form carry a payload (common/mlle_utils.c:146-147)? *)
Definition form_of (id : cmd_id) : msg_form :=
  match find (fun e => cmd_id_eqb (fst (fst e)) id) command_info with
  | Some (_, f, _) => f
  | None => F_UNDEFINED
  end.
Definition has_payload (id : cmd_id) : bool :=
  match form_of id with F_LENGTH | F_NUMBER_AND_LENGTH => true | _ => false end.

(** memcpy(data + off, b, |b|) into a payload buffer of len+1 bytes whose first
    [off] bytes are written (common/mlle_utils.c:167). *)
Definition append (p : payload) (total : Z) (b : bytes) : outcome payload :=
  if (p_len p + 1 <? total + zlen b)%Z then UB OobWrite
  else
    let all := p_bytes p ++ b in
    Ok {| p_len := p_len p;
          p_bytes := firstn (Z.to_nat (p_len p)) all;
          p_term := nth (Z.to_nat (p_len p)) all (p_term p) |}.

(** The loop reading the rest of the payload, common/mlle_utils.c:161-169.  A failed
    read is not checked: memcpy is called with size (size_t)-1.  A NULL data
    pointer is written to. When the list of reads is exhausted the call waits. *)
Fixpoint read_rest (need : Z) (p : option payload) (total : Z) (rs : list rd)
  : outcome (option payload * list rd) :=
  if (total <? need)%Z then
    match rs with
    | [] => Blocked
    | RErr _ :: _ => UB NegativeSize
    | RMsg b :: rs' =>
        match p with
        | None => UB NullDeref
        | Some p0 => do p1 <- append p0 total b ; read_rest need (Some p1) (total + zlen b) rs'
        end
    end
  else Ok (p, rs).

(** mlle_read_command, common/mlle_utils.c:84-172 (the tool's reader).  The parser
    gets a copy of the record whose last byte is replaced by NUL.  A record has at
    least one byte (see SslModel).  Simplified: the two small fixed-size
    allocations are assumed to succeed. *)
Definition read_command (al : alloc) (rs : list rd) : outcome (read_res * list rd) :=
  match rs with
  | [] => Blocked
  | RErr text :: rs' => Ok (ReadFail text, rs')
  | RMsg b :: rs' =>
      if (SSL_RECORD_SIZE <? zlen b)%Z then Ok (ReadFail [], rs')
      else
        match parse_command ERROR_SIZE (cstr (firstn (length b - 1) b)) with
        | (VALID_GRAMMAR, c, _) =>
            if has_payload (c_id c) then
              do (p, total) <- extract_data al (c_length c) b ;
              let err := match p with None => Some (B "End Of File.") | Some _ => None end in
              do (p', rest) <- read_rest (c_length c) p total rs' ;
              Ok (ReadOk c p' err, rest)
            else
              do (p', rest) <- read_rest (c_length c) None 0%Z rs' ;
              Ok (ReadOk c p' None, rest)
        | (UNKNOWN_ERROR, _, _) => Ok (ReadFail (B "Internal error in parsing."), rs')
        | (_, _, m) => Ok (ReadFail (match m with Some t => t | None => [] end), rs')
        end
  end.
