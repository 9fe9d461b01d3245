(** C02, C03, C04, C05: theorems about sending and receiving messages. *)
From Verif Require Import Base ParseModel ParseSpec WireModel WireSpec WireProofs.

(** C02. Whatever is sent with the send functions, the tool's reader returns the same
    command, number, length and payload, however the message is cut into records
    (header line in the first one), and it consumes exactly that message. *)
Theorem C02_reader_returns_what_was_sent : forall al al' c data m first more tail,
  Sent al c data m -> CutIntoRecords m first more -> al' (zlen data + 1)%Z = true ->
  read_command al' (map RMsg (first :: more) ++ tail) =
  Ok (ReadOk c (if has_payload (c_id c) then Some (complete_payload data) else None) None, tail).
Proof. exact read_command_sent. Qed.
Print Assumptions C02_reader_returns_what_was_sent.

Example C02_ex :
  Sent (fun _ => true) {| c_id := C_FILECONT; c_number := 0; c_length := 5 |} (B "a
b d") (B "FILECONT 5
a
b d") /\
  CutIntoRecords (B "FILECONT 5
a
b d") (B "FILECONT 5
a") [B "
b"; B " d"].
Proof.
  split.
  - apply (Sent_length _ C_FILECONT (B "a
b d")); [reflexivity|vm_compute; discriminate|vm_compute; reflexivity].
  - repeat split; try (vm_compute; discriminate).
    + intros b [<-|[<-|[<-|[]]]]; discriminate.
    + apply BaseProofs.has_byte_In. vm_compute. reflexivity.
Qed.

(** C05. No header is truncated and no send function writes outside its buffer: each
    message on the wire is the complete header line followed by the payload (or
    nothing at all if malloc fails). *)
Theorem C05_simple_header : forall id, send_simple id = cmd_name id ++ [LF].
Proof. exact send_simple_eq. Qed.
Print Assumptions C05_simple_header.

Theorem C05_number_header : forall id n, (-(2^63) <= n < 2^64)%Z ->
  send_number id n = cmd_name id ++ [SP] ++ print_dec n ++ [LF].
Proof. exact send_number_eq. Qed.
Print Assumptions C05_number_header.

Theorem C05_length_message : forall al id data, (zlen data < 2^64)%Z ->
  send_length al id data =
  Ok (if al (42 + zlen data)%Z
      then [cmd_name id ++ [SP] ++ print_dec (zlen data) ++ [LF] ++ data] else []).
Proof. exact send_length_eq. Qed.
Print Assumptions C05_length_message.

Theorem C05_number_and_length_message : forall al id n data,
  (-(2^63) <= n < 2^64)%Z -> (zlen data < 2^64)%Z ->
  send_number_and_length al id n data =
  Ok (if al (63 + zlen data)%Z
      then [cmd_name id ++ [SP] ++ print_dec n ++ [SP] ++ print_dec (zlen data) ++ [LF] ++ data]
      else []).
Proof. exact send_number_and_length_eq. Qed.
Print Assumptions C05_number_and_length_message.

Example C05_ex : send_number C_RETURNFEATURE (-(2^63)) = B "RETURNFEATURE -9223372036854775808
".
Proof. vm_compute. reflexivity. Qed.

(** C03. Splitting a record into header and payload is memory safe exactly when the
    header line ends with a newline and at most one byte more than announced follows
    it, or a NUL precedes the newline. *)
Theorem C03_extract_safe_iff : forall al len b,
  (exists r, extract_data al len b = Ok r) <->
  (NulFirst b \/ exists h d, HeaderThen b h d /\ (al (len + 1)%Z = true -> (zlen d <= len + 1)%Z)).
Proof. exact extract_safe_iff. Qed.
Print Assumptions C03_extract_safe_iff.

(** C03. The tool's reader is memory safe exactly on the inputs described by
    [SafeInput]. *)
Theorem C03_reader_safe_iff : forall al rs,
  (forall r, read_command al rs <> UB r) <-> SafeInput al rs.
Proof. exact read_command_safe_iff. Qed.
Print Assumptions C03_reader_safe_iff.

(** C03 is false of the code: there are peer messages that make the reader write
    outside its buffer, read past the record, copy (size_t)-1 bytes after a failed
    read, and write through NULL. *)
Theorem C03_reader_refuted :
  read_command (fun _ => true) [RMsg (B "FILECONT 0
overflow")] = UB OobWrite /\
  read_command (fun _ => true) [RMsg (B "FILECONT 0 ")] = UB OobRead /\
  read_command (fun _ => true) [RMsg (B "FILECONT 9
"); RErr (B "closed")] = UB NegativeSize /\
  read_command (fun _ => true) [RMsg (B "FILECONT 9" ++ [NUL]); RMsg (B "abc")] = UB NullDeref.
Proof. vm_compute. repeat split. Qed.
Print Assumptions C03_reader_refuted.

(** C03. A message produced by the send functions is always safe input. *)
Theorem C03_sent_messages_are_safe : forall al al' c data m first more,
  Sent al c data m -> CutIntoRecords m first more -> al' (zlen data + 1)%Z = true ->
  SafeInput al' (map RMsg (first :: more)).
Proof. exact sent_safe. Qed.
Print Assumptions C03_sent_messages_are_safe.

(** C04 (tool side). Whenever the tool's reader returns a payload, it consists of
    exactly the announced number of bytes, all of them sent by the peer after the
    header line, in order. *)
Theorem C04_tool_payload_is_what_was_sent : forall al b rs c p err rest,
  read_command al (RMsg b :: rs) = Ok (ReadOk c (Some p) err, rest) ->
  exists h d used, HeaderThen b h d /\ rs = used ++ rest /\ p_len p = c_length c /\
    zlen (p_bytes p) = c_length c /\
    p_bytes p = firstn (Z.to_nat (c_length c)) (d ++ read_bytes used).
Proof. exact read_command_payload. Qed.
Print Assumptions C04_tool_payload_is_what_was_sent.

Example C04_ex_tool : exists p rest,
  read_command (fun _ => true) [RMsg (B "NO 6
ab"); RMsg (B "cd"); RMsg (B "ef"); RMsg (B "YES")] =
    Ok (ReadOk {| c_id := C_NO; c_number := 0; c_length := 6 |} (Some p) None, rest) /\
  p_bytes p = B "abcdef" /\ rest = [RMsg (B "YES")].
Proof. do 2 eexists. vm_compute. repeat split. Qed.
