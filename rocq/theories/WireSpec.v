(** Specification of message transport, independent of the reader. *)
From Verif Require Import Base ParseModel ParseSpec WireModel.

(** [m] is the message put on the wire by the send function that the protocol
    prescribes for command [id]; [c] and [data] are what the sender meant. *)
Inductive Sent (al : alloc) : command -> bytes -> bytes -> Prop :=
| Sent_simple id : form_of id = F_SIMPLE ->
    Sent al {| c_id := id; c_number := 0; c_length := 0 |} [] (send_simple id)
| Sent_number id n : form_of id = F_NUMBER -> (LONG_MIN <= n <= LONG_MAX)%Z ->
    Sent al {| c_id := id; c_number := n; c_length := 0 |} [] (send_number id n)
| Sent_length id data m : form_of id = F_LENGTH -> (zlen data <= LONG_MAX)%Z ->
    send_length al id data = Ok [m] ->
    Sent al {| c_id := id; c_number := 0; c_length := zlen data |} data m
| Sent_number_length id n data m : form_of id = F_NUMBER_AND_LENGTH ->
    (LONG_MIN <= n <= LONG_MAX)%Z -> (zlen data <= LONG_MAX)%Z ->
    send_number_and_length al id n data = Ok [m] ->
    Sent al {| c_id := id; c_number := n; c_length := zlen data |} data m.

(** A way to cut message [m] into TLS records: none is empty, the first one is not
    larger than the reader's limit and contains the whole header line. *)
Definition CutIntoRecords (m : bytes) (first : bytes) (more : list bytes) : Prop :=
  m = first ++ concat more /\ (forall b, In b (first :: more) -> b <> []) /\
  (zlen first <= SSL_RECORD_SIZE)%Z /\ In LF first.

(** The payload buffer the receiver must end up with. *)
Definition complete_payload (data : bytes) : payload :=
  {| p_len := zlen data; p_bytes := data; p_term := NUL |}.

(** [buf] starts with a newline-terminated header without NUL; [d] follows it. *)
Definition HeaderThen (buf h d : bytes) : Prop :=
  buf = h ++ LF :: d /\ ~ In LF h /\ ~ In NUL h.

(** [buf] has a NUL before any newline. *)
Definition NulFirst (buf : bytes) : Prop :=
  exists h t, buf = h ++ NUL :: t /\ ~ In LF h /\ ~ In NUL h.

(** The reads [rs] continue a payload of [need] bytes of which [total] have been
    delivered, without failing and without delivering more than one byte too much. *)
Inductive Feeds (need : Z) : Z -> list rd -> Prop :=
| Feeds_enough total rs : (need <= total)%Z -> Feeds need total rs
| Feeds_silent total : Feeds need total []
| Feeds_more total b rs : (total < need)%Z -> (total + zlen b <= need + 1)%Z ->
    Feeds need (total + zlen b) rs -> Feeds need total (RMsg b :: rs).

(** The bytes carried by a list of reads. *)
Definition read_bytes (rs : list rd) : bytes :=
  concat (map (fun r => match r with RMsg b => b | RErr _ => [] end) rs).

(** The input announces a payload of [len] bytes in record [b] and delivers it
    harmlessly: header line ended by a newline, not more than one byte too much, no
    failed read in between; or no payload buffer is made (NUL before the newline, or
    malloc failed) and none is needed. *)
Definition PayloadSafe (al : alloc) (len : Z) (b : bytes) (rs : list rd) : Prop :=
  (exists h d, HeaderThen b h d /\ al (len + 1)%Z = true /\ (zlen d <= len + 1)%Z /\
               Feeds len (zlen d) rs)
  \/ ((NulFirst b \/ exists h d, HeaderThen b h d /\ al (len + 1)%Z = false) /\
      (len = 0%Z \/ rs = [])).

(** Harmless input for the tool's reader: only a first record of acceptable size
    that parses as a command with payload is restricted. *)
Definition SafeInput (al : alloc) (rs : list rd) : Prop :=
  match rs with
  | RMsg b :: rs' =>
      (SSL_RECORD_SIZE < zlen b)%Z \/
      (forall c, ValidLine (cstr (firstn (length b - 1) b)) c -> has_payload (c_id c) = true ->
                 PayloadSafe al (c_length c) b rs')
  | _ => True
  end.
