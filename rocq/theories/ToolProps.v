(** C21, C22, C23, C47 (the tool's side): theorems about the tool API. *)
From Verif Require Import Base ParseModel ParseSpec WireModel WireSpec WireProofs
  ToolModel ToolSpec ToolProofs.

(** ** C22 *)

(** For every reply sent with the send functions, however it is cut into records: the
    call takes exactly this reply from the input; it succeeds if and only if the reply
    is the documented positive one; it leaves an error object if and only if it fails;
    the message of an ERROR reply and of a NO reply is the one reported (up to 2047
    characters); a file call hands out exactly the bytes of the reply. *)
Theorem C22_result_of_a_reply : forall al rs rest c data written k,
  (forall n, al n = true) -> Incoming rs c data rest -> (0 <= written)%Z ->
  exists r e, await al written k rs = Ok (r, e, rest) /\
    ((exists v, r = Some v) <-> Positive k c) /\
    ((exists v, r = Some v) <-> e = None) /\
    (c_id c = C_ERROR -> Says e (firstn 2047 (B "Got ERROR command with message: " ++ cstr data))) /\
    (c_id c = C_NO -> match k with Feature _ | License _ => Says e (firstn 2047 (cstr data)) | _ => True end) /\
    (forall p h, k = File p -> r = Some (Contents h) -> Opened data h) /\
    (forall p v, k = File p -> r = Some v -> exists h, v = Contents h).
Proof. intros al rs rest c data written k Al I W. exact (await_reply al rs rest c data Al I written k W). Qed.
Print Assumptions C22_result_of_a_reply.

(** Whatever bytes come in: if a call ends (and its request could be written), then on
    failure there is an error object, and on success the first record was a valid line
    with the documented positive reply. *)
Theorem C22_any_input : forall al written k rs r e rest,
  (0 <= written)%Z -> await al written k rs = Ok (r, e, rest) ->
  match r with
  | None => e <> None
  | Some _ => exists b rs' c, rs = RMsg b :: rs' /\
                ValidLine (cstr (firstn (length b - 1) b)) c /\ Positive k c
  end.
Proof. exact await_any. Qed.
Print Assumptions C22_any_input.

(** A failed read is reported with its text. *)
Theorem C22_failed_read : forall al written k t rs, (0 <= written)%Z ->
  exists e, await al written k (RErr t :: rs) = Ok (None, e, rs) /\ Says e t.
Proof.
  intros al written k t rs W. eexists. split; [now apply await_read_fails|]. eexists. split; reflexivity.
Qed.
Print Assumptions C22_failed_read.

(** Refuted for the version call: if its request cannot be written it fails without
    an error object. *)
Theorem C22_version_not_written_refuted : forall al written min max rs,
  (written < 0)%Z -> await al written (Version min max) rs = Ok (None, None, rs).
Proof.
  intros al written min max rs W. cbn [await]. unfold tool_version. now rewrite (proj2 (Z.ltb_lt _ _) W).
Qed.
Print Assumptions C22_version_not_written_refuted.

Definition ok_alloc : alloc := fun _ => true.
Definition a_reply (s : bytes) : list rd := [RMsg s].

Example C22_ex_incoming :
  Incoming [RMsg (B "NO 5" ++ [LF] ++ B "ab"); RMsg (B "cde"); RMsg (B "YES")]
    {| c_id := C_NO; c_number := 0; c_length := 5 |} (B "abcde") [RMsg (B "YES")].
Proof.
  exists ok_alloc, (B "NO 5" ++ [LF] ++ B "abcde"), (B "NO 5" ++ [LF] ++ B "ab"), [B "cde"].
  split; [|split; [|reflexivity]].
  - apply (Sent_length _ C_NO (B "abcde")); [reflexivity|vm_compute; discriminate|vm_compute; reflexivity].
  - repeat split; try (vm_compute; discriminate).
    + intros b [<-|[<-|[]]]; discriminate.
    + apply BaseProofs.has_byte_In. vm_compute. reflexivity.
Qed.

Example C22_ex_results :
  await ok_alloc 9 (Feature (B "gold")) (a_reply (B "YES" ++ [LF])) = Ok (Some One, None, []) /\
  await ok_alloc 9 (Feature (B "gold")) (a_reply (B "NO 5" ++ [LF] ++ B "nope!")) =
    Ok (None, Some (literal 2 3 (Some (B "nope!"))), []) /\
  await ok_alloc 9 (LibPath (B "/lib")) (a_reply (B "ERROR 4 3" ++ [LF] ++ B "bad")) =
    Ok (None, Some (literal 2 1 (Some (B "Got ERROR command with message: bad"))), []) /\
  await ok_alloc 9 (License (B "p")) (a_reply (B "VERSION 1" ++ [LF])) =
    Ok (None, Some (literal 2 1 (Some (B "Unexpected command VERSION. Expected one of the following commands: YES, NOTSIMPLE, NO"))), []).
Proof. vm_compute. repeat split. Qed.

(** ** C21 (the tool's side) *)

(** The version call succeeds if and only if the reply is a VERSION in the range. *)
Theorem C21_tool_range : forall al rs rest c data written min max,
  (forall n, al n = true) -> Incoming rs c data rest -> (0 <= written)%Z ->
  exists r e, await al written (Version min max) rs = Ok (r, e, rest) /\
    ((exists v, r = Some v) <-> c_id c = C_VERSION /\ (min <= c_number c <= max)%Z).
Proof.
  intros al rs rest c data written min max Al I W.
  destruct (await_reply al rs rest c data Al I written (Version min max) W) as (r & e & A & P & _).
  exists r, e. split; [exact A|exact P].
Qed.
Print Assumptions C21_tool_range.

(** It asks for the highest version it accepts. *)
Theorem C21_tool_asks : forall al min max, (LONG_MIN <= max <= LONG_MAX)%Z ->
  request al (Version min max) = Ok [B "VERSION " ++ print_dec max ++ [LF]].
Proof.
  intros al min max H. cbn [request]. rewrite send_number_eq; [reflexivity|]. unfold LONG_MIN, LONG_MAX in H. lia.
Qed.
Print Assumptions C21_tool_asks.

Example C21_tool_ex :
  await ok_alloc 9 (Version 1 2) (a_reply (B "VERSION 2" ++ [LF])) = Ok (Some One, None, []) /\
  await ok_alloc 9 (Version 1 2) (a_reply (B "VERSION 3" ++ [LF])) =
    Ok (None, Some (literal 2 1 (Some (B "Protocol version from LVE too high."))), []).
Proof. vm_compute. repeat split. Qed.

(** ** C23 *)

(** Whatever buffer sizes are used: the reads deliver the file in order, without gap or
    repetition, then -1 forever; at any point the handle can be freed (also twice),
    which releases everything exactly once: every release of something already
    released would be undefined behaviour. *)
Theorem C23_reads : forall data h sizes,
  Opened data h -> Forall (fun n => (0 <= n)%Z) sizes ->
  exists rs h' h'', read_all h sizes = Ok (rs, h') /\ Piecewise data sizes rs /\
    (exists rem, data = delivered rs ++ rem) /\
    file_contents_free h' = Ok h'' /\ Released h'' /\ file_contents_free h'' = Ok h''.
Proof. exact reads_then_free. Qed.
Print Assumptions C23_reads.

(** A buffer that is large enough receives the whole file, and the contents are
    released at once. *)
Theorem C23_one_read : forall data h n, Opened data h -> (zlen data <= n)%Z -> data <> [] ->
  exists h', read_file_bytes h n = Ok (Some data, h') /\ fc_cell h' = None.
Proof. exact read_everything. Qed.
Print Assumptions C23_one_read.

Definition opened (data : bytes) : handle :=
  {| h_ptr := true; h_live := true; fc_size := zlen data; fc_off := 0; fc_ptr := true; fc_cell := Some data |}.
Example C23_ex : Opened (B "abcdef") (opened (B "abcdef")) /\
  (do (rs, _) <- read_all (opened (B "abcdef")) [4; 0; 4; 4]%Z ; Ok rs) =
  Ok [Some (B "abcd"); Some []; Some (B "ef"); None].
Proof. split; [repeat split|vm_compute; reflexivity]. Qed.

(** ** C47 (the tool's side) *)

(** The text that lists the expected commands always fits the buffer made for it. *)
Theorem C47_tool_text_fits : forall al got ids,
  al (Z.of_nat (unexpected_size (length ids))) = true ->
  unexpected_msg al got ids = Ok (Some (unexpected_text got ids)).
Proof. exact unexpected_fits. Qed.
Print Assumptions C47_tool_text_fits.

Example C47_tool_ex :
  unexpected_msg ok_alloc C_TOOLS [C_YES; C_NO] =
  Ok (Some (B "Unexpected command TOOLS. Expected one of the following commands: YES, NO")).
Proof. vm_compute. reflexivity. Qed.
