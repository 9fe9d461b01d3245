(** C06, C07, C49: theorems about the TLS wrappers. *)
From Verif Require Import Base WireModel SslModel SslSpec SslProofs.

(** C06. One read call returns exactly one record, whatever the piece sizes and
    retries, and leaves the rest of the stream untouched. *)
Theorem C06_one_record : forall r evs tail,
  DeliversRecord r evs ->
  exists freed, ssl_read_message always (evs ++ tail) = Ok (MsgOk r, freed, tail).
Proof. exact ssl_read_message_delivers. Qed.
Print Assumptions C06_one_record.

(** C06. If the library reports an error in the middle of a record the call returns
    -1 with that error. *)
Theorem C06_error_reported : forall c evs tail,
  FailsMidRecord c evs ->
  exists freed, ssl_read_message always (evs ++ tail) = Ok (MsgErr c, freed, tail).
Proof. exact ssl_read_message_fails. Qed.
Print Assumptions C06_error_reported.

(** C06. Even for a library that does not keep its promises about record ends, a
    returned message is exactly the bytes handed out during the call, in order. *)
Theorem C06_no_loss_no_duplication : forall al evs m freed rest,
  ssl_read_message al evs = Ok (MsgOk m, freed, rest) ->
  exists used, evs = used ++ rest /\ m = handed_out used.
Proof. exact ssl_read_message_any. Qed.
Print Assumptions C06_no_loss_no_duplication.

(** C06. The loop is memory safe for every library that respects the size limit. *)
Theorem C06_memory_safe : forall al evs r,
  (forall b n w, In (RData b n w) evs -> (zlen b <= READ_CHUNK)%Z /\ (0 <= n)%Z) ->
  ssl_read_message al evs <> UB r.
Proof. exact ssl_read_message_safe. Qed.
Print Assumptions C06_memory_safe.

Example C06_ex_delivers :
  DeliversRecord (B "VERSION 1") [RFail WANT_READ; RData (B "VERS") 5 false; RFail WANT_WRITE;
                                  RData (B "ION 1") 0 false].
Proof.
  apply DR_retry_read. apply (DR_piece (B "VERS") (B "ION 1")); try discriminate.
  apply DR_retry_write. apply DR_last; discriminate.
Qed.
Example C06_ex_fails :
  FailsMidRecord (OTHER_ERROR 5) [RData (B "VERS") 5 false; RFail (OTHER_ERROR 5)].
Proof. apply FM_piece; [discriminate|reflexivity|constructor]. Qed.

(** C07. For every message shorter than 2^31 bytes and every behaviour of the
    library: SSL_write is called with the whole message each time, once more than it
    asked to retry, and the result is the library's count or -1. *)
Theorem C07_write_once : forall m k n tail,
  (zlen m < 2^31)%Z ->
  ssl_write_message m (retries_then k (WDone n) ++ tail) = Ok (n, repeat (zlen m) (S k), tail).
Proof. exact ssl_write_message_done. Qed.
Print Assumptions C07_write_once.

Theorem C07_failure_reported : forall m k e tail,
  (zlen m < 2^31)%Z -> e = WZero \/ (exists c, e = WFail c /\ c <> WANT_WRITE) ->
  ssl_write_message m (retries_then k e ++ tail) = Ok ((-1)%Z, repeat (zlen m) (S k), tail).
Proof. exact ssl_write_message_failed. Qed.
Print Assumptions C07_failure_reported.

(** Every run that ends is one of the two above. *)
Theorem C07_every_run : forall m evs r cs rest,
  (zlen m < 2^31)%Z ->
  ssl_write_message m evs = Ok (r, cs, rest) ->
  exists k e, evs = retries_then k e ++ rest /\ cs = repeat (zlen m) (S k) /\
    ((exists n, e = WDone n /\ r = n) \/
     (r = (-1)%Z /\ (e = WZero \/ exists c, e = WFail c /\ c <> WANT_WRITE))).
Proof. exact ssl_write_message_any. Qed.
Print Assumptions C07_every_run.

Example C07_ex : ssl_write_message (B "YES
") [WFail WANT_WRITE; WFail WANT_WRITE; WDone 4] = Ok (4%Z, [4; 4; 4]%Z, []).
Proof. reflexivity. Qed.

(** C07 is false for messages of 4 GiB and more: the length is cast to int, so only
    the low 32 bits are requested and the call still reports success. *)
Theorem C07_huge_message_refuted : exists len,
  ssl_write len [] [WDone 5] = Ok (5%Z, [5%Z], []) /\ (5 < len)%Z.
Proof. exists (2^32 + 5)%Z. split; reflexivity. Qed.
Print Assumptions C07_huge_message_refuted.

(** C49 holds for records that are read in one piece: nothing is freed.  Missing from the full statement: all others. *)
Theorem C49_one_piece_partial : forall r evs tail,
  DeliversRecord r evs -> length (pieces evs) = 1 -> ssl_read_message always (evs ++ tail) = Ok (MsgOk r, [], tail).
Proof. exact ssl_read_message_one. Qed.
Print Assumptions C49_one_piece_partial.

Example C49_one_piece_ex :
  DeliversRecord (B "VERSION 1") [RFail WANT_READ; RData (B "VERSION 1") 0 false] /\
  length (pieces [RFail WANT_READ; RData (B "VERSION 1") 0 false]) = 1.
Proof. split; [|reflexivity]. apply DR_retry_read. apply DR_last; discriminate. Qed.

(** C49 is false for all others: whatever the pieces and retries, a buffer with everything but the last piece is freed
    with the bytes still in it (the memset before free clears 0 bytes, because the recorded buffer length is never
    updated). *)
Theorem C49_read_buffers_cleared_refuted : forall r evs tail,
  DeliversRecord r evs -> 2 <= length (pieces evs) ->
  exists freed ps p, ssl_read_message always (evs ++ tail) = Ok (MsgOk r, freed, tail) /\
    pieces evs = ps ++ [p] /\ concat ps <> [] /\ In (concat ps) freed.
Proof. exact ssl_read_message_left. Qed.
Print Assumptions C49_read_buffers_cleared_refuted.

(** This is so for every record of more than 1023 bytes, however the library hands it out. *)
Theorem C49_long_record_refuted : forall r evs tail,
  DeliversRecord r evs -> (1023 < zlen r)%Z ->
  exists freed ps p, ssl_read_message always (evs ++ tail) = Ok (MsgOk r, freed, tail) /\
    r = concat ps ++ p /\ (zlen p <= 1023)%Z /\ concat ps <> [] /\ In (concat ps) freed.
Proof.
  intros r evs tail H L. destruct (ssl_read_message_left r evs tail H (long_in_pieces r evs H L)) as (freed & ps & p & E & Ep & Ne & I).
  exists freed, ps, p. destruct (pieces_of r evs H) as [C F]. rewrite Ep in C, F. rewrite concat_app in C. cbn [concat] in C. rewrite app_nil_r in C.
  apply Forall_app in F as [_ F]. apply Forall_inv in F as [_ F]. auto.
Qed.
Print Assumptions C49_long_record_refuted.

Example C49_ex :
  let evs := [RData (B "FILECONT 4
secret") 1 false; RData (B "!") 0 false] in
  DeliversRecord (B "FILECONT 4
secret!") evs /\ 2 <= length (pieces evs) /\
  ssl_read_message always evs = Ok (MsgOk (B "FILECONT 4
secret!"), [B "FILECONT 4
secret"], []).
Proof.
  split; [|split; [apply Nat.le_refl|reflexivity]].
  apply (DR_piece (B "FILECONT 4
secret") (B "!")); try discriminate. apply DR_last; discriminate.
Qed.

(** A long record. *)
Example C49_long_ex : let r := repeat (ch 65) 1023 ++ B "B" in
  (1023 < zlen r)%Z /\ DeliversRecord r [RData (repeat (ch 65) 1023) 1 false; RData (B "B") 0 false].
Proof.
  split; [reflexivity|]. apply (DR_piece (repeat (ch 65) 1023) (B "B")); try discriminate. apply DR_last; discriminate.
Qed.
