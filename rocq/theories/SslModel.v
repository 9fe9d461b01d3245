(** Model of the TLS read and write loops, /repo/src/common/mlle_ssl.c:253-410. *)
From Verif Require Import Base WireModel.

(** MSG_SIZE is 1024 (common/mlle_ssl.c); SSL_read is asked for MSG_SIZE - 1 bytes
    (common/mlle_ssl.c:325). *)
Definition READ_CHUNK : Z := 1023.

(** SSL_get_error codes that the code distinguishes (openssl/ssl.h);
    common/mlle_ssl.c:333-349. *)
Inductive ssl_code := WANT_READ | WANT_WRITE | OTHER_ERROR (code : Z).

(** What one call of SSL_read does: it returns bytes (at least one), after which SSL_pending
    reports [pending] and SSL_want_read reports [want]; or it fails. *)
Inductive rev_ev := RData (b : bytes) (pending : Z) (want : bool) | RFail (c : ssl_code).

(** Result of ssl_read_message: a message or -1; together with the contents of the
    heap blocks it has freed and what SSL has not yet delivered. *)
Inductive msg_res := MsgOk (m : bytes) | MsgErr (c : ssl_code).

(** ssl_read_message, common/mlle_ssl.c:309-410.
    [buf] is the message buffer ([None] before the first allocation), [total] its
    used length.  bufferLen stays 0, so a new buffer is allocated for every chunk
    (as long as neededSpace > 0) and the old one is copied, "cleared" with
    memset(_, 0, 0) and freed. SSL_read returning more than READ_CHUNK bytes would
    overflow tmpBuffer. Simplified: int arithmetic is not wrapped (a record has at
    most 16384 bytes). *)
Fixpoint ssl_read (al : alloc) (buf : bytes) (freed : list bytes) (evs : list rev_ev)
  : outcome (msg_res * list bytes * list rev_ev) :=
  match evs with
  | [] => Blocked
  | RFail WANT_READ :: evs' | RFail WANT_WRITE :: evs' => ssl_read al buf freed evs'
  | RFail c :: evs' => Ok (MsgErr c, freed, evs')
  | RData b pending want :: evs' =>
      if (READ_CHUNK <? zlen b)%Z then UB OobWrite
      else if (zlen buf + zlen b + pending <? zlen buf + zlen b)%Z then UB OobWrite
      else if al (zlen buf + zlen b + pending)%Z then
        let freed' := match buf with [] => freed | _ => freed ++ [buf] end in
        let buf' := buf ++ b in
        if want || negb (pending =? 0)%Z then ssl_read al buf' freed' evs'
        else Ok (MsgOk buf', freed', evs')
      else Ok (MsgErr (OTHER_ERROR 0), freed, evs')
  end.

(** A call starts with no buffer. *)
Definition ssl_read_message (al : alloc) (evs : list rev_ev) := ssl_read al [] [] evs.

(** What one call of SSL_write does: returns a positive count, zero, or a negative
    value with an error code. *)
Inductive wev := WDone (n : Z) | WZero | WFail (c : ssl_code).

(** Conversion (int)len of a size_t, common/mlle_ssl.c:270. *)
Definition to_int (z : Z) : Z :=
  let m := (z mod 2^32)%Z in if (m <? 2^31)%Z then m else (m - 2^32)%Z.

(** ssl_write_message, common/mlle_ssl.c:264-292.  Result: the returned int and the
    list of arguments with which SSL_write was called: the number of bytes of
    [m] requested in each call. *)
Fixpoint ssl_write (len : Z) (calls : list Z) (evs : list wev)
  : outcome (Z * list Z * list wev) :=
  let calls' := calls ++ [to_int len] in
  match evs with
  | [] => Blocked
  | WFail WANT_WRITE :: evs' => ssl_write len calls' evs'
  | WFail _ :: evs' => Ok ((-1)%Z, calls', evs')
  | WZero :: evs' => Ok ((-1)%Z, calls', evs')
  | WDone n :: evs' => Ok (n, calls', evs')
  end.
Definition ssl_write_message (m : bytes) (evs : list wev) := ssl_write (zlen m) [] evs.
