(** What the TLS library promises, and what the wrappers must deliver. *)
From Verif Require Import Base WireModel SslModel.

(** SSL_read hands out the record [r] in non-empty pieces of at most READ_CHUNK
    bytes, reporting after each piece how much of the record is left, interleaved
    with any number of requests to retry. *)
Inductive DeliversRecord : bytes -> list rev_ev -> Prop :=
| DR_retry_read r evs : DeliversRecord r evs -> DeliversRecord r (RFail WANT_READ :: evs)
| DR_retry_write r evs : DeliversRecord r evs -> DeliversRecord r (RFail WANT_WRITE :: evs)
| DR_last b : b <> [] -> (zlen b <= READ_CHUNK)%Z -> DeliversRecord b [RData b 0 false]
| DR_piece b r evs : b <> [] -> r <> [] -> (zlen b <= READ_CHUNK)%Z -> DeliversRecord r evs ->
    DeliversRecord (b ++ r) (RData b (zlen r) false :: evs).

(** The library starts to hand out a record and then reports an error. *)
Inductive FailsMidRecord : ssl_code -> list rev_ev -> Prop :=
| FM_retry_read c evs : FailsMidRecord c evs -> FailsMidRecord c (RFail WANT_READ :: evs)
| FM_retry_write c evs : FailsMidRecord c evs -> FailsMidRecord c (RFail WANT_WRITE :: evs)
| FM_now z : FailsMidRecord (OTHER_ERROR z) [RFail (OTHER_ERROR z)]
| FM_piece c b n evs : (zlen b <= READ_CHUNK)%Z -> (0 < n)%Z -> FailsMidRecord c evs ->
    FailsMidRecord c (RData b n false :: evs).

(** Every allocation succeeds. *)
Definition always : alloc := fun _ => true.

(** The bytes handed out by a list of events. *)
Definition handed_out (evs : list rev_ev) : bytes :=
  concat (map (fun e => match e with RData b _ _ => b | RFail _ => [] end) evs).

(** The library asks [k] times to retry the write and then answers [e]. *)
Definition retries_then (k : nat) (e : wev) : list wev := repeat (WFail WANT_WRITE) k ++ [e].

(** The pieces handed out by a list of events. *)
Definition pieces (evs : list rev_ev) : list bytes :=
  flat_map (fun e => match e with RData b _ _ => [b] | RFail _ => [] end) evs.
