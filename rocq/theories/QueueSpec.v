(** What a tool relies on when it reads from an LVE; see QueueModel. *)
From Verif Require Import Base WireModel SslModel SslSpec ToolModel QueueModel.

(** OpenSSL hands out the record [r] in pieces; between them the call may be interrupted by signals.  Nothing goes wrong. *)
Inductive Delivers : bytes -> list reading -> Prop :=
| D_again r rs : Delivers r rs -> Delivers r (Fails Again [] :: rs)
| D_again_write r rs : Delivers r rs -> Delivers r (Fails AgainWrite [] :: rs)
| D_last b : b <> [] -> (zlen b <= 1023)%Z -> Delivers b [Data b 0 false]
| D_piece b r rs : b <> [] -> r <> [] -> (zlen b <= 1023)%Z -> Delivers r rs -> Delivers (b ++ r) (Data b (zlen r) false :: rs).

(** Pieces of a record that is not complete. *)
Definition Piece (x : reading) : Prop :=
  match x with Data b n w => (zlen b <= 1023)%Z /\ (0 < n)%Z /\ w = false | Fails _ _ => False end.

(** Nothing that a tool does leaves errors in the queue: no start fails after the process was made, unless OpenSSL raises no error, and no shutdown raises one. *)
Definition Orderly (a : action) : Prop :=
  match a with
  | Start (NoSetup raised) => raised = []
  | Start (NoHandshake _ _ _ shut) => shut = []
  | Start NoProcess | Start (Started _) => True
  | Free raised => raised = []
  | Send (Some (false, raised)) => raised = []
  | Send _ | Call _ _ _ => True
  end.

(** Something that fails and leaves the error [e] in the queue: a start that fails before or after the handshake, a shutdown, a write. *)
Inductive Leaves (e : entry) : action -> Prop :=
| L_setup raised : Leaves e (Start (NoSetup (raised ++ [e])))
| L_handshake before c raised shut : Leaves e (Start (NoHandshake before c raised (shut ++ [e])))
| L_free raised : Leaves e (Free (raised ++ [e]))
| L_send raised : Leaves e (Send (Some (false, raised ++ [e]))).

(** Something that works: a message is sent, a connection is freed, a reply is read without interruption. *)
Definition Works (a : action) : Prop :=
  match a with
  | Send None | Start NoProcess => True
  | Free raised => raised = []
  | Call al _ rs => al = always /\ (exists r, Delivers r rs) /\ Forall (fun x => match x with Data _ _ _ => True | Fails _ _ => False end) rs
  | _ => False
  end.

(** The reason of an error as it is printed. *)
Definition printed (e : entry) : bytes := match e_reason e with Some t => t | None => B "(null)" end.
(** The error of a call that reports the reason of [e]. *)
Definition Reports (x : error) (e : entry) : Prop :=
  err_domain x = 1%Z /\ err_code x = 1%Z /\
  exists name, (name = B "SSL_ERROR_SSL" \/ name = B "SSL_ERROR_SYSCALL") /\ err_text x = Some (name ++ B ". reason: " ++ printed e).
