(** The end of an LVE that has served a tool. *)
From Verif Require Import Base LveModel.

(** What an LVE does in the end beside the events of LveModel: mlle_license_free (lve/mlle_lve.c:248-250) and the message written by SSL_shutdown
    (lve/mlle_lve.c:258). *)
Inductive act := Does (e : event) | FreeManager | CloseNotify.
(** mlle_lve_shutdown, lve/mlle_lve.c:246-262.  Memory that is released here is in MemModel. *)
Definition shutdown {D} (s : lve D) : list act := (if s_lic s then [FreeManager] else []) ++ [CloseNotify].
(** mlle_lve_receive and mlle_lve_shutdown after a handshake, lve/lve.c:287-294. *)
Definition serving {D} (m : M (lve D)) : list act * outcome unit :=
  match m with
  | (es, Ok s) => (map Does es ++ shutdown s, Ok tt)
  | (es, UB r) => (map Does es, UB r)
  | (es, Blocked) => (map Does es, Blocked)
  end.
(** main with --checkout-feature, lve/lve.c:281-282: there is no call of mlle_lve_shutdown. *)
Definition checked_out {A} (m : M A) : list act := map Does (fst m).

(** Writes to the tool: ssl_write_message (common/mlle_ssl.c) and SSL_shutdown. *)
Definition writes (a : act) : bool := match a with Does (Reply _) | CloseNotify => true | _ => false end.
Fixpoint before_write (l : list act) : list act :=
  match l with
  | [] => []
  | a :: r => if writes a then [] else a :: before_write r
  end.
(** What is done if nobody can read what the LVE writes after it has done [n] things: the next write ends the LVE by SIGPIPE, unless the tool has
    made the system ignore that signal (the LVE inherits this; nothing in /repo/src handles signals). *)
Definition performed (ignored : bool) (n : nat) (l : list act) : list act :=
  if ignored then l else firstn n l ++ before_write (skipn n l).
