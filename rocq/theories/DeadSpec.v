(** What happens to an LVE in a schedule. *)
From Coq Require Import List Arith Bool.
Import ListNotations.
From Verif Require Import SpawnModel SpawnSpec DeadModel.

(** The LVE is not running. *)
Definition Gone (st : state) (j : nat) : Prop := forall tb, ~ Alive (g_sys st) j tb.
(** It does not write. *)
Definition Silent (j : nat) (sched : list (list happening)) : Prop := forall h, In h sched -> ~ In (Writes j) h.
(** It does not end. *)
Definition Stays (j : nat) (sched : list (list happening)) : Prop := forall h, In h sched -> ~ In (Ends j) h.
(** Nothing waits to be read on the connection. *)
Definition Quiet (st : state) (c : connection) : Prop := forall q, get (s_tool (g_sys st)) (c_from c) = Some (ReadEnd q) -> g_box st q = 0.
(** The number of records it writes before it ends. *)
Fixpoint said (j : nat) (hs : list happening) : nat :=
  match hs with
  | [] => 0
  | Ends k :: r => if k =? j then 0 else said j r
  | Writes k :: r => (if k =? j then 1 else 0) + said j r
  end.
(** The tool's descriptors, with the two of the connection closed. *)
Definition ClosedOnly (st st' : state) (c : connection) : Prop :=
  forall n, get (s_tool (g_sys st')) n = if (n =? c_to c) || (n =? c_from c) then None else get (s_tool (g_sys st)) n.
