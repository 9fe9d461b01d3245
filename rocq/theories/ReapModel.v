(** Processes that have ended: /repo/src/tool/mlle_spawn_posix.c:73-110 starts a child for every LVE.  Neither this
    file nor mlle_licensing.c, mlle_ssl_tool.c or common/ calls wait() or waitpid(), and struct mlle_connections
    (tool/mlle_types.h) does not hold the process id: an LVE that has ended keeps its entry in the table of processes until
    the tool itself waits for any of its children. *)
From Coq Require Import List Arith Bool.
From Verif Require Import SpawnModel.
Import ListNotations.

(** The system of SpawnModel, and how many of the ended LVEs the tool has waited for (outside the library). *)
Record state := { r_system : system; r_waited : nat }.
(** The LVEs that have ended. *)
Definition ended (s : system) : nat := length (filter (fun l => match l_fds l with None => true | Some _ => false end) (s_lves s)).
(** The children of the tool as the kernel counts them, running or ended but not waited for. *)
Definition children (r : state) : nat := length (s_lves (r_system r)) - r_waited r.

(** What happens: as in SpawnModel; or the tool itself calls wait() for any child that has ended. *)
Inductive happening := Lib (e : event) | Wait.

(** fork() at mlle_spawn_posix.c:73 fails if the tool has [nproc] children (RLIMIT_NPROC). *)
Definition can_fork (nproc : nat) (r : state) (a : calls) : calls :=
  {| a_access := a_access a; a_pipe1 := a_pipe1 a; a_pipe2 := a_pipe2 a; a_fork := a_fork a && (children r <? nproc);
     a_exec := a_exec a; a_calloc := a_calloc a; a_setup := a_setup a; a_handshake := a_handshake a |}.
(** mlle_start_executable, tool/mlle_licensing.c:65-98, under this limit. *)
Definition start_limited (limit nproc : nat) (a : calls) (r : state) : system * option connection :=
  start limit (can_fork nproc r a) (r_system r).
(** The effect of an event on the processes: mlle_spawn (mlle_spawn_posix.c:40-112) and the wait() of the tool. *)
Definition happen (limit nproc : nat) (r : state) (h : happening) : state :=
  match h with
  | Lib (Start a) => {| r_system := step limit (r_system r) (Start (can_fork nproc r a)); r_waited := r_waited r |}
  | Lib e => {| r_system := step limit (r_system r) e; r_waited := r_waited r |}
  | Wait => {| r_system := r_system r; r_waited := if r_waited r <? ended (r_system r) then S (r_waited r) else r_waited r |}
  end.
(** A history from a tool that has not started an LVE yet. *)
Definition history (limit nproc : nat) (t : table) (hs : list happening) : state :=
  fold_left (happen limit nproc) hs {| r_system := initial t; r_waited := 0 |}.
