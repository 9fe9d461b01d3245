(** Starting and ending LVE processes on the side of the tool: /repo/src/tool/mlle_spawn_posix.c and the beginning of
    mlle_licensing.c, on top of descriptors, pipes and processes as the POSIX calls treat them. *)
From Coq Require Import List Arith Bool.
Import ListNotations.

(** ** Descriptors (POSIX) *)

(** What a descriptor refers to: an end of a pipe, or something else. *)
Inductive object := ReadEnd (pipe : nat) | WriteEnd (pipe : nat) | Elsewhere (n : nat).
(** The descriptors of a process: the number is the index. *)
Definition table := list (option object).
(** The descriptor table as the kernel keeps it for pipe(), close(), dup2() of mlle_spawn_posix.c:60-104. *)
Definition get (t : table) (n : nat) : option object := nth n t None.
(** The lowest number that is not in use: what pipe() and open() return. *)
Fixpoint lowest (t : table) : nat :=
  match t with
  | Some _ :: r => S (lowest r)
  | _ => 0
  end.
(** An entry of the table is set. *)
Fixpoint put (n : nat) (o : option object) (t : table) : table :=
  match n, t with
  | 0, [] => [o]
  | 0, _ :: r => o :: r
  | S k, [] => None :: put k o []
  | S k, x :: r => x :: put k o r
  end.
(** A new descriptor; [limit] is RLIMIT_NOFILE. *)
Definition alloc (limit : nat) (o : object) (t : table) : option (nat * table) :=
  if lowest t <? limit then Some (lowest t, put (lowest t) (Some o) t) else None.
(** pipe(): the reading end gets the lower number; nothing is left if there is no number for the other one.
    [ok]: it does not fail for other reasons. *)
Definition sys_pipe (ok : bool) (limit p : nat) (t : table) : option (nat * nat * table) :=
  if ok then
    match alloc limit (ReadEnd p) t with
    | Some (r, t1) => match alloc limit (WriteEnd p) t1 with Some (w, t2) => Some (r, w, t2) | None => None end
    | None => None
    end
  else None.
(** close(); of a number that is not in use, it does nothing. *)
Definition sys_close (n : nat) (t : table) : table := match get t n with Some _ => put n None t | None => t end.
(** dup2(); fails if the first number is not in use. *)
Definition dup2 (a b : nat) (t : table) : option table :=
  match get t a with Some o => Some (put b (Some o) t) | None => None end.

(** ** The processes *)

(** An LVE process: its descriptors ([None] if it has ended) and, for reference, the pipes made for it. *)
Record lve := { l_fds : option table; l_in : nat; l_out : nat }.
(** struct mlle_connections, tool/mlle_types.h, as far as mlle_spawn sets it; and, for reference, the number of the LVE (the program
    does not keep its process id). *)
Record connection := { c_to : nat; c_from : nat; c_lve : nat }.
(** The descriptors of the tool, the LVEs started so far, the connections returned so far ([None] if it failed or after
    mlle_connections_free), the number of the next pipe. *)
Record system := { s_tool : table; s_lves : list lve; s_conns : list (option connection); s_next : nat }.

(** What the calls of the operating system and of OpenSSL give. *)
Record calls := {
  a_access : bool;     (* access(), mlle_spawn_posix.c:49-58 *)
  a_pipe1 : bool; a_pipe2 : bool; a_fork : bool;
  a_exec : bool;       (* execl() *)
  a_calloc : bool;
  a_setup : bool;      (* ssl_setup_tool, tool/mlle_ssl_tool.c:45-119 *)
  a_handshake : bool   (* tool_perform_handshake, tool/mlle_ssl_tool.c:135-159 *)
}.

(** The child, mlle_spawn_posix.c:78-99, from the descriptors at fork(): the exit code or the descriptors with which the LVE runs
    (none of them is closed on exec).  [pr], [pw]: parent_to_child_pipe_fd, [cr], [cw]: child_to_parent_pipe_fd. *)
Definition child (exec : bool) (t : table) (pr pw cr cw : nat) : nat + table :=
  match dup2 pr 0 (sys_close 0 (sys_close pw t)) with
  | None => inl 3
  | Some t1 =>
      match dup2 cw 1 (sys_close 1 (sys_close cr (sys_close pr t1))) with
      | None => inl 3
      | Some t2 => if exec then inr (sys_close cw t2) else inl 4
      end
  end.

(** mlle_spawn, mlle_spawn_posix.c:40-112.  Simplified: fflush(NULL) and error texts are left out. *)
Definition spawn (limit : nat) (a : calls) (s : system) : system * option connection :=
  if a_access a then
    let p := s_next s in
    let with_table t l := {| s_tool := t; s_lves := s_lves s ++ l; s_conns := s_conns s; s_next := S (S p) |} in
    match sys_pipe (a_pipe1 a) limit p (s_tool s) with
    | None => (s, None)
    | Some (pr, pw, t1) =>
        match sys_pipe (a_pipe2 a) limit (S p) t1 with
        | None => (with_table t1 [], None)
        | Some (cr, cw, t2) =>
            if a_fork a then
              let l := {| l_fds := match child (a_exec a) t2 pr pw cr cw with inl _ => None | inr t => Some t end; l_in := p; l_out := S p |} in
              let s' := with_table (sys_close pr t2) [l] in
              if a_calloc a then (s', Some {| c_to := pw; c_from := cr; c_lve := length (s_lves s) |}) else (s', None)
            else (with_table t2 [], None)
        end
    end
  else (s, None).

(** mlle_connections_free, tool/mlle_licensing.c:48-63, on the descriptors. *)
Definition close_connection (c : connection) (s : system) : system :=
  {| s_tool := sys_close (c_from c) (sys_close (c_to c) (s_tool s)); s_lves := s_lves s; s_conns := s_conns s; s_next := s_next s |}.

(** mlle_start_executable, tool/mlle_licensing.c:65-98. *)
Definition start (limit : nat) (a : calls) (s : system) : system * option connection :=
  match spawn limit a s with
  | (s', Some c) => if a_setup a && a_handshake a then (s', Some c) else (close_connection c s', None)
  | (s', None) => (s', None)
  end.

(** ** Histories *)

(** What happens in the course of time: the tool starts an LVE, frees a connection, opens and closes files of its own; an LVE
    ends. *)
Inductive event := Start (a : calls) | Free (i : nat) | Ended (j : nat) | Open (n : nat) | Close (n : nat).

(** An element of a list is replaced (bookkeeping of the histories). *)
Fixpoint replace {A} (n : nat) (x : A) (l : list A) : list A :=
  match n, l with
  | _, [] => []
  | 0, _ :: r => x :: r
  | S k, y :: r => y :: replace k x r
  end.

(** The effect of an event.  mlle_connections_free is called with the connection returned by the start number [i]; a null pointer is
    ignored. *)
Definition step (limit : nat) (s : system) (e : event) : system :=
  match e with
  | Start a =>
      let (s', c) := start limit a s in
      {| s_tool := s_tool s'; s_lves := s_lves s'; s_conns := s_conns s' ++ [c]; s_next := s_next s' |}
  | Free i =>
      match nth i (s_conns s) None with
      | Some c =>
          let s' := close_connection c s in
          {| s_tool := s_tool s'; s_lves := s_lves s'; s_conns := replace i None (s_conns s'); s_next := s_next s' |}
      | None => s
      end
  | Ended j =>
      {| s_tool := s_tool s;
         s_lves := match nth_error (s_lves s) j with
                   | Some l => replace j {| l_fds := None; l_in := l_in l; l_out := l_out l |} (s_lves s)
                   | None => s_lves s
                   end;
         s_conns := s_conns s; s_next := s_next s |}
  | Open n =>
      {| s_tool := match alloc limit (Elsewhere n) (s_tool s) with Some (_, t) => t | None => s_tool s end;
         s_lves := s_lves s; s_conns := s_conns s; s_next := s_next s |}
  | Close n =>
      {| s_tool := match get (s_tool s) n with Some (Elsewhere _) => sys_close n (s_tool s) | _ => s_tool s end;
         s_lves := s_lves s; s_conns := s_conns s; s_next := s_next s |}
  end.
(** A tool that has not started an LVE yet. *)
Definition initial (t : table) : system := {| s_tool := t; s_lves := []; s_conns := []; s_next := 0 |}.
Definition after (limit : nat) (t : table) (es : list event) : system := fold_left (step limit) es (initial t).
