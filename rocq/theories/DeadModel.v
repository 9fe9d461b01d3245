(** What the tool library does when an LVE ends: the reads and writes of /repo/src/tool/mlle_licensing.c, mlle_ssl_tool.c and
    /repo/src/common/mlle_ssl.c on the pipes made by mlle_spawn_posix.c (SpawnModel), while other processes go on. *)
From Coq Require Import List Arith Bool.
Import ListNotations.
From Verif Require Import SpawnModel.

(** ** Pipes with contents (POSIX) *)

(** The descriptors of all processes, and the number of TLS records that wait in each pipe.  Simplified: a pipe has room for what is
    written (a request is a few records of at most 16 KiB, common/mlle_io.c:179-295; a pipe holds 64 KiB), and records are read as wholes. *)
Record state := { g_sys : system; g_box : nat -> nat }.

(** Comparison of descriptors' objects, for [holds]. *)
Definition same_object (a b : object) : bool :=
  match a, b with
  | ReadEnd p, ReadEnd q | WriteEnd p, WriteEnd q | Elsewhere p, Elsewhere q => p =? q
  | _, _ => false
  end.
(** A process has the object open. *)
Definition holds (t : table) (o : object) : bool := existsb (fun x => match x with Some o' => same_object o o' | None => false end) t.
(** Some process has it open: the kernel's count of the readers or writers of a pipe. *)
Definition held (s : system) (o : object) : bool :=
  holds (s_tool s) o || existsb (fun l => match l_fds l with Some t => holds t o | None => false end) (s_lves s).

(** What happens outside the tool: an LVE ends (by itself, by a crash, because execl() fails, mlle_spawn_posix.c:97-99); an LVE writes a
    record to its standard output (lve/mlle_ssl_lve.c:144, common/mlle_ssl.c:264-292). *)
Inductive happening := Ends (j : nat) | Writes (j : nat).
(** The pipe to which an LVE writes, mlle_spawn_posix.c:90-95. *)
Definition stdout_of (s : system) (j : nat) : option nat :=
  match nth_error (s_lves s) j with
  | Some l => match l_fds l with
              | Some t => match get t 1 with Some (WriteEnd q) => Some q | _ => None end
              | None => None
              end
  | None => None
  end.
(** The contents of one pipe change by write() and read() of common/mlle_ssl.c:270, 325 (through OpenSSL). *)
Definition refill (q : nat) (f : nat -> nat) (box : nat -> nat) : nat -> nat := fun p => if p =? q then f (box p) else box p.
(** The effect of what happens outside, on descriptors and pipes. *)
Definition happen (st : state) (h : happening) : state :=
  match h with
  | Ends j => {| g_sys := step 0 (g_sys st) (Ended j); g_box := g_box st |}
  | Writes j => match stdout_of (g_sys st) j with
                | Some q => {| g_sys := g_sys st; g_box := refill q S (g_box st) |}
                | None => st
                end
  end.

(** ** System calls of the tool *)

(** The sequence of reads and writes of a function of the tool library; it ends with its result, 0 or NULL being [false]. *)
Inductive prog :=
| Return (ok : bool)
| Write (fd : nat) (k : bool -> prog)
| Read (fd : nat) (k : bool -> prog)
| Shut (fd : nat) (k : prog).

(** How the call ends, with what is left of the schedule: the function returns, the tool is killed by SIGPIPE, or it waits for ever. *)
Inductive fate := Returned (ok : bool) (st : state) | Killed (st : state) | Waiting (st : state).

(** read(): a record, the end of the data or an error ([false]), or nothing yet. *)
Definition look (fd : nat) (st : state) : option (bool * state) :=
  match get (s_tool (g_sys st)) fd with
  | Some (ReadEnd q) =>
      if 0 <? g_box st q then Some (true, {| g_sys := g_sys st; g_box := refill q pred (g_box st) |})
      else if held (g_sys st) (WriteEnd q) then None else Some (false, st)
  | _ => Some (false, st)
  end.
(** The tool waits in read() until there is something, while the rest of the schedule takes place. *)
Fixpoint await (fd : nat) (sched : list (list happening)) (st : state) : (bool * list (list happening) * state) + state :=
  match sched with
  | [] => match look fd st with Some (b, st') => inl (b, [], st') | None => inr st end
  | h :: r =>
      let st1 := fold_left happen h st in
      match look fd st1 with Some (b, st') => inl (b, r, st') | None => await fd r st1 end
  end.

(** A function of the tool library runs.  [ignored]: the embedding program has set SIGPIPE to be ignored; the tool library does not
    (there is no call of signal() or sigaction() in /repo/src), and the default action ends the process.  [sched]: what happens before
    each of the system calls (and while it waits in one). *)
Fixpoint run (ignored : bool) (p : prog) (sched : list (list happening)) (st : state) : fate :=
  match p with
  | Return b => Returned b st
  | Write fd k =>
      let st1 := fold_left happen (hd [] sched) st in
      match get (s_tool (g_sys st1)) fd with
      | Some (WriteEnd q) =>
          if held (g_sys st1) (ReadEnd q) then run ignored (k true) (tl sched) {| g_sys := g_sys st1; g_box := refill q S (g_box st1) |}
          else if ignored then run ignored (k false) (tl sched) st1 else Killed st1
      | _ => run ignored (k false) (tl sched) st1
      end
  | Read fd k =>
      match await fd sched st with
      | inl (b, r, st') => run ignored (k b) r st'
      | inr st' => Waiting st'
      end
  | Shut fd k =>
      let s := g_sys st in
      run ignored k sched {| g_sys := {| s_tool := sys_close fd (s_tool s); s_lves := s_lves s; s_conns := s_conns s; s_next := s_next s |}; g_box := g_box st |}
  end.

(** ** The functions *)

(** SSL_write of a message in [n] records, common/mlle_ssl.c:264-292; it stops at the first that fails. *)
Fixpoint writes (fd n : nat) (k : bool -> prog) : prog :=
  match n with
  | 0 => k true
  | S m => Write fd (fun ok => if ok then writes fd m k else k false)
  end.
(** mlle_read_command, common/mlle_utils.c:84-172: the records of a reply, until reading fails. *)
Fixpoint reads (fd n : nat) (k : bool -> prog) : prog :=
  match n with
  | 0 => k true
  | S m => Read fd (fun ok => if ok then reads fd m k else k false)
  end.
(** A call of tool/mlle_licensing.c:199-422: the request in [S req] records, then the reply, here [S rep] records.  [checks]: the result
    of sending is looked at, as in mlle_tool_version (:215-218) only.  [broken]: after a write that failed, OpenSSL does not read any
    more. *)
Definition api (checks broken : bool) (c : connection) (req rep : nat) : prog :=
  writes (c_to c) (S req) (fun ok =>
    if negb ok && (checks || broken) then Return false else reads (c_from c) (S rep) Return).
(** mlle_connections_free, tool/mlle_licensing.c:48-63.  [alert]: SSL_shutdown sends a close_notify record (the handshake is complete and
    no fatal error has occurred); its result is not looked at. *)
Definition free (alert : bool) (c : connection) (k : prog) : prog :=
  let closing := Shut (c_to c) (Shut (c_from c) k) in
  if alert then Write (c_to c) (fun _ => closing) else closing.
(** SSL_connect, tool/mlle_ssl_tool.c:135-159: the client writes first, then reads; [more]: the rest ([true]: write). *)
Fixpoint shake (c : connection) (ops : list bool) (k : bool -> prog) : prog :=
  match ops with
  | [] => k true
  | true :: r => Write (c_to c) (fun ok => if ok then shake c r k else k false)
  | false :: r => Read (c_from c) (fun ok => if ok then shake c r k else k false)
  end.
(** mlle_start_executable after mlle_spawn, tool/mlle_licensing.c:80-98; the certificates and keys could be set up. *)
Definition connect (c : connection) (more : list bool) : prog :=
  shake c (true :: false :: more) (fun ok => if ok then Return true else free false c (Return false)).
