(** Starting LVE processes on Windows: /repo/src/tool/mlle_spawn_windows.c, on top of the descriptors of the C runtime. *)
From Verif Require Import Base.
From Verif Require SpawnModel.
From Coq Require Import Arith.
Notation object := SpawnModel.object.
Notation ReadEnd := SpawnModel.ReadEnd.
Notation WriteEnd := SpawnModel.WriteEnd.
Notation Elsewhere := SpawnModel.Elsewhere.

(** ** Descriptors (Microsoft C runtime) *)

(** A number of the table of descriptors is not in use, or is one of the standard streams of a program without console (it is
    never given to a new descriptor, but refers to nothing), or refers to an object; new processes get it or not
    (_O_NOINHERIT, mlle_spawn_windows.c:65,71). *)
Inductive slot := Unused | NoConsole | Handle (o : object) (inherit : bool).
Definition table := list slot.
(** The table of descriptors as the calls of mlle_spawn_windows.c:65-191 see it. *)
Definition get (t : table) (n : nat) : slot := nth n t Unused.
(** An entry of the table is set. *)
Fixpoint put (n : nat) (x : slot) (t : table) : table :=
  match n, t with
  | 0, [] => [x]
  | 0, _ :: r => x :: r
  | S k, [] => Unused :: put k x []
  | S k, y :: r => y :: put k x r
  end.
(** The lowest number not in use. *)
Fixpoint lowest (t : table) : nat :=
  match t with
  | [] => 0
  | Unused :: _ => 0
  | _ :: r => S (lowest r)
  end.
(** A new descriptor; [limit]: how many the runtime can have. *)
Definition alloc (limit : nat) (x : slot) (t : table) : option (nat * table) :=
  if lowest t <? limit then Some (lowest t, put (lowest t) x t) else None.
(** _pipe with _O_NOINHERIT (_setmaxstdio limits the numbers). *)
Definition crt_pipe (ok : bool) (limit p : nat) (t : table) : option (nat * nat * table) :=
  if ok then
    match alloc limit (Handle (ReadEnd p) false) t with
    | Some (r, t1) => match alloc limit (Handle (WriteEnd p) false) t1 with Some (w, t2) => Some (r, w, t2) | None => None end
    | None => None
    end
  else None.
(** _dup of a standard stream as in mlle_spawn_windows.c:80-90 and 91-101: [None] if it fails; no number if the stream is not
    open (EBADF).  New processes get the duplicate. *)
Definition crt_dup (ok : bool) (limit fd : nat) (t : table) : option (option nat * table) :=
  match get t fd with
  | Handle o _ =>
      if ok then match alloc limit (Handle o true) t with Some (n, t') => Some (Some n, t') | None => None end else None
  | _ => Some (None, t)
  end.
(** _dup2; if the numbers are the same nothing changes.  New processes get the duplicate. *)
Definition crt_dup2 (ok : bool) (a b : nat) (t : table) : option table :=
  match get t a with
  | Handle o _ => if ok then Some (if a =? b then t else put b (Handle o true) t) else None
  | _ => None
  end.
(** _close. *)
Definition crt_close (n : nat) (t : table) : table := match get t n with Handle _ _ => put n Unused t | _ => t end.
(** _spawnl: what the new process gets. *)
Definition inherited (t : table) : SpawnModel.table := map (fun x => match x with Handle o true => Some o | _ => None end) t.

(** ** mlle_spawn *)

(** The tool, the LVEs and the connections, as in SpawnModel. *)
Record system := { w_tool : table; w_lves : list SpawnModel.lve; w_conns : list (option SpawnModel.connection); w_next : nat }.
(** What the calls give, apart from failures that the table explains. *)
Record calls := {
  b_pipe1 : bool; b_pipe2 : bool;             (* _pipe, mlle_spawn_windows.c:65,71 *)
  b_save_in : bool; b_save_out : bool;        (* _dup, 80,91 *)
  b_set_in : bool; b_set_out : bool;          (* _dup2, 109,116 *)
  b_run : bytes -> bool;                      (* _spawnl, 128,144 *)
  b_back_in : bool; b_back_out : bool;        (* _dup2, 159,172 *)
  b_calloc : bool;                            (* calloc, 185 *)
  b_setup : bool; b_handshake : bool          (* as in SpawnModel *)
}.

(** The name for the second attempt, mlle_spawn_windows.c:46,133-142: with the prefix for long names and backslashes. *)
Definition long_name (name : bytes) : bytes :=
  B "\\?\" ++ (if length name <? 4096 - 5 then map (fun c => if Ascii.eqb c SLASH then BSLASH else c) name else []).
(** mlle_spawn_windows.c:128-153: has a process been started? *)
Definition run (a : calls) (name : bytes) : bool :=
  b_run a name || ((255 <? length name) && b_run a (long_name name)).

(** A standard stream is given back, mlle_spawn_windows.c:158-168 and 170-181. *)
Definition give_back (ok : bool) (saved : option nat) (fd : nat) (t : table) : option table :=
  match saved with
  | Some n => match crt_dup2 ok n fd t with Some t' => Some (crt_close n t') | None => None end
  | None => Some t
  end.
(** mlle_spawn, mlle_spawn_windows.c:39-194.  Simplified: setvbuf, fflush and error texts are left out; when giving back fails
    the descriptors are those before the attempt. *)
Definition spawn (limit : nat) (a : calls) (name : bytes) (s : system) : system * option SpawnModel.connection :=
  let p := w_next s in
  let left t l := {| w_tool := t; w_lves := w_lves s ++ l; w_conns := w_conns s; w_next := S (S p) |} in
  match crt_pipe (b_pipe1 a) limit p (w_tool s) with
  | None => (s, None)
  | Some (pr, pw, t1) =>
  match crt_pipe (b_pipe2 a) limit (S p) t1 with
  | None => (left t1 [], None)
  | Some (cr, cw, t2) =>
  match crt_dup (b_save_in a) limit 0 t2 with
  | None => (left t2 [], None)
  | Some (sin, t3) =>
  match crt_dup (b_save_out a) limit 1 t3 with
  | None => (left t3 [], None)
  | Some (sout, t4) =>
  match crt_dup2 (b_set_in a) pr 0 t4 with
  | None => (left t4 [], None)
  | Some t5 =>
  match crt_dup2 (b_set_out a) cw 1 t5 with
  | None => (left t5 [], None)
  | Some t6 =>
    let t7 := crt_close cw (crt_close pr t6) in
    if run a name then
      let l := [{| SpawnModel.l_fds := Some (inherited t7); SpawnModel.l_in := p; SpawnModel.l_out := S p |}] in
      match give_back (b_back_in a) sin 0 t7 with
      | None => (left t7 l, None)
      | Some t8 =>
      match give_back (b_back_out a) sout 1 t8 with
      | None => (left t8 l, None)
      | Some t9 =>
        (left t9 l, if b_calloc a then Some {| SpawnModel.c_to := pw; SpawnModel.c_from := cr; SpawnModel.c_lve := length (w_lves s) |} else None)
      end end
    else (left t7 [], None)
  end end end end end end.

(** mlle_connections_free, tool/mlle_licensing.c:48-63, on the descriptors. *)
Definition close_connection (c : SpawnModel.connection) (s : system) : system :=
  {| w_tool := crt_close (SpawnModel.c_from c) (crt_close (SpawnModel.c_to c) (w_tool s)); w_lves := w_lves s; w_conns := w_conns s; w_next := w_next s |}.
(** mlle_start_executable, tool/mlle_licensing.c:65-98. *)
Definition start (limit : nat) (a : calls) (name : bytes) (s : system) : system * option SpawnModel.connection :=
  match spawn limit a name s with
  | (s', Some c) => if b_setup a && b_handshake a then (s', Some c) else (close_connection c s', None)
  | (s', None) => (s', None)
  end.

(** ** Histories, as in SpawnModel *)

(** The tool starts an LVE, frees a connection, opens a file ([Open k inherit]) or closes one of its own (not a standard stream); an
    LVE ends. *)
Inductive event := Start (a : calls) (name : bytes) | Free (i : nat) | Ended (j : nat) | Open (k : nat) (inherit : bool) | Close (n : nat).
(** The effect of an event. *)
Definition step (limit : nat) (s : system) (e : event) : system :=
  match e with
  | Start a name =>
      let (s', c) := start limit a name s in
      {| w_tool := w_tool s'; w_lves := w_lves s'; w_conns := w_conns s' ++ [c]; w_next := w_next s' |}
  | Free i =>
      match nth i (w_conns s) None with
      | Some c =>
          let s' := close_connection c s in
          {| w_tool := w_tool s'; w_lves := w_lves s'; w_conns := SpawnModel.replace i None (w_conns s'); w_next := w_next s' |}
      | None => s
      end
  | Ended j =>
      {| w_tool := w_tool s;
         w_lves := match nth_error (w_lves s) j with
                   | Some l => SpawnModel.replace j {| SpawnModel.l_fds := None; SpawnModel.l_in := SpawnModel.l_in l; SpawnModel.l_out := SpawnModel.l_out l |} (w_lves s)
                   | None => w_lves s
                   end;
         w_conns := w_conns s; w_next := w_next s |}
  | Open k inh =>
      {| w_tool := match alloc limit (Handle (Elsewhere k) inh) (w_tool s) with Some (_, t) => t | None => w_tool s end;
         w_lves := w_lves s; w_conns := w_conns s; w_next := w_next s |}
  | Close n =>
      {| w_tool := if 2 <=? n then match get (w_tool s) n with Handle (Elsewhere _) _ => crt_close n (w_tool s) | _ => w_tool s end else w_tool s;
         w_lves := w_lves s; w_conns := w_conns s; w_next := w_next s |}
  end.
(** A tool that has not started an LVE yet. *)
Definition initial (t : table) : system := {| w_tool := t; w_lves := []; w_conns := []; w_next := 0 |}.
Definition after (limit : nat) (t : table) (es : list event) : system := fold_left (step limit) es (initial t).
