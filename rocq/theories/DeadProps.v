(** Theorems about LVEs that end while the tool uses them. *)
From Coq Require Import List Arith Bool.
Import ListNotations.
From Verif Require Import SpawnModel SpawnSpec SpawnProofs SpawnHist SpawnThms SpawnProps DeadModel DeadSpec DeadProofs DeadStart.

(** In all theorems: any history of starts, frees, ends and files of the tool; a connection that has not been freed; any schedule of what
    happens outside the tool before and in its system calls. *)

(** Two LVEs with nothing in the pipes. *)
Definition two : state := {| g_sys := after 1024 shell [Start fine; Start fine]; g_box := fun _ => 0 |}.
(** The connections to them. *)
Definition first : connection := {| c_to := 4; c_from := 5; c_lve := 0 |}.
Definition second : connection := {| c_to := 7; c_from := 8; c_lve := 1 |}.
(** How a call ends. *)
Inductive ending := Returns (ok : bool) | Dies | Waits.
Definition ending_of (f : fate) : ending := match f with Returned b _ => Returns b | Killed _ => Dies | Waiting _ => Waits end.

(** ** C95: the tool survives LVEs that end *)

(** A call is answered if the LVE takes the request and writes its reply before it ends, whatever the other LVEs do and whether SIGPIPE is
    ignored or not; and the whole reply is read.  Partial: the refutations below. *)
Theorem C95_answered_partial : forall limit t es i c st ignored checks broken req rep sched tb,
  Own t -> length t <= limit -> g_sys st = after limit t es -> Connected (g_sys st) i c ->
  Alive (g_sys st) (c_lve c) tb -> Stays (c_lve c) (firstn (S req) sched) -> rep < said (c_lve c) (concat sched) ->
  exists st', run ignored (api checks broken c req rep) sched st = Returned true st' /\
    (Quiet st c -> said (c_lve c) (concat sched) = S rep -> Quiet st' c).
Proof. exact answered. Qed.
Print Assumptions C95_answered_partial.
(** The first LVE ends during the call; the second writes a record of the reply, another one, and ends. *)
Example C95_answered_ex : Connected (g_sys two) 1 second /\ ending_of (run false (api false false second 0 1) [[]; [Ends 0; Writes 1]; []; [Writes 1; Ends 1]] two) = Returns true.
Proof. split; reflexivity. Qed.

(** An LVE that has ended before the call: the call that looks at the result of sending (mlle_tool_version), or one after which OpenSSL
    does not read, returns an error — if the embedding program ignores SIGPIPE. *)
Theorem C95_gone_partial : forall limit t es i c st checks broken req rep sched,
  Own t -> length t <= limit -> g_sys st = after limit t es -> Connected (g_sys st) i c ->
  Gone (fold_left happen (hd [] sched) st) (c_lve c) -> checks = true \/ broken = true ->
  exists st', run true (api checks broken c req rep) sched st = Returned false st'.
Proof. exact gone_checked. Qed.
Print Assumptions C95_gone_partial.
Example C95_gone_ex : ending_of (run true (api true false second 2 0) [[Ends 1]] two) = Returns false.
Proof. reflexivity. Qed.

(** mlle_connections_free returns, with the two descriptors and no others closed, if the LVE runs or SIGPIPE is ignored or no alert is
    sent. *)
Theorem C95_free_partial : forall limit t es i c st ignored alert b sched,
  Own t -> length t <= limit -> g_sys st = after limit t es -> Connected (g_sys st) i c ->
  ignored = true \/ alert = false \/ ~ Gone (fold_left happen (hd [] sched) st) (c_lve c) ->
  exists st', run ignored (free alert c (Return b)) sched st = Returned b st' /\ ClosedOnly st st' c.
Proof. exact gone_free. Qed.
Print Assumptions C95_free_partial.
Example C95_free_ex : match run true (free true second (Return true)) [[Ends 1]] two with
  | Returned true st => s_tool (g_sys st) = shell ++ [None; Some (WriteEnd 0); Some (ReadEnd 1); Some (WriteEnd 1); None; None; Some (WriteEnd 3)]
  | _ => False end.
Proof. reflexivity. Qed.

(** Full statement refuted: with SIGPIPE as it is by default, every call on the connection of an LVE that has ended kills the tool, and so
    does freeing the connection. *)
Theorem C95_killed_refuted : forall limit t es i c st checks broken req rep k sched,
  Own t -> length t <= limit -> g_sys st = after limit t es -> Connected (g_sys st) i c ->
  Gone (fold_left happen (hd [] sched) st) (c_lve c) ->
  (exists st', run false (api checks broken c req rep) sched st = Killed st') /\ exists st', run false (free true c k) sched st = Killed st'.
Proof. exact gone_killed. Qed.
Print Assumptions C95_killed_refuted.
Example C95_killed_ex : ending_of (run false (free true first (Return true)) [[Ends 0]] two) = Dies /\
  ending_of (run false (api true true first 0 0) [[Ends 0]] two) = Dies /\ ending_of (run false (api true true second 0 0) [[Ends 0; Writes 1]] two) = Returns true.
Proof. repeat split. Qed.

(** An LVE that takes the request and ends without a reply: the call waits for ever, with SIGPIPE ignored or not, checked or not. *)
Theorem C95_silent_refuted : forall limit t es i c st ignored checks broken req rep sched tb,
  Own t -> length t <= limit -> g_sys st = after limit t es -> Connected (g_sys st) i c ->
  Alive (g_sys st) (c_lve c) tb -> Quiet st c -> Silent (c_lve c) sched -> Stays (c_lve c) (firstn (S req) sched) ->
  exists st', run ignored (api checks broken c req rep) sched st = Waiting st'.
Proof. exact silent_late. Qed.
Print Assumptions C95_silent_refuted.
Example C95_silent_ex : Quiet two first /\ ending_of (run true (api true true first 0 0) [[]; [Ends 0]; [Writes 1]; [Ends 1]] two) = Waits.
Proof. split; [now intros|reflexivity]. Qed.

(** Whenever an LVE ends, before, while or after the request is sent: without a reply, no call returns.  With SIGPIPE ignored this is so
    for the calls that do not look at the result of sending, if OpenSSL still reads. *)
Theorem C95_never_refuted : forall limit t es i c st ignored checks broken req rep sched,
  Own t -> length t <= limit -> g_sys st = after limit t es -> Connected (g_sys st) i c ->
  Quiet st c -> Silent (c_lve c) sched -> ignored = false \/ (checks = false /\ broken = false) ->
  forall b st', run ignored (api checks broken c req rep) sched st <> Returned b st'.
Proof. exact silent_never. Qed.
Print Assumptions C95_never_refuted.
Example C95_never_ex : ending_of (run true (api false false first 1 0) [[]; [Ends 0]] two) = Waits /\ ending_of (run false (api true true first 1 0) [[]; [Ends 0]] two) = Dies.
Proof. split; reflexivity. Qed.

(** mlle_start_executable does not return NULL when the LVE ends before it has written anything (for instance because it cannot be
    executed): it does not return. *)
Theorem C95_start_refuted : forall limit t es a s' c st more sched,
  Own t -> length t <= limit -> spawn limit a (after limit t es) = (s', Some c) -> g_sys st = s' ->
  Quiet st c -> Silent (c_lve c) sched -> forall b st', run false (connect c more) sched st <> Returned b st'.
Proof. exact start_never. Qed.
Print Assumptions C95_start_refuted.
(** The calls succeed but execl(). *)
Definition unexecutable : calls :=
  {| a_access := true; a_pipe1 := true; a_pipe2 := true; a_fork := true; a_exec := false; a_calloc := true; a_setup := true; a_handshake := true |}.
Definition spawned_by (a : calls) : state := {| g_sys := fst (spawn 1024 a (initial shell)); g_box := fun _ => 0 |}.
Example C95_start_ex : snd (spawn 1024 unexecutable (initial shell)) = Some first /\
  ending_of (run false (connect first []) [] (spawned_by unexecutable)) = Dies /\
  ending_of (run false (connect first []) [[]; [Ends 0]] (spawned_by fine)) = Waits /\
  ending_of (run false (connect first [true; false]) [[]; [Writes 0]; []; [Writes 0; Ends 0]] (spawned_by fine)) = Returns true.
Proof. repeat split. Qed.

(** mlle_start_executable returns a connection if the LVE goes on and writes its part of the handshake, and closes nothing then. *)
Theorem C95_started_partial : forall limit t es a s' c st ignored more sched tb,
  Own t -> length t <= limit -> spawn limit a (after limit t es) = (s', Some c) -> g_sys st = s' ->
  Alive (g_sys st) (c_lve c) tb -> Stays (c_lve c) sched -> count_occ bool_dec more false < said (c_lve c) (concat sched) ->
  exists st', run ignored (connect c more) sched st = Returned true st' /\ s_tool (g_sys st') = s_tool s'.
Proof. exact started. Qed.
Print Assumptions C95_started_partial.
Example C95_started_ex : Stays 0 [[]; [Writes 0]; []; [Writes 0]] /\ said 0 (concat [[]; [Writes 0]; []; [Writes 0]]) = 2 /\ count_occ bool_dec [true; false] false = 1 /\
  ending_of (run false (connect first [true; false]) [[]; [Writes 0]; []; [Writes 0]] (spawned_by fine)) = Returns true.
Proof. split; [|split; [|split]]; try reflexivity. intros h [<-|[<-|[<-|[<-|[]]]]]; intros [E|[]] || intros []; discriminate. Qed.

(** It returns a connection only if the LVE has written every record of its part. *)
Theorem C95_heard : forall limit t es a s' c st ignored more sched st',
  Own t -> length t <= limit -> spawn limit a (after limit t es) = (s', Some c) -> g_sys st = s' ->
  Quiet st c -> run ignored (connect c more) sched st = Returned true st' -> count_occ bool_dec more false < said (c_lve c) (concat sched).
Proof. exact start_true. Qed.
Print Assumptions C95_heard.
Example C95_heard_ex : ending_of (run true (connect first [true; false]) [[]; [Writes 0]; []; [Ends 0]] (spawned_by fine)) = Waits /\
  ending_of (run true (connect first [true; false]) [[]; [Writes 0]; [Ends 0]; [Writes 0]] (spawned_by fine)) = Returns false.
Proof. split; reflexivity. Qed.

(** With SIGPIPE ignored, an LVE that has ended before the first write makes it return NULL, with both descriptors closed. *)
Theorem C95_start_gone_partial : forall limit t es a s' c st more sched,
  Own t -> length t <= limit -> spawn limit a (after limit t es) = (s', Some c) -> g_sys st = s' ->
  Gone (fold_left happen (hd [] sched) st) (c_lve c) ->
  exists st', run true (connect c more) sched st = Returned false st' /\ ClosedOnly st st' c.
Proof. exact start_gone. Qed.
Print Assumptions C95_start_gone_partial.
Example C95_start_gone_ex : match run true (connect first []) [] (spawned_by unexecutable) with
  | Returned false st' => get (s_tool (g_sys st')) 4 = None /\ get (s_tool (g_sys st')) 5 = None /\ get (s_tool (g_sys (spawned_by unexecutable))) 4 <> None
  | _ => False end.
Proof. vm_compute. split; [reflexivity|]. split; [reflexivity|discriminate]. Qed.
