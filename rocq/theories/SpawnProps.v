(** Theorems about the processes and pipes between the tool and the LVEs. *)
From Coq Require Import List Arith Bool.
Import ListNotations.
From Verif Require Import SpawnModel SpawnSpec SpawnProofs SpawnHist SpawnThms.

(** In all theorems: any table of own descriptors of the tool, any limit, and any history of starts (with any failures of the calls),
    frees, ends of LVEs, and files opened and closed by the tool. *)

(** ** C62: a connection is a connection to the LVE that was started *)
Theorem C62_connected_partial : forall limit t es a s' c,
  Own t -> length t <= limit -> get (s_tool (after limit t es)) 0 <> None -> a_exec a = true ->
  start limit a (after limit t es) = (s', Some c) ->
  exists tb p q, Alive s' (c_lve c) tb /\
    get tb 0 = Some (ReadEnd p) /\ get (s_tool s') (c_to c) = Some (WriteEnd p) /\
    get tb 1 = Some (WriteEnd q) /\ get (s_tool s') (c_from c) = Some (ReadEnd q) /\ p <> q /\
    (forall o, o = ReadEnd p \/ o = WriteEnd p \/ o = ReadEnd q \/ o = WriteEnd q -> ~ HeldBySome (after limit t es) o) /\
    (forall n o, get (s_tool (after limit t es)) n = Some o -> get (s_tool s') n = Some o /\ (2 <= n -> get tb n = Some o)).
Proof. exact connected_stdio. Qed.
Print Assumptions C62_connected_partial.
(** All calls succeed. *)
Definition fine : calls :=
  {| a_access := true; a_pipe1 := true; a_pipe2 := true; a_fork := true; a_exec := true; a_calloc := true; a_setup := true; a_handshake := true |}.
(** Descriptors 0 to 2, as in a program started from a shell. *)
Definition shell : table := [Some (Elsewhere 0); Some (Elsewhere 1); Some (Elsewhere 2)].
Example ex_own : Own shell.
Proof. intros [|[|[|[|n]]]] o H; try discriminate H; injection H as <-; eauto. Qed.
Example ex_connected : start 1024 fine (after 1024 shell [Start fine; Open 7; Free 0]) =
  ({| s_tool := shell ++ [Some (Elsewhere 7); None; Some (WriteEnd 2); Some (WriteEnd 1); Some (ReadEnd 3); Some (WriteEnd 3)];
      s_lves := [{| l_fds := Some [Some (ReadEnd 0); Some (WriteEnd 1); Some (Elsewhere 2); None; None; None; None]; l_in := 0; l_out := 1 |};
                 {| l_fds := Some [Some (ReadEnd 2); Some (WriteEnd 3); Some (Elsewhere 2); Some (Elsewhere 7); None; None;
                                   Some (WriteEnd 1); None; None]; l_in := 2; l_out := 3 |}];
      s_conns := [None]; s_next := 4 |},
   Some {| c_to := 5; c_from := 7; c_lve := 1 |}).
Proof. reflexivity. Qed.

(** A tool without standard input gets a connection to a process that has ended. *)
Theorem C62_no_stdin_refuted : forall limit a s s' c,
  get (s_tool s) 0 = None -> spawn limit a s = (s', Some c) -> forall tb, ~ Alive s' (c_lve c) tb.
Proof. exact no_stdin. Qed.
Print Assumptions C62_no_stdin_refuted.
Example ex_no_stdin : spawn 1024 fine (initial [None; Some (Elsewhere 1); Some (Elsewhere 2)]) =
  ({| s_tool := [None; Some (Elsewhere 1); Some (Elsewhere 2); Some (WriteEnd 0); Some (ReadEnd 1); Some (WriteEnd 1)];
      s_lves := [{| l_fds := None; l_in := 0; l_out := 1 |}]; s_conns := []; s_next := 2 |},
   Some {| c_to := 3; c_from := 4; c_lve := 0 |}).
Proof. reflexivity. Qed.

(** ** C63: descriptors of the tool *)

(** Start and free leave the descriptors as they were, but for one. *)
Theorem C63_restored_partial : forall limit a s s' c, start limit a s = (s', Some c) ->
  exists n q, get (s_tool s) n = None /\ get (s_tool (close_connection c s')) n = Some (WriteEnd q) /\
    forall m, m <> n -> get (s_tool (close_connection c s')) m = get (s_tool s) m.
Proof. exact freed. Qed.
Print Assumptions C63_restored_partial.
Example ex_restored : s_tool (after 1024 shell [Start fine; Free 0]) = shell ++ [None; None; None; Some (WriteEnd 1)].
Proof. reflexivity. Qed.

(** A descriptor is in use for every LVE that was ever started, whatever has been freed: their number is bounded by the limit. *)
Theorem C63_leak_refuted : forall limit t es, Own t -> length t <= limit ->
  length (s_lves (after limit t es)) <= in_use (s_tool (after limit t es)) <= limit.
Proof. exact leaks. Qed.
Print Assumptions C63_leak_refuted.
Example ex_leak : let es := concat (map (fun i => [Start fine; Ended i; Free i]) (seq 0 20)) in
  length (s_lves (after 16 shell es)) = 10 /\ in_use (s_tool (after 16 shell es)) = 15 /\
  get (s_tool (after 16 shell es)) 14 <> None /\ length (filter (fun c => match c with Some _ => true | None => false end) (s_conns (after 16 shell es))) = 0.
Proof. vm_compute. repeat split; discriminate. Qed.

(** ** C64: the end of an LVE is noticed *)

(** By writing: nobody else can read. *)
Theorem C64_write_partial : forall limit t es i c, Own t -> length t <= limit -> Connected (after limit t es) i c ->
  (forall tb, ~ Alive (after limit t es) (c_lve c) tb) ->
  exists p, get (s_tool (after limit t es)) (c_to c) = Some (WriteEnd p) /\ ~ HeldBySome (after limit t es) (ReadEnd p).
Proof. exact write_fails. Qed.
Print Assumptions C64_write_partial.
Example ex_write : let s := after 1024 shell [Start fine; Start fine; Ended 0] in
  Connected s 0 {| c_to := 4; c_from := 5; c_lve := 0 |} /\ forall tb, ~ Alive s 0 tb.
Proof. split; [reflexivity|]. intros tb (l & H & F). vm_compute in H. injection H as <-. discriminate F. Qed.

(** Not by reading: the tool holds the write end of the pipe from which it reads. *)
Theorem C64_read_refuted : forall limit t es i c, Own t -> length t <= limit -> Connected (after limit t es) i c ->
  exists q, get (s_tool (after limit t es)) (c_from c) = Some (ReadEnd q) /\ Holds (s_tool (after limit t es)) (WriteEnd q).
Proof. exact unnoticed. Qed.
Print Assumptions C64_read_refuted.
Example ex_read : let s := after 1024 shell [Start fine; Ended 0] in
  Connected s 0 {| c_to := 4; c_from := 5; c_lve := 0 |} /\ get (s_tool s) 5 = Some (ReadEnd 1) /\ get (s_tool s) 6 = Some (WriteEnd 1).
Proof. repeat split. Qed.

(** ** C65: LVEs do not outlive the tool *)

(** The tool has ended, and any of the LVEs: while one is left, one of those left sees the end of its input. *)
Theorem C65_orphans_end : forall limit t es js k tk, Own t -> length t <= limit ->
  let s := fold_left (step limit) (map Ended js) (orphaned (after limit t es)) in
  Alive s k tk -> exists m tm p, Alive s m tm /\ get tm 0 = Some (ReadEnd p) /\ ~ HeldBySome s (WriteEnd p).
Proof. exact orphans_all. Qed.
Print Assumptions C65_orphans_end.
Example ex_orphans : let s := orphaned (after 1024 shell [Start fine; Start fine]) in
  (exists t0, Alive s 0 t0 /\ get t0 0 = Some (ReadEnd 0)) /\ (exists t1, Alive s 1 t1 /\ get t1 4 = Some (WriteEnd 0) /\ get t1 0 = Some (ReadEnd 2)).
Proof. split; eexists; (split; [eexists; split; reflexivity|]); repeat split. Qed.

(** ** C66: freeing a connection closes the input of the LVE *)

(** If no LVE that was started later runs. *)
Theorem C66_freed_partial : forall limit t es i c, Own t -> length t <= limit -> Connected (after limit t es) i c ->
  (forall k tk, Alive (after limit t es) k tk -> k <= c_lve c) ->
  exists p, get (s_tool (after limit t es)) (c_to c) = Some (WriteEnd p) /\
    ~ HeldBySome (step limit (after limit t es) (Free i)) (WriteEnd p).
Proof. exact input_holders. Qed.
Print Assumptions C66_freed_partial.
Example ex_freed : let s := after 1024 shell [Start fine; Start fine; Ended 0] in
  Connected s 1 {| c_to := 7; c_from := 8; c_lve := 1 |} /\ forall k tk, Alive s k tk -> k <= 1.
Proof.
  split; [reflexivity|]. intros [|[|k]] tk (l & H & F); [|apply le_n|]; [apply le_S, le_n|]. vm_compute in H. destruct k; discriminate H.
Qed.

(** Not if another LVE has been started meanwhile: it holds the input of the first open. *)
Theorem C66_inherited_refuted : forall limit t es i c a s' c', Own t -> length t <= limit -> Connected (after limit t es) i c -> 2 <= c_to c ->
  get (s_tool (after limit t es)) 0 <> None -> a_exec a = true -> start limit a (after limit t es) = (s', Some c') ->
  exists p tb, get (s_tool (after limit t es)) (c_to c) = Some (WriteEnd p) /\
    Alive (step limit (step limit (after limit t es) (Start a)) (Free i)) (c_lve c') tb /\ Holds tb (WriteEnd p).
Proof. exact inherited. Qed.
Print Assumptions C66_inherited_refuted.
Example ex_inherited : let s := after 1024 shell [Start fine] in
  Connected s 0 {| c_to := 4; c_from := 5; c_lve := 0 |} /\ snd (start 1024 fine s) = Some {| c_to := 7; c_from := 8; c_lve := 1 |} /\
  exists tb, Alive (after 1024 shell [Start fine; Start fine; Free 0]) 1 tb /\ get tb 4 = Some (WriteEnd 0).
Proof. split; [reflexivity|]. split; [reflexivity|]. eexists. split; [eexists; split; reflexivity|reflexivity]. Qed.
