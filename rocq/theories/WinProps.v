(** Theorems about the processes and pipes between the tool and the LVEs on Windows. *)
From Coq Require Import Arith.
From Verif Require Import Base WinModel WinSpec WinProofs WinHist WinThms.
From Verif Require SpawnModel SpawnSpec.
Import SpawnModel (l_fds, l_in, l_out, c_to, c_from, c_lve).

(** ** C75: the standard streams of the tool *)

(** A start that gives a connection: every descriptor refers to what it referred to, but for two new ones. *)
Theorem C75_streams_partial : forall limit a name s s' c, Streams (w_tool s) -> start limit a name s = (s', Some c) ->
  refers (w_tool s) (c_to c) = None /\ refers (w_tool s) (c_from c) = None /\
  forall n, n <> c_to c -> n <> c_from c -> refers (w_tool s') n = refers (w_tool s) n.
Proof. exact streams_kept. Qed.
Print Assumptions C75_streams_partial.
(** All calls succeed. *)
Definition fine : calls :=
  {| b_pipe1 := true; b_pipe2 := true; b_save_in := true; b_save_out := true; b_set_in := true; b_set_out := true; b_run := fun _ => true;
     b_back_in := true; b_back_out := true; b_calloc := true; b_setup := true; b_handshake := true |}.
(** The program cannot be started. *)
Definition missing : calls :=
  {| b_pipe1 := true; b_pipe2 := true; b_save_in := true; b_save_out := true; b_set_in := true; b_set_out := true; b_run := fun _ => false;
     b_back_in := true; b_back_out := true; b_calloc := true; b_setup := true; b_handshake := true |}.
(** Descriptors 0 to 2 of a console program. *)
Definition console : table := [Handle (Elsewhere 0) true; Handle (Elsewhere 1) true; Handle (Elsewhere 2) true].
(** A program without console. *)
Definition windowed : table := [NoConsole; NoConsole; NoConsole].
Example ex_own : Own console /\ Streams console /\ Detached windowed.
Proof.
  split; [|split; split; (discriminate || reflexivity)].
  intros [|[|[|[|n]]]] o H; try discriminate H; injection H as <-; eauto.
Qed.
Example ex_streams : start 512 fine (B "C:\lib\lve.exe") (after 512 console [Open 7 true]) =
  ({| w_tool := console ++ [Handle (Elsewhere 7) true; Unused; Handle (WriteEnd 0) false; Handle (ReadEnd 1) false; Unused; Unused; Unused];
      w_lves := [{| l_fds := Some [Some (ReadEnd 0); Some (WriteEnd 1); Some (Elsewhere 2); Some (Elsewhere 7); None; None; None; None;
                                   Some (Elsewhere 0); Some (Elsewhere 1)]; l_in := 0; l_out := 1 |}];
      w_conns := []; w_next := 2 |},
   Some {| c_to := 5; c_from := 6; c_lve := 0 |}).
Proof. reflexivity. Qed.

(** A program that cannot be started: afterwards the tool reads its input from, and writes its output to, pipes that no other process
    has. *)
Theorem C75_failed_start_refuted : forall limit t es a name, Own t -> Streams t -> Forall GivesBack es ->
  Prepares a -> (forall f, b_run a f = false) -> length (w_tool (after limit t es)) + 6 <= limit ->
  exists s' p q, start limit a name (after limit t es) = (s', None) /\
    refers (w_tool s') 0 = Some (ReadEnd p) /\ refers (w_tool s') 1 = Some (WriteEnd q) /\
    (forall o, o = ReadEnd p \/ o = WriteEnd q -> ~ HeldBySome (after limit t es) o) /\
    forall j tb, Alive s' j tb -> ~ SpawnSpec.Holds tb (ReadEnd p) /\ ~ SpawnSpec.Holds tb (WriteEnd q).
Proof. exact failed. Qed.
Print Assumptions C75_failed_start_refuted.
Example ex_failed : Prepares missing /\ w_tool (fst (start 512 missing (B "C:\lib\lve.exe") (after 512 console []))) =
  [Handle (ReadEnd 0) true; Handle (WriteEnd 1) true; Handle (Elsewhere 2) true; Unused; Handle (WriteEnd 0) false; Handle (ReadEnd 1) false; Unused;
   Handle (Elsewhere 0) true; Handle (Elsewhere 1) true].
Proof. repeat split. Qed.

(** A program without console: after a start its standard input and output are the LVE's ends of the pipes. *)
Theorem C75_no_console_refuted : forall limit a name s s' c, Detached (w_tool s) -> start limit a name s = (s', Some c) ->
  exists p q, refers (w_tool s') (c_to c) = Some (WriteEnd p) /\ refers (w_tool s') (c_from c) = Some (ReadEnd q) /\
    refers (w_tool s') 0 = Some (ReadEnd p) /\ refers (w_tool s') 1 = Some (WriteEnd q) /\ 2 <= c_to c /\ 2 <= c_from c.
Proof. exact detached. Qed.
Print Assumptions C75_no_console_refuted.
Example ex_no_console : start 512 fine (B "C:\lib\lve.exe") (initial windowed) =
  ({| w_tool := [Handle (ReadEnd 0) true; Handle (WriteEnd 1) true; NoConsole; Unused; Handle (WriteEnd 0) false; Handle (ReadEnd 1) false; Unused];
      w_lves := [{| l_fds := Some [Some (ReadEnd 0); Some (WriteEnd 1); None; None; None; None; None]; l_in := 0; l_out := 1 |}];
      w_conns := []; w_next := 2 |},
   Some {| c_to := 4; c_from := 5; c_lve := 0 |}).
Proof. reflexivity. Qed.

(** ** C76: a connection is a connection to the LVE that was started *)

Theorem C76_connected_partial : forall limit t es a name s' c, Own t -> Streams t -> Forall GivesBack es ->
  start limit a name (after limit t es) = (s', Some c) ->
  exists tb p q, Alive s' (c_lve c) tb /\
    SpawnModel.get tb 0 = Some (ReadEnd p) /\ refers (w_tool s') (c_to c) = Some (WriteEnd p) /\
    SpawnModel.get tb 1 = Some (WriteEnd q) /\ refers (w_tool s') (c_from c) = Some (ReadEnd q) /\ p <> q /\
    (forall o, o = ReadEnd p \/ o = WriteEnd p \/ o = ReadEnd q \/ o = WriteEnd q -> ~ HeldBySome (after limit t es) o) /\
    (forall n o, 2 <= n -> SpawnModel.get tb n = Some o -> (exists m, refers (w_tool (after limit t es)) m = Some o) /\
       forall i c', Connected (after limit t es) i c' ->
         refers (w_tool (after limit t es)) (c_to c') <> Some o /\ refers (w_tool (after limit t es)) (c_from c') <> Some o).
Proof. exact connected. Qed.
Print Assumptions C76_connected_partial.
Example ex_connected : start 512 fine (B "C:\b.exe") (after 512 console [Start fine (B "C:\a.exe"); Open 7 true]) =
  ({| w_tool := console ++ [Handle (Elsewhere 7) true; Handle (WriteEnd 0) false; Handle (ReadEnd 1) false; Unused; Handle (WriteEnd 2) false;
                            Handle (ReadEnd 3) false; Unused; Unused; Unused];
      w_lves := [{| l_fds := Some [Some (ReadEnd 0); Some (WriteEnd 1); Some (Elsewhere 2); None; None; None; None; Some (Elsewhere 0); Some (Elsewhere 1)];
                    l_in := 0; l_out := 1 |};
                 {| l_fds := Some [Some (ReadEnd 2); Some (WriteEnd 3); Some (Elsewhere 2); Some (Elsewhere 7); None; None; None; None; None; None;
                                   Some (Elsewhere 0); Some (Elsewhere 1)]; l_in := 2; l_out := 3 |}];
      w_conns := [Some {| c_to := 4; c_from := 5; c_lve := 0 |}]; w_next := 4 |},
   Some {| c_to := 7; c_from := 8; c_lve := 1 |}).
Proof. reflexivity. Qed.

(** A tool that has closed its standard input: the LVE has no standard input. *)
Theorem C76_closed_input_refuted : forall limit a name s s' c, get (w_tool s) 0 = Unused -> start limit a name s = (s', Some c) ->
  exists tb, Alive s' (c_lve c) tb /\ SpawnModel.get tb 0 = None.
Proof. exact closed. Qed.
Print Assumptions C76_closed_input_refuted.
Example ex_closed : snd (start 512 fine (B "C:\a.exe") (initial (Unused :: tl console))) = Some {| c_to := 3; c_from := 4; c_lve := 0 |} /\
  w_lves (fst (start 512 fine (B "C:\a.exe") (initial (Unused :: tl console)))) =
  [{| l_fds := Some [None; Some (WriteEnd 1); Some (Elsewhere 2); None; None; None; Some (ReadEnd 0); Some (Elsewhere 1)]; l_in := 0; l_out := 1 |}].
Proof. split; reflexivity. Qed.

(** ** C77: ends of LVEs, freed connections *)

(** The end of an LVE is seen in both directions, whatever other LVEs run. *)
Theorem C77_end_noticed_partial : forall limit t es i c, Own t -> Streams t -> Forall GivesBack es ->
  Connected (after limit t es) i c -> (forall tb, ~ Alive (after limit t es) (c_lve c) tb) ->
  exists p q, refers (w_tool (after limit t es)) (c_to c) = Some (WriteEnd p) /\ refers (w_tool (after limit t es)) (c_from c) = Some (ReadEnd q) /\
    ~ HeldBySome (after limit t es) (ReadEnd p) /\ ~ HeldBySome (after limit t es) (WriteEnd q).
Proof. exact end_noticed. Qed.
Print Assumptions C77_end_noticed_partial.
(** Freeing a connection closes the input of its LVE, whatever other LVEs run. *)
Theorem C77_freed_partial : forall limit t es i c, Own t -> Streams t -> Forall GivesBack es -> Connected (after limit t es) i c ->
  exists p q, refers (w_tool (after limit t es)) (c_to c) = Some (WriteEnd p) /\ refers (w_tool (after limit t es)) (c_from c) = Some (ReadEnd q) /\
    ~ HeldBySome (step limit (after limit t es) (Free i)) (WriteEnd p) /\ ~ HeldBySome (step limit (after limit t es) (Free i)) (ReadEnd q).
Proof. exact freed. Qed.
Print Assumptions C77_freed_partial.
(** Start and free leave no descriptor behind. *)
Theorem C77_restored_partial : forall limit a name s s' c, Streams (w_tool s) -> start limit a name s = (s', Some c) ->
  forall n, refers (w_tool (close_connection c s')) n = refers (w_tool s) n.
Proof. exact restored. Qed.
Print Assumptions C77_restored_partial.
(** Two LVEs; the first ends, and its connection is freed; between them a start that fails. *)
Definition story : list event :=
  [Start fine (B "C:\a.exe"); Start missing (B "C:\x.exe"); Start fine (B "C:\b.exe"); Ended 0].
Example ex_story : Forall GivesBack story /\ Connected (after 512 console story) 0 {| c_to := 4; c_from := 5; c_lve := 0 |} /\
  Connected (after 512 console story) 2 {| c_to := 8; c_from := 11; c_lve := 1 |} /\
  (exists tb, Alive (after 512 console story) 1 tb) /\ forall tb, ~ Alive (after 512 console story) 0 tb.
Proof.
  split; [repeat (apply Forall_cons || apply Forall_nil); cbn; auto|]. split; [vm_compute; reflexivity|]. split; [vm_compute; reflexivity|]. split.
  - eexists. eexists. split; vm_compute; reflexivity.
  - intros tb (l & H & F). vm_compute in H. injection H as <-. discriminate F.
Qed.

(** A program without console does not see the end of its LVE: it has the LVE's end of the pipe open itself. *)
Theorem C77_no_console_refuted : forall limit a name s s' c, Detached (w_tool s) -> start limit a name s = (s', Some c) ->
  exists q, refers (w_tool s') (c_from c) = Some (ReadEnd q) /\ HeldBySome (step limit s' (Ended (c_lve c))) (WriteEnd q).
Proof. exact detached_unnoticed. Qed.
Print Assumptions C77_no_console_refuted.
Example ex_no_console_end : refers (w_tool (after 512 windowed [Start fine (B "C:\a.exe"); Ended 0; Free 0])) 1 = Some (WriteEnd 1).
Proof. reflexivity. Qed.
