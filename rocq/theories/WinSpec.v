(** What is said about processes on Windows: which descriptor refers to what. *)
From Verif Require Import Base WinModel.
From Verif Require SpawnModel SpawnSpec.

(** What a descriptor of the tool refers to. *)
Definition refers (t : table) (n : nat) : option object := match get t n with Handle o _ => Some o | _ => None end.
(** The tool has a standard input and a standard output. *)
Definition Streams (t : table) : Prop := refers t 0 <> None /\ refers t 1 <> None.
(** A program without console: it has none, and their numbers are not used for other things. *)
Definition Detached (t : table) : Prop := get t 0 = NoConsole /\ get t 1 = NoConsole.
(** A tool that has nothing to do with the pipes of SEMLA. *)
Definition Own (t : table) : Prop := forall n o, refers t n = Some o -> exists k, o = Elsewhere k.
(** The LVE number [j] runs with these descriptors. *)
Definition Alive (s : system) (j : nat) (t : SpawnModel.table) : Prop :=
  exists l, nth_error (w_lves s) j = Some l /\ SpawnModel.l_fds l = Some t.
(** Some process has the object open (see SpawnSpec.HeldBySome). *)
Definition HeldBySome (s : system) (o : object) : Prop :=
  (exists n, refers (w_tool s) n = Some o) \/ exists j t, Alive s j t /\ SpawnSpec.Holds t o.
(** The connection returned by the start number [i] has not been freed. *)
Definition Connected (s : system) (i : nat) (c : SpawnModel.connection) : Prop := nth_error (w_conns s) i = Some (Some c).
(** Giving back the standard streams does not fail (both numbers are in use, so it need not). *)
Definition GivesBack (e : event) : Prop := match e with Start a _ => b_back_in a = true /\ b_back_out a = true | _ => True end.
(** All calls up to the start of the process succeed. *)
Definition Prepares (a : calls) : Prop :=
  b_pipe1 a = true /\ b_pipe2 a = true /\ b_save_in a = true /\ b_save_out a = true /\ b_set_in a = true /\ b_set_out a = true.
