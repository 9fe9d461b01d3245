(** Pipes and processes, without reference to the code that sets them up. *)
From Coq Require Import List Arith.
Import ListNotations.
From Verif Require Import SpawnModel.

(** A descriptor refers to the object. *)
Definition Holds (t : table) (o : object) : Prop := exists n, get t n = Some o.
(** The LVE number [j] runs with these descriptors. *)
Definition Alive (s : system) (j : nat) (t : table) : Prop := exists l, nth_error (s_lves s) j = Some l /\ l_fds l = Some t.
(** Some process has the object open; a read from a pipe reports the end of the data only when no process has its write end open, a
    write to it fails only when no process has its read end open. *)
Definition HeldBySome (s : system) (o : object) : Prop := Holds (s_tool s) o \/ exists j t, Alive s j t /\ Holds t o.

(** A tool that has nothing to do with the pipes of SEMLA. *)
Definition Own (t : table) : Prop := forall n o, get t n = Some o -> exists k, o = Elsewhere k.
(** The connection returned by the start number [i] has not been freed. *)
Definition Connected (s : system) (i : nat) (c : connection) : Prop := nth_error (s_conns s) i = Some (Some c).
(** The number of descriptors in use. *)
Definition in_use (t : table) : nat := length (filter (fun x => match x with Some _ => true | None => false end) t).
(** The tool has ended. *)
Definition orphaned (s : system) : system := {| s_tool := []; s_lves := s_lves s; s_conns := []; s_next := s_next s |}.
