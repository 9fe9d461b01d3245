(** C103: LVEs that have ended leave nothing behind. *)
From Coq Require Import List Arith Bool.
From Verif Require Import SpawnModel SpawnSpec SpawnProps ReapModel ReapProofs.
Import ListNotations.

(** The tool does not wait for its children itself.  Then it can start only so many LVEs, in its whole life, as a process may
    have children, whatever it frees and whatever has ended ... *)
Theorem C103_refuted : forall limit nproc t hs, Forall (fun h => h <> Wait) hs -> length (s_lves (r_system (history limit nproc t hs))) <= nproc.
Proof. exact ever. Qed.
Print Assumptions C103_refuted.
(** ... and all further calls of mlle_start_executable fail. *)
Theorem C103_exhausted_refuted : forall limit nproc t hs a, Forall (fun h => h <> Wait) hs -> length (s_lves (r_system (history limit nproc t hs))) = nproc ->
  snd (start_limited limit nproc a (history limit nproc t hs)) = None.
Proof.
  intros limit nproc t hs a F E. apply no_more. unfold children. rewrite (never_waited _ _ _ _ F), E, Nat.sub_0_r. apply Nat.le_refl.
Qed.
Print Assumptions C103_exhausted_refuted.
(** Three LVEs are started, used and freed and end; a fourth cannot be started. *)
Definition rounds (n : nat) : list happening := concat (map (fun i => [Lib (Start fine); Lib (Free i); Lib (Ended i)]) (seq 0 n)).
Example C103_ex : Forall (fun h => h <> Wait) (rounds 3) /\ length (s_lves (r_system (history 1024 3 shell (rounds 3)))) = 3 /\
  Forall (fun c => c = None) (s_conns (r_system (history 1024 3 shell (rounds 3)))) /\ Forall (fun l => l_fds l = None) (s_lves (r_system (history 1024 3 shell (rounds 3)))) /\
  snd (start_limited 1024 3 fine (history 1024 3 shell (rounds 3))) = None /\ snd (start_limited 1024 4 fine (history 1024 4 shell (rounds 3))) <> None.
Proof.
  split; [repeat (apply Forall_cons; [discriminate|]); apply Forall_nil|]. split; [vm_compute; reflexivity|].
  split; [vm_compute; repeat (apply Forall_cons; [reflexivity|]); apply Forall_nil|]. split; [vm_compute; repeat (apply Forall_cons; [reflexivity|]); apply Forall_nil|].
  split; [vm_compute; reflexivity|vm_compute; discriminate].
Qed.

(** A tool that waits as often as LVEs have ended has no more children than LVEs that run.  Missing: the library does not do
    this. *)
Theorem C103_wait_partial : forall limit nproc t hs, let r := history limit nproc t hs in
  children (history limit nproc t (hs ++ repeat Wait (ended (r_system r)))) =
  length (filter (fun l => match l_fds l with Some _ => true | None => false end) (s_lves (r_system r))).
Proof.
  intros limit nproc t hs. unfold history. rewrite fold_left_app. apply (wait_all limit nproc (history limit nproc t hs)). apply history_inv.
Qed.
Print Assumptions C103_wait_partial.
Example C103_wait_ex : children (history 1024 3 shell (rounds 3)) = 3 /\ children (history 1024 3 shell (rounds 3 ++ [Wait; Wait; Wait])) = 0 /\
  snd (start_limited 1024 3 fine (history 1024 3 shell (rounds 3 ++ [Wait; Wait; Wait]))) <> None.
Proof. vm_compute. repeat split; discriminate. Qed.
