(** C87, C88: theorems about the use of memory and file streams. *)
From Verif Require Import Base ParseModel WireModel SslModel LveModel LveProps ToolModel MemModel MemSpec
  MemLve MemLeak MemToolModel MemTool.

(** ** C87: the library vendor executable *)

(** Whatever a tool sends, in whatever pieces, whatever the files, the licence manager and
    malloc do: up to the end of the process no block is freed twice, none is used after it
    was freed, nothing is freed that did not come from the allocator, and the same holds
    for streams. *)
Theorem C87_proper : forall D cfg key (rs : list (round D)), Proper (process_memory cfg key rs).
Proof. intros D cfg key rs. exact (proj1 (process_proper cfg key rs)). Qed.
Print Assumptions C87_proper.

(** As long as memory does not run out, what is held at any moment is bounded, however
    long the session is and whatever is asked for; and no stream stays open. *)
Theorem C87_bounded_partial : forall D cfg key (rs : list (round D)),
  Forall (fun r => Plenty (r_env r)) rs ->
  AtMost 11 (process_memory cfg key rs) /\
  streams (held (process_memory cfg key rs)) = [] /\
  length (held (process_memory cfg key rs)) <= 3.
Proof. exact @process_plenty. Qed.
Print Assumptions C87_bounded_partial.

(** In general every message costs at most one more block or stream. *)
Theorem C87_per_message : forall D cfg key (rs : list (round D)),
  AtMost (12 + length rs) (process_memory cfg key rs) /\
  length (held (process_memory cfg key rs)) <= 3 + length rs.
Proof. intros D cfg key rs. exact (proj2 (process_proper cfg key rs)). Qed.
Print Assumptions C87_per_message.

(** Not in general: a file that is larger than the memory costs a stream each time it is
    asked for. *)
Theorem C87_bounded_refuted : forall n, exists cfg key (rs : list (round unit)),
  length rs = 2 + n /\ length (streams (held (process_memory cfg key rs))) = n.
Proof.
  intros n. exists shop, (Some (B "key1")), (leaky n). split; [|apply leaky_streams].
  unfold leaky. rewrite app_length, repeat_length. reflexivity.
Qed.
Print Assumptions C87_bounded_refuted.

(** A session for the examples: VERSION, LIB, a refused feature, two files, a message in two
    pieces, and the end of the connection. *)
Definition chat (evs : list rev_ev) : round unit := {| r_env := world; r_reads := evs; r_shutdown := false |}.
Definition visit : list (round unit) :=
  [ chat [RData version_record 0 false]; chat [RData lib_record 0 false];
    chat [RData (line (B "FEATURE 6") ++ B "silver") 0 false];
    chat [RData (file_record (B "a.mo")) 0 false];
    chat [RData (line (B "FILE 5")) 5 false; RFail WANT_READ; RData (B "b.moc") 0 false];
    chat [RFail (OTHER_ERROR 5)] ].
Example C87_ex : Forall (fun r => Plenty (r_env r)) visit /\
  held (process_memory vendor (Some (B "key1")) visit) <> [] /\
  length (process_memory vendor (Some (B "key1")) visit) = 111 /\
  AtMost 11 (process_memory vendor (Some (B "key1")) visit).
Proof.
  assert (P : Forall (fun r => Plenty (r_env r)) visit).
  { repeat (apply Forall_cons; [split; [reflexivity|]|]); [intros p t..|apply Forall_nil]; cbn;
      repeat match goal with |- context[if ?b then _ else _] => destruct b end; discriminate. }
  split; [exact P|]. split; [|split; [vm_compute; reflexivity|exact (proj1 (C87_bounded_partial _ _ _ _ P))]].
  vm_compute. discriminate.
Qed.

(** The memory of the decryption context is not given back at the end: a session in which
    everything goes well. *)
Theorem C87_released_refuted : exists cfg key (rs : list (round unit)),
  Forall (fun r => Plenty (r_env r)) rs /\ held (process_memory cfg key rs) <> [].
Proof. exists vendor, (Some (B "key1")), visit. split; [apply C87_ex|apply C87_ex]. Qed.
Print Assumptions C87_released_refuted.

(** ** C88: the tool *)

(** Whatever the LVE sends, calls that come back free nothing twice and use nothing after it
    was freed, together with a caller that frees what it is handed. *)
Theorem C88_proper : forall us rs, Proper (calls_memory us rs).
Proof. intros us rs. exact (proj1 (calls_facts us rs)). Qed.
Print Assumptions C88_proper.

(** What calls leave behind is bounded by their number and the number of messages they
    read. *)
Theorem C88_bound_partial : forall us rs,
  AtMost (10 + 3 * length us + length rs) (calls_memory us rs) /\
  forall vs rest, results us rs = Some (vs, rest) ->
    length (held (calls_memory us rs)) + length rest <= 3 * length us + length rs.
Proof.
  intros us rs. pose proof (calls_facts us rs) as (_ & M & _ & H). split; [exact M|].
  intros vs rest E. exact (proj2 (H vs rest E)).
Qed.
Print Assumptions C88_bound_partial.

(** Nothing is left behind by a call whose results were freed: refuted.  Every successful
    call, whatever it is, leaves two blocks at least; and any number of calls can succeed. *)
Theorem C88_growth_refuted :
  (forall us rs vs rest, results us rs = Some (vs, rest) -> Forall (fun v => v <> None) vs ->
     2 * length us <= length (held (calls_memory us rs))) /\
  (forall n, exists us rs vs, length us = n /\ results us rs = Some (vs, []) /\ Forall (fun v => v <> None) vs).
Proof.
  split.
  - intros us rs vs rest E F. pose proof (calls_facts us rs) as (_ & _ & _ & H).
    destruct (H vs rest E) as [H1 _].
    rewrite (results_length _ _ _ _ E). rewrite (all_succeeded vs F) in H1. exact H1.
  - intros n. exists (repeat ask n), (repeat (RMsg (B "YES" ++ [LF])) n), (repeat (Some One) n).
    split; [apply repeat_length|]. split; [apply ask_n|].
    apply Forall_forall. intros v Hv. apply repeat_spec in Hv. subst v. discriminate.
Qed.
Print Assumptions C88_growth_refuted.

(** A library path that is accepted, a feature that is refused, a file in two messages. *)
Definition three : list use :=
  [ {| u_al := fun _ => true; u_broken := false; u_written := 0; u_call := LibPath (B "/lib"); u_all := true |};
    {| u_al := fun _ => true; u_broken := false; u_written := 0; u_call := Feature (B "f"); u_all := true |};
    {| u_al := fun _ => true; u_broken := false; u_written := 0; u_call := File (B "a.mo"); u_all := true |} ].
Definition replies : list rd :=
  [ RMsg (B "YES" ++ [LF]); RMsg (B "NO 2" ++ [LF] ++ B "no"); RMsg (B "FILECONT 5" ++ [LF] ++ B "he"); RMsg (B "llo") ].
Example C88_ex : (exists vs, results three replies = Some (vs, []) /\ map succeeded vs = [true; false; true]) /\
  length (held (calls_memory three replies)) = 8.
Proof.
  split; [|vm_compute; reflexivity].
  eexists. split; [vm_compute; reflexivity|reflexivity].
Qed.
