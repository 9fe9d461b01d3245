(** Theorems about OpenSSL's error queue and the calls of the tool library. *)
From Verif Require Import Base WireModel SslModel SslSpec ToolModel QueueModel QueueSpec QueueProofs.

(** ** C105: a reply that can be read is read, and one that cannot is reported with the reason *)

(** A failure for which OpenSSL notes a reason is reported with that reason, whatever the tool has done before, whichever call it makes and
    however much of the record has been read.  Missing from the full statement: failures without a reason, see below. *)
Theorem C105_reason_partial : forall h k pre c raised e tail, Forall Piece pre -> length (printed e) <= 4000 ->
  exists x, Reports x e /\ ask always k (after h) (pre ++ Fails c (raised ++ [e]) :: tail) = Ok (None, Some x, [], tail).
Proof. intros h k pre c raised e tail P L. apply (last_reported pre c (raised ++ [e]) tail (after h) e (after h ++ raised) k P (app_assoc _ _ _) L). Qed.
Print Assumptions C105_reason_partial.
(** If nothing has left errors in the queue, a record is read in spite of interruptions, and no errors are left.  Missing: see below. *)
Theorem C105_record_partial : forall h r rs tail, Forall Orderly h -> Delivers r rs -> read_message always (after h) (rs ++ tail) = Ok (MsgOk r, [], tail).
Proof. intros h r rs tail H D. rewrite (after_orderly h H). apply record_read, D. Qed.
Print Assumptions C105_record_partial.

(** An error that OpenSSL raises. *)
Definition lost : entry := {| e_sys := true; e_reason := Some (B "Connection reset by peer") |}.
(** SSL_shutdown after a failed handshake. *)
Definition in_init : entry := {| e_sys := false; e_reason := Some (B "shutdown while in init") |}.
(** A reply that is interrupted once, and one that is read in two pieces. *)
Definition yes : list reading := [Fails Again []; Data (B "YES" ++ [LF]) 0 false].
Definition no : list reading := [Data (B "NO 6" ++ [LF]) 6 false; Data (B "denied") 0 false].
Lemma yes_delivers : Delivers (B "YES" ++ [LF]) yes /\ Delivers (B "YES" ++ [LF]) (tl yes) /\ Delivers (B "NO 6" ++ [LF] ++ B "denied") no.
Proof.
  split; [apply D_again, D_last; discriminate|]. split; [apply D_last; discriminate|].
  apply (D_piece (B "NO 6" ++ [LF]) (B "denied")); try discriminate. apply D_last; discriminate.
Qed.
(** A tool with a connection starts a second LVE and that fails. *)
Definition failed_start : action := Start (NoHandshake [] Gone [lost] [in_init]).
Example C105_reason_ex :
  ask always (File (B "a.mo")) (after [Start (Started []); failed_start]) [Data (B "FILECONT 9") 10 false; Fails Gone [lost]] =
    Ok (None, Some {| err_domain := 1; err_code := 1; err_text := Some (B "SSL_ERROR_SSL. reason: Connection reset by peer") |}, [], []) /\
  Forall Orderly [Start (Started []); Send None; Call always (Feature (B "f")) yes; Free []] /\
  ask always (Feature (B "f")) (after [Start (Started []); Send None; Call always (Feature (B "f")) yes]) no =
    Ok (None, Some {| err_domain := 2; err_code := 3; err_text := Some (B "denied") |}, [], []).
Proof. split; [vm_compute; reflexivity|]. split; [do 4 (apply Forall_cons; [exact I || reflexivity|]); apply Forall_nil|vm_compute; reflexivity]. Qed.

(** If the LVE closes the connection or ends without OpenSSL noting a reason, the error of the call has an empty text. *)
Theorem C105_silent_refuted : forall h k pre c tail, Forall Orderly h -> Forall Piece pre -> c = Closed \/ c = Gone ->
  ask always k (after h) (pre ++ Fails c [] :: tail) = Ok (None, Some {| err_domain := 1; err_code := 1; err_text := Some [] |}, [], tail).
Proof. intros h k pre c tail H P C. rewrite (after_orderly h H). exact (silent pre c tail k P C). Qed.
Print Assumptions C105_silent_refuted.

(** After something else has failed, for example the start of another LVE, such an end is reported with the reason of that: the error
    that SSL_shutdown raised for the connection that never was. *)
Theorem C105_foreign_refuted : forall h a e h2 k pre c tail, Leaves e a -> Forall Works h2 -> Forall Piece pre -> length (printed e) <= 4000 ->
  exists x, Reports x e /\ ask always k (after (h ++ a :: h2)) (pre ++ Fails c [] :: tail) = Ok (None, Some x, [], tail).
Proof.
  intros h a e h2 k pre c tail La H P L. destruct (after_failed e h a h2 La H) as [q E]. rewrite E.
  apply (last_reported pre c [] tail (q ++ [e]) e q k P (app_nil_r _) L).
Qed.
Print Assumptions C105_foreign_refuted.

(** And an interrupted call on a connection that is all right is not repeated but fails.  Its answer is still to be read, and is taken for
    the answer to the next call: a feature that the LVE denies is granted. *)
Theorem C105_interrupted_refuted : forall h a e h2 f g rs1 rs2 tail, Leaves e a -> Forall Works h2 -> length (printed e) <= 4000 ->
  Delivers (B "YES" ++ [LF]) rs1 ->
  Delivers (B "YES" ++ [LF]) (Fails Again [] :: rs1) /\
  (exists x, Reports x e /\
    ask always (Feature f) (after (h ++ a :: h2)) (Fails Again [] :: rs1 ++ rs2 ++ tail) = Ok (None, Some x, [], rs1 ++ rs2 ++ tail)) /\
  ask always (Feature g) [] (rs1 ++ rs2 ++ tail) = Ok (Some One, None, [], rs2 ++ tail).
Proof.
  intros h a e h2 f g rs1 rs2 tail La H L D. split; [apply D_again, D|]. split; [|apply next_yes, D].
  destruct (after_failed e h a h2 La H) as [q E]. rewrite E.
  apply (last_reported [] Again [] (rs1 ++ rs2 ++ tail) (q ++ [e]) e q (Feature f) (Forall_nil _) (app_nil_r _) L).
Qed.
Print Assumptions C105_interrupted_refuted.

Example C105_ex :
  let h := [Start (Started []); failed_start; Send None; Call always (Feature (B "f")) no] in
  Leaves in_init failed_start /\ Forall Works [Send None; Call always (Feature (B "f")) no] /\
  ask always (File (B "a.mo")) (after h) [Fails Gone []] =
    Ok (None, Some {| err_domain := 1; err_code := 1; err_text := Some (B "SSL_ERROR_SSL. reason: shutdown while in init") |}, [], []) /\
  ask always (Feature (B "f")) (after h) (yes ++ no) =
    Ok (None, Some {| err_domain := 1; err_code := 1; err_text := Some (B "SSL_ERROR_SSL. reason: shutdown while in init") |}, [], tl yes ++ no) /\
  ask always (Feature (B "g")) (after (h ++ [Call always (Feature (B "f")) (yes ++ no)])) (tl yes ++ no) = Ok (Some One, None, [], no).
Proof.
  split; [exact (L_handshake in_init [] Gone [lost] [])|].
  split. { apply Forall_cons; [exact I|]. apply Forall_cons; [|apply Forall_nil]. split; [reflexivity|]. split; [eexists; apply yes_delivers|].
    do 2 (apply Forall_cons; [exact I|]). apply Forall_nil. }
  split; [vm_compute; reflexivity|]. split; vm_compute; reflexivity.
Qed.
