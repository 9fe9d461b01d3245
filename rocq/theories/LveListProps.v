(** Theorems about the list of LVEs that packagetool keeps. *)
From Verif Require Import Base LveListModel LveListProofs.

(** Three names, and the LVEs next to packagetool. *)
Definition three : list bytes := [B "lve_win64.exe"; B "lve_linux64"; B "lve_darwin64"].
Definition two_there (n : bytes) : bool := negb (beq n (B "lve_linux64")).

(** ** C112: the list of LVEs *)

(** Every run uses the list properly: nothing that is not allocated is used or freed, whatever fails; and the manifest lists exactly the LVEs
    that are there, in the order of the names. *)
Theorem C112_run : forall enc oks dir present copied extra manifest rest names,
  exists l done g, do_work enc oks dir present copied extra manifest rest names = Ok (l, done, g) /\
    forall x, l = Some x -> x = if enc then filter present names else [].
Proof. exact works. Qed.
Print Assumptions C112_run.
Example C112_run_ex : do_work true [] true two_there (fun _ => true) true true true three =
    Ok (Some [B "lve_win64.exe"; B "lve_darwin64"], true, {| g_array := None; g_cells := []; g_mem := {| m_live := [2]; m_next := 4 |} |}) /\
  do_work true [true; true; false] true two_there (fun _ => true) true true true three =
    Ok (None, false, {| g_array := Some 0; g_cells := [Text 1 None; Null; Unset]; g_mem := {| m_live := [1]; m_next := 2 |} |}).
Proof. split; reflexivity. Qed.

(** If nothing fails the run comes to its end, with cleanUp. *)
Theorem C112_completed : forall enc oks present copied names,
  (forall b, In b oks -> b = true) -> (forall n, In n names -> present n = true -> copied n = true) ->
  exists g, do_work enc oks true present copied true true true names = Ok (Some (if enc then filter present names else []), true, g).
Proof. exact completes. Qed.
Print Assumptions C112_completed.
Example C112_completed_ex : exists g, do_work false [true] true two_there (fun _ => false) true true true three = Ok (Some [], true, g).
Proof. eexists. reflexivity. Qed.

(** With all LVEs there (or without encryption) cleanUp frees all of it. *)
Theorem C112_freed_partial : forall enc oks dir present copied extra manifest rest names l g,
  (enc = true -> forall n, In n names -> present n = true) ->
  do_work enc oks dir present copied extra manifest rest names = Ok (l, true, g) -> g_array g = None /\ m_live (g_mem g) = [].
Proof. exact freed. Qed.
Print Assumptions C112_freed_partial.
Example C112_freed_ex : do_work true [] true (fun _ => true) (fun _ => true) true true true three =
  Ok (Some three, true, {| g_array := None; g_cells := []; g_mem := {| m_live := []; m_next := 4 |} |}).
Proof. reflexivity. Qed.

(** With an LVE missing its block is lost: cleanUp cannot free it. *)
Theorem C112_lost_refuted : forall oks dir present copied extra manifest rest names l g n,
  In n names -> present n = false ->
  do_work true oks dir present copied extra manifest rest names = Ok (l, true, g) -> g_array g = None /\ m_live (g_mem g) <> [].
Proof. exact kept. Qed.
Print Assumptions C112_lost_refuted.
Example C112_lost_ex : In (B "lve_linux64") three /\ two_there (B "lve_linux64") = false /\
  exists l g, do_work true [] true two_there (fun _ => true) true true true three = Ok (l, true, g).
Proof. split; [right; now left|]. split; [reflexivity|]. eexists _, _. reflexivity. Qed.

(** After createCopyArray has failed for want of memory neither cleanUp nor a second attempt is possible: lveList still points to the array that was freed. *)
Theorem C112_dangling_refuted : forall oks n, In false (firstn n oks) ->
  exists g, create (true :: oks) n at_start = Ok (false, g) /\ clean_up g = UB UseAfterFree /\ create [] n g = Ok (true, g) /\ use g = UB UseAfterFree.
Proof. exact dangling. Qed.
Print Assumptions C112_dangling_refuted.
Example C112_dangling_ex : In false (firstn 5 [true; true; false]) /\
  create [true; true; true; false] 5 at_start = Ok (false, {| g_array := Some 0; g_cells := [Text 1 None; Text 2 None; Null; Unset; Unset]; g_mem := {| m_live := [2; 1]; m_next := 3 |} |}).
Proof. split; [right; right; now left|reflexivity]. Qed.
