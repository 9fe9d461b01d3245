(** Theorems about the arguments of an LVE that is started by a tool. *)
From Verif Require Import Base ParseModel WireModel LveModel LveSpec MainModel MainSpec MainProofs WinModel WinArgsModel WinArgsSpec WinArgsProofs.
From Verif Require LveProps WinProps.

(** ** C106: a started LVE serves the tool *)

(** On Linux, whatever the path of the LVE. *)
Theorem C106_linux : forall D cfg (e : env D) name, AllocOk e -> lve_main cfg e (posix_arguments name) = ([], Ok Served).
Proof. intros D cfg e name A. apply main_serves; [exact A|constructor]. Qed.
Print Assumptions C106_linux.

(** On Windows, if there are no spaces in the path, at the first or the second attempt.  Missing from the full statement: paths with spaces. *)
Theorem C106_windows_partial : forall D cfg (e : env D) a name n, AllocOk e -> NoBlank name -> started_as a name = Some n ->
  lve_main cfg e (win_arguments n) = ([], Ok Served).
Proof. intros D cfg e a name n A N S. rewrite (started_plain a name n N S). apply main_serves; [exact A|constructor]. Qed.
Print Assumptions C106_windows_partial.

(** If there is a space in the path, the LVE takes the next word for an option that it does not know, and ends. *)
Theorem C106_space_refuted : forall D cfg (e : env D) a name w n, Spaced name w -> ~ Dashed w -> length name < 4091 ->
  started_as a name = Some n -> lve_main cfg e (win_arguments n) = ([], Ok (Stopped Unexpected false)).
Proof. exact @started_spaced. Qed.
Print Assumptions C106_space_refuted.

(** So the tool gets no connection, whatever it does and whatever else succeeds. *)
Theorem C106_unusable_refuted : forall D cfg (e : env D) a name w limit s, Spaced name w -> ~ Dashed w -> length name < 4091 ->
  Answers cfg e a name -> snd (start limit a name s) = None.
Proof.
  intros D cfg e a name w limit s Sp Nd L An. apply no_handshake. destruct (b_handshake a) eqn:H; [|reflexivity].
  destruct (An H) as (n & S & M). rewrite (started_spaced cfg e a name w n Sp Nd L S) in M. discriminate M.
Qed.
Print Assumptions C106_unusable_refuted.

(** A library in the folder for programs. *)
Definition installed : bytes := B "C:\Program Files\Lib\.library\lve_win64.exe".
(** All calls succeed; but the program ends before the handshake. *)
Definition ended : calls :=
  {| b_pipe1 := true; b_pipe2 := true; b_save_in := true; b_save_out := true; b_set_in := true; b_set_out := true; b_run := fun _ => true;
     b_back_in := true; b_back_out := true; b_calloc := true; b_setup := true; b_handshake := false |}.
Example C106_ex :
  Spaced installed (B "Files\Lib\.library\lve_win64.exe") /\ ~ Dashed (B "Files\Lib\.library\lve_win64.exe") /\ length installed < 4091 /\
  started_as ended installed = Some installed /\ win_arguments installed = [B "Files\Lib\.library\lve_win64.exe"] /\
  Answers LveProps.vendor LveProps.world ended installed /\
  snd (start 512 ended installed (initial WinProps.console)) = None /\
  NoBlank (B "C:\Libs\Lib\.library\lve_win64.exe") /\ started_as WinProps.fine (B "C:\Libs\Lib\.library\lve_win64.exe") = Some (B "C:\Libs\Lib\.library\lve_win64.exe") /\
  Answers LveProps.vendor LveProps.world WinProps.fine (B "C:\Libs\Lib\.library\lve_win64.exe").
Proof.
  split. { apply (Spaced_end (B "C:\Program") (B "Files\Lib\.library\lve_win64.exe")); [split; vm_compute; intuition discriminate|split; vm_compute; intuition discriminate|discriminate]. }
  split; [intros [r E]; discriminate E|]. split; [apply Nat.ltb_lt; vm_compute; reflexivity|]. split; [reflexivity|]. split; [vm_compute; reflexivity|].
  split; [intros H; discriminate H|]. split; [vm_compute; reflexivity|]. split; [split; vm_compute; intuition discriminate|]. split; [reflexivity|].
  intros _. exists (B "C:\Libs\Lib\.library\lve_win64.exe"). split; [reflexivity|vm_compute; reflexivity].
Qed.
