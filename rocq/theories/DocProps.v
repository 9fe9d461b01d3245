(** C107: the LVE answers as the specification of the protocol says. *)
From Verif Require Import Base ParseModel ParseSpec WireModel WireSpec LveModel LveSpec LveProofs LveSteps LveThms LveProps DocSpec DocProofs.

(** Whatever tools send, whatever the system and the licence manager answer, and even if the LVE crashes in the end: each reply is one that
    the specification has for the request that it answers, with an error code that it allows there.  Missing: TOOLS and RETURNLICENSE, if
    they are accepted, see below. *)
Theorem C107_replies_partial : forall D cfg key (ts : list (turn D)) es o r m, session cfg key ts = (es, o) -> Answers es r m ->
  Documented r m \/ Asks r C_TOOLS /\ m = B "VERSION 4" ++ [LF] \/ Asks r C_RETURNLICENSE /\ m = B "NOTSIMPLE" ++ [LF].
Proof. intros D cfg key ts es o r m E A. exact (session_doc cfg key ts es o E r m A). Qed.
Print Assumptions C107_replies_partial.

(** TOOLS is answered with a version, which the specification does not have there ... *)
Theorem C107_tools_refuted : forall D cfg (e : env D) s r, s_phase s = P_TOOLS -> Asks r C_TOOLS -> AllocOk e ->
  exists m s', lve_step cfg e s r = ([Recv r; Reply m], Ok s') /\ ~ Documented r m.
Proof. intros D cfg e s r P A H. eexists. eexists. split; [exact (tools_step cfg e s r P A H)|apply version4_undocumented]. Qed.
Print Assumptions C107_tools_refuted.
(** ... and RETURNLICENSE with NOTSIMPLE, which is an answer to LICENSE only. *)
Theorem C107_returnlicense_refuted : forall D cfg (e : env D) s r d, s_phase s = P_LICENSE -> Request r C_RETURNLICENSE d -> AllocOk e ->
  exists m s', lve_step cfg e s r = ([Recv r; Reply m], Ok s') /\ ~ Documented r m.
Proof.
  intros D cfg e s r d P R H. eexists. eexists. split; [exact (returnlicense_step cfg e s r d P R H)|apply notsimple_undocumented].
  destruct R as (c & h & V & E & _). exists c. auto.
Qed.
Print Assumptions C107_returnlicense_refuted.

(** "The tool may, after the cryptographic handshake, query the LVE for general information": LICENSEINFO is never understood ... *)
Theorem C107_licenseinfo_refuted : forall D cfg (e : env D) s, Reachable cfg s -> AllocOk e ->
  exists t s', lve_step cfg e s (B "LICENSEINFO" ++ [LF]) = ([Recv (B "LICENSEINFO" ++ [LF]); Reply (error_message 1 t)], Ok s').
Proof. intros D cfg e s R A. destruct (c09 cfg e s _ R A (info_rejected s)) as (t & s' & E & _). eauto. Qed.
Print Assumptions C107_licenseinfo_refuted.
(** ... and TOOLS only directly after the version. *)
Theorem C107_tools_late_refuted : forall D cfg (e : env D) s r, Reachable cfg s -> AllocOk e -> Asks r C_TOOLS -> s_phase s <> P_TOOLS ->
  exists t s', lve_step cfg e s r = ([Recv r; Reply (error_message 1 t)], Ok s').
Proof. intros D cfg e s r R A T P. destruct (c09 cfg e s _ R A (tools_late s r T P)) as (t & s' & E & _). eauto. Qed.
Print Assumptions C107_tools_late_refuted.

(** A file that is not there is answered with code 6 ("File I/O error") and not with 4 ("File not found"). *)
Theorem C107_not_found_refuted : forall D cfg (e : env D) s r lib d t, s_phase s = P_LICENSE -> s_approved s = true -> s_lib s = Some lib ->
  AllocOk e -> Request r C_FILE d -> e_file e (file_path lib (cstr d)) = NoOpen t ->
  exists x, lve_step cfg e s r = ([Recv r; ReadFile (file_path lib (cstr d)); Reply (error_message 6 x)], Ok s) /\
    forall y, error_message 6 x <> error_message 4 y.
Proof.
  intros D cfg e s r lib d t P Ap L A R N. eexists.
  split; [exact (file_unreadable cfg e s r lib d _ P Ap L A R (U_open e _ t N))|intros y H; discriminate H].
Qed.
Print Assumptions C107_not_found_refuted.

(** A session in which all of this happens. *)
Definition talk : list bytes :=
  [line (B "TOOLS"); line (B "VERSION 0"); version_record; line (B "TOOLS"); lib_record; line (B "LICENSEINFO"); line (B "TOOLS");
   line (B "FEATURE 4") ++ B "gold"; line (B "FEATURE 4") ++ B "lead"; line (B "LICENSE 1") ++ B "p"; line (B "RETURNLICENSE 1") ++ B "p";
   file_record (B "a.mo"); file_record (B "c.moc"); file_record (B "none")].
(** The first lines of the replies. *)
Definition heads (es : list event) : list bytes :=
  flat_map (fun ev => match ev with Reply m => [match find_byte LF m with Some i => firstn i m | None => m end] | _ => [] end) es.
Definition before_files : list bytes :=
  map B ["ERROR 1 83"; "ERROR 2 39"; "VERSION 1"; "VERSION 4"; "YES"; "ERROR 1 28"; "ERROR 1 138"; "YES"; "NO 7"; "NOTSIMPLE"; "NOTSIMPLE"]%string.
Example C107_ex : heads (fst (session vendor (Some (B "key2")) (map say talk))) = before_files ++ map B ["FILECONT 5"; "ERROR 8 54"; "ERROR 6 65"]%string /\
  heads (fst (session vendor (Some (B "key9")) (map say talk))) = before_files ++ map B ["ERROR 5 16"; "ERROR 5 16"; "ERROR 5 16"]%string.
Proof. split; vm_compute; reflexivity. Qed.
Example C107_hypotheses : Reachable vendor served /\ Reachable vendor waiting_lib /\ s_phase waiting_lib = P_TOOLS /\ s_phase served <> P_TOOLS /\
  AllocOk world /\ Asks (line (B "TOOLS")) C_TOOLS /\ Request (line (B "RETURNLICENSE 3") ++ B "abc") C_RETURNLICENSE (B "abc") /\
  Request (file_record (B "none")) C_FILE (B "none") /\ e_file world (file_path (B "/lib") (cstr (B "none"))) = NoOpen (B "No such file") /\
  Answers [Recv version_record; Reply (line (B "VERSION 1"))] version_record (line (B "VERSION 1")).
Proof.
  split; [exact served_reachable|]. split; [exact waiting_reachable|]. split; [reflexivity|]. split; [discriminate|]. split; [exact world_alloc|].
  split; [exact (proj1 C19_ex)|]. split; [exact (proj1 C18_ex)|]. split; [apply file_request; vm_compute; discriminate|]. split; [vm_compute; reflexivity|].
  exists [], [], []. split; [reflexivity|auto].
Qed.
