(** C02, C04, C08-C21, C47: theorems about the library vendor executable. *)
From Verif Require Import Base ParseModel ParseSpec WireModel WireSpec WireProofs LveModel LveSpec
  LveProofs LveSteps LveHist LveThms.

(** ** a small world for the examples *)

Definition line (s : bytes) : bytes := s ++ [LF].
Definition lib_record : bytes := line (B "LIB 5") ++ B "/lib/".
Definition file_record (p : bytes) : bytes := line (B "FILE " ++ print_dec (zlen p)) ++ p.
Definition version_record : bytes := line (B "VERSION 1").

(** Library /lib with a.mo and an encrypted b.moc; the decryptor reverses files. *)
Definition world : env unit :=
  {| e_alloc := fun _ => true;
     e_cr_create := fun _ => Some tt;
     e_decrypt := fun d _ f => Ok (d, if beq f (B "bad") then None else Some (rev f));
     e_lic_new := fun _ => Granted;
     e_checkout := fun f => if beq f (B "gold") then Granted else Refused (Some (B "no gold"));
     e_checkin := fun _ => Granted;
     e_stat := fun p => if beq p (B "/lib") then StatDir else StatFails;
     e_file := fun p =>
       if beq p (B "/lib/a.mo") then Content 5 (B "hello") None
       else if beq p (B "/lib/b.moc") then Content 3 (B "cba") None
       else if beq p (B "/lib/c.moc") then Content 3 (B "bad") None
       else if beq p (B "/lib/../secret") then Content 6 (B "secret") None
       else NoOpen (B "No such file") |}.
Definition say (r : bytes) : turn unit := {| t_env := world; t_record := r; t_shutdown := false |}.
Definition vendor : config := {| cfg_keys := [B "key1"; B "key2"]; cfg_global := None |}.
Definition vendor_global : config := {| cfg_keys := [B "key1"]; cfg_global := Some (B "all") |}.

(** The state after VERSION and LIB. *)
Definition served : lve unit :=
  {| s_phase := P_LICENSE; s_lib := Some (B "/lib"); s_approved := true; s_err := 0; s_errmsg := None;
     s_lic := false; s_cr := Some tt; s_buf := [] |}.
Definition waiting_lib : lve unit := set_phase (set_approved fresh true) P_TOOLS.

Example served_reachable : Reachable vendor served.
Proof. exists (Some (B "key2")), [say version_record; say lib_record]. eexists. vm_compute. reflexivity. Qed.
Example waiting_reachable : Reachable vendor waiting_lib.
Proof. exists (Some (B "key2")), [say version_record]. eexists. vm_compute. reflexivity. Qed.

Example world_alloc : AllocOk world.
Proof. intros n. reflexivity. Qed.
Example file_request p : (zlen p <= LONG_MAX)%Z -> Request (file_record p) C_FILE p.
Proof.
  intros H. pose proof (request_made C_FILE p eq_refl H) as K.
  unfold file_record, line. rewrite <- !app_assoc. exact K.
Qed.
Example lib_request : Request lib_record C_LIB (B "/lib/").
Proof. exact (request_made C_LIB (B "/lib/") eq_refl ltac:(vm_compute; discriminate)). Qed.

(** ** C02, C04 (the LVE's side) *)

(** C02. A message with a payload that arrives in one record is seen by the LVE as the
    same command with exactly the payload that was sent. *)
Theorem C02_lve_one_record : forall al c data m,
  Sent al c data m -> form_of (c_id c) = F_LENGTH ->
  ValidLine (cstr m) c /\ Request m (c_id c) data.
Proof. exact sent_request. Qed.
Print Assumptions C02_lve_one_record.

(** C02/C04 refuted for the LVE when the payload does not arrive completely in the
    first record: the library path is then taken from uninitialised memory. *)
Theorem C04_lve_short_payload_refuted : forall D cfg (e : env D) s r c h d,
  s_phase s = P_TOOLS \/ s_phase s = P_LIB -> ValidLine (cstr r) c -> c_id c = C_LIB ->
  HeaderThen r h d -> (zlen d < c_length c)%Z -> AllocOk e ->
  lve_step cfg e s r = ([Recv r], UB UninitRead).
Proof. exact @short_lib. Qed.
Print Assumptions C04_lve_short_payload_refuted.

(** C02 refuted for the LVE: the name of a library that is sent in more than one record never arrives, wherever the message is cut
    after its header line. *)
Theorem C02_lve_cut_refuted : forall D cfg (e : env D) s al c data m first more,
  s_phase s = P_TOOLS \/ s_phase s = P_LIB -> Sent al c data m -> c_id c = C_LIB -> CutIntoRecords m first more -> more <> [] -> AllocOk e ->
  lve_step cfg e s first = ([Recv first], UB UninitRead).
Proof.
  intros D cfg e s al c data m first more P HS I (Em & Hne & _ & Hlf) Nm A.
  apply sent_shape in HS as (Hs & Ed & Hp1 & _).
  destruct (join_chars (header_words c) (header_words_good c)) as [J1 J2].
  rewrite Em in Ed. destruct (first_record_shape _ _ _ _ J1 Hlf Ed) as (d & -> & Hd).
  apply (short_lib cfg e s _ c (join (header_words c)) d P); [|exact I|repeat split; assumption| |exact A].
  - rewrite cstr_app_no_nul, cstr_lf by exact J2. apply valid_header; [exact Hs|right; eauto].
  - rewrite Hp1 by (now rewrite I). rewrite <- Hd, zlen_app. destruct more as [|b more]; [contradiction|].
    pose proof (zlen_pos b (Hne b (or_intror (or_introl eq_refl)))). cbn [concat]. rewrite zlen_app. pose proof (zlen_nonneg (concat more)). lia.
Qed.
Print Assumptions C02_lve_cut_refuted.

Example C02_lve_cut_ex :
  Sent (fun _ => true) {| c_id := C_LIB; c_number := 0; c_length := 5 |} (B "/lib/") (line (B "LIB 5") ++ B "/lib/") /\
  CutIntoRecords (line (B "LIB 5") ++ B "/lib/") (line (B "LIB 5") ++ B "/l") [B "ib/"].
Proof.
  split.
  - apply (Sent_length _ C_LIB (B "/lib/")); [reflexivity|vm_compute; discriminate|vm_compute; reflexivity].
  - split; [reflexivity|]. split; [intros b [<-|[<-|[]]]; discriminate|]. split; [vm_compute; discriminate|]. vm_compute. tauto.
Qed.

(** The tool's message "LIB 5\n/lib/" in two records. *)
Example C04_lve_ex :
  session vendor (Some (B "key1")) [say version_record; say (line (B "LIB 5") ++ B "/l"); say (B "ib/")] =
  ([Recv version_record; Reply (line (B "VERSION 1")); Recv (line (B "LIB 5") ++ B "/l")], UB UninitRead).
Proof. vm_compute. reflexivity. Qed.

(** ** C08 *)

(** In every session history, file contents, a file access and every use of the
    licence manager come after an accepted VERSION and a later LIB command. *)
Theorem C08_version_and_lib_first : forall D cfg key (ts : list (turn D)) es o a ev b,
  session cfg key ts = (es, o) -> es = a ++ ev :: b ->
  match ev with Recv _ => False | Reply m => CarriesFile m | _ => True end ->
  LibAfterVersion a.
Proof. exact @c08_order. Qed.
Print Assumptions C08_version_and_lib_first.

Example C08_ex :
  session vendor (Some (B "key1"))
    [say (file_record (B "a.mo")); say version_record; say lib_record; say (file_record (B "a.mo"))] =
  ([Recv (file_record (B "a.mo"));
    Reply (error_message 1 (B "Protocol error: Command FILE is not valid in this state, expected command VERSION."));
    Recv version_record; Reply (line (B "VERSION 1")); Recv lib_record; Reply (line (B "YES"));
    Recv (file_record (B "a.mo")); ReadFile (B "/lib/a.mo"); Reply (line (B "FILECONT 5") ++ B "hello")],
   Ok (set_buf served (B "Protocol error: Command FILE is not valid in this state, expected command VERSION."))).
Proof. vm_compute. reflexivity. Qed.

(** A LIB command is honoured at most once, an acceptable VERSION as well: after it was
    processed, every further one is refused with error 1 and changes nothing. *)
Theorem C08_at_most_once : forall D cfg (e e2 : env D) s r es1 s1 ts es2 s2 id r2,
  Reachable cfg s -> Asks r id -> id = C_LIB \/ id = C_VERSION /\ AsksVersion r ->
  Allowed (s_phase s) id -> lve_step cfg e s r = (es1, Ok s1) ->
  lve_loop cfg s1 ts = (es2, Ok s2) -> Asks r2 id -> AllocOk e2 ->
  exists text s3, lve_step cfg e2 s2 r2 = ([Recv r2; Reply (error_message 1 text)], Ok s3) /\
    SameSession s2 s3.
Proof. exact @c08_once. Qed.
Print Assumptions C08_at_most_once.

Example C08_once_ex :
  Asks lib_record C_LIB /\ Allowed (s_phase waiting_lib) C_LIB /\
  lve_step vendor world waiting_lib lib_record = ([Recv lib_record; Reply (line (B "YES"))], Ok served) /\
  lve_loop vendor served [say (file_record (B "a.mo"))] =
    ([Recv (file_record (B "a.mo")); ReadFile (B "/lib/a.mo"); Reply (line (B "FILECONT 5") ++ B "hello")], Ok served).
Proof.
  split; [|split; [constructor|split; vm_compute; reflexivity]].
  destruct lib_request as (c & h & V & I & _). exists c. auto.
Qed.

(** ** C09 *)

(** A record that is no command or not allowed now is answered by exactly one ERROR
    with code 1 and changes nothing. *)
Theorem C09_refused_without_effect : forall D cfg (e : env D) s r,
  Reachable cfg s -> AllocOk e -> NotAcceptable s r ->
  exists text s', lve_step cfg e s r = ([Recv r; Reply (error_message 1 text)], Ok s') /\ SameSession s s'.
Proof. exact @c09. Qed.
Print Assumptions C09_refused_without_effect.

Example C09_ex : NotAcceptable served version_record /\ NotAcceptable served (B "FILE x").
Proof.
  split.
  - apply after_lib_not_acceptable; [reflexivity|]. right. left.
    exists {| c_id := C_VERSION; c_number := 1; c_length := 0 |}. split; [|reflexivity].
    exact (version_made 1 ltac:(vm_compute; split; discriminate)).
  - left. exists NOT_AN_INT. apply (ParseProofs.parse_reject_iff 4096); [discriminate|].
    eexists. vm_compute. reflexivity.
Qed.

(** ** C10 *)

(** As long as nothing outside misbehaves and the requests are complete and LIB has a
    path, a session never fails and answers every record it takes by exactly one
    reply before it takes the next. *)
Theorem C10_one_reply_each_partial : forall D cfg k (ts : list (turn D)),
  Forall (fun t => Healthy (t_env t) /\ GoodRequest (t_record t)) ts ->
  exists es s', session cfg (Some k) ts = (es, Ok s') /\ OneReplyEach (taken ts) es.
Proof. exact @session_answered. Qed.
Print Assumptions C10_one_reply_each_partial.

(** [world] with a decryptor whose output is bounded. *)
Definition small_world : env unit :=
  {| e_alloc := e_alloc world; e_cr_create := e_cr_create world;
     e_decrypt := fun d _ f => Ok (d, Some (firstn 100 (rev f)));
     e_lic_new := e_lic_new world; e_checkout := e_checkout world; e_checkin := e_checkin world;
     e_stat := e_stat world; e_file := e_file world |}.

Example C10_ex :
  Forall (fun t => Healthy (t_env t) /\ GoodRequest (t_record t))
    (map (fun r => {| t_env := small_world; t_record := r; t_shutdown := false |})
         [version_record; lib_record; file_record (B "b.moc"); B "nonsense"]).
Proof.
  assert (H : Healthy small_world).
  { split; [intros n; reflexivity|]. split; [discriminate|]. split.
    { intros d p f. exists d, (Some (firstn 100 (rev f))). split; [reflexivity|].
      intros b E. assert (K : b = firstn 100 (rev f)) by congruence. rewrite K.
      unfold InMemory, zlen. pose proof (firstn_le_length 100 (rev f)). lia. }
    split; [intros p; exact I|]. split.
    { intros f. unfold small_world, world, e_checkout.
      destruct (beq f (B "gold")); [exact I|]. vm_compute. reflexivity. }
    split; [intros f; exact I|]. intros p. unfold small_world, world, e_file.
    repeat (destruct (beq p _); [vm_compute; reflexivity|]). exact I. }
  assert (Bad : forall r, (exists g, Rejected (cstr r) g) -> InMemory r -> GoodRequest r).
  { intros r (g & Hg) Hr. split; [exact Hr|]. intros c V. destruct (ParseProofs.valid_not_rejected _ _ _ V Hg). }
  assert (Rq : forall r id d, Request r id d -> InMemory r -> d <> [] -> GoodRequest r).
  { intros r id d (c & h & V & Ic & Hh & L) Hr Nd. split; [exact Hr|]. intros c' V' _.
    rewrite (ParseProofs.valid_det _ _ _ V' V). split; [exists h, d; auto|].
    intros _ E. rewrite E in L. destruct d; [congruence|discriminate]. }
  repeat apply Forall_cons; try apply Forall_nil; (split; [exact H|]).
  - split; [vm_compute; reflexivity|]. intros c V F.
    rewrite (ParseProofs.valid_det _ _ _ V (version_made 1 ltac:(vm_compute; split; discriminate))) in F.
    vm_compute in F. discriminate.
  - eapply Rq; [exact lib_request|vm_compute; reflexivity|discriminate].
  - eapply Rq; [apply (file_request (B "b.moc")); vm_compute; discriminate|vm_compute; reflexivity|discriminate].
  - apply Bad; [|vm_compute; reflexivity]. eexists.
    apply (ParseProofs.parse_reject_iff 4096 _ UNKNOWN_CMD); [discriminate|]. eexists. vm_compute. reflexivity.
Qed.

(** Without these conditions the property is false: a LIB command with an empty path
    is processed and not answered at all ... *)
Theorem C10_empty_library_path_refuted : exists (ts : list (turn unit)) es s,
  session vendor (Some (B "key1")) ts = (es, Ok s) /\
  Forall (fun t => Healthy (t_env t)) ts /\ ~ OneReplyEach (taken ts) es.
Proof.
  exists (map (fun r => {| t_env := small_world; t_record := r; t_shutdown := false |})
             [version_record; line (B "LIB 0")]).
  eexists _, _. split; [vm_compute; reflexivity|]. split.
  - assert (H := C10_ex). apply Forall_inv in H. destruct H as [H _].
    cbn [map]. apply Forall_cons; [exact H|apply Forall_cons; [exact H|apply Forall_nil]].
  - intros O. apply one_reply_count in O. vm_compute in O. discriminate.
Qed.
Print Assumptions C10_empty_library_path_refuted.

(** ... and the next FILE request then crashes the LVE. *)
Example C10_crash_after_empty_path :
  session vendor (Some (B "key1")) [say version_record; say (line (B "LIB 0")); say (file_record (B "a.mo"))] =
  ([Recv version_record; Reply (line (B "VERSION 1")); Recv (line (B "LIB 0")); Recv (file_record (B "a.mo"))],
   UB NullDeref).
Proof. vm_compute. reflexivity. Qed.

(** ** C11 *)

(** A tool whose key is not compiled in never receives file contents and never makes
    the LVE open a file, whatever it sends and whatever the world does. *)
Theorem C11_no_file_contents : forall D cfg k (ts : list (turn D)) es o m,
  ~ In k (cfg_keys cfg) -> session cfg (Some k) ts = (es, o) -> In (Reply m) es -> ~ CarriesFile m.
Proof. exact @c11_no_contents. Qed.
Print Assumptions C11_no_file_contents.

Theorem C11_no_file_opened : forall D cfg k (ts : list (turn D)) es o p,
  ~ In k (cfg_keys cfg) -> session cfg (Some k) ts = (es, o) -> ~ In (ReadFile p) es.
Proof. exact @c11_no_read. Qed.
Print Assumptions C11_no_file_opened.

(** Its FILE requests are answered by a refusal: code 5, or 4 or 8 if the LIB command
    already had a problem. *)
Theorem C11_file_refused : forall D cfg (e : env D) k (ts : list (turn D)) es s r d,
  ~ In k (cfg_keys cfg) -> session cfg (Some k) ts = (es, Ok s) ->
  s_phase s = P_LICENSE -> Request r C_FILE d -> AllocOk e ->
  exists code text, (code = 4 \/ code = 5 \/ code = 8)%Z /\
  lve_step cfg e s r = ([Recv r; Reply (error_message code text)], Ok s).
Proof. exact @c11_reply. Qed.
Print Assumptions C11_file_refused.

Example C11_ex :
  ~ In (B "other") (cfg_keys vendor) /\
  session vendor (Some (B "other")) [say version_record; say lib_record; say (file_record (B "a.mo"))] =
  ([Recv version_record; Reply (line (B "VERSION 1")); Recv lib_record; Reply (line (B "YES"));
    Recv (file_record (B "a.mo")); Reply (error_message 5 (B "Not a valid tool"))],
   Ok {| s_phase := P_LICENSE; s_lib := Some (B "/lib"); s_approved := false; s_err := 5;
         s_errmsg := Some (B "Not a valid tool"); s_lic := false; s_cr := Some tt; s_buf := [] |}).
Proof.
  split; [|vm_compute; reflexivity].
  intros [K|[K|[]]]; vm_compute in K; discriminate.
Qed.

(** ** C12 *)

(** For a tool that presents a certificate: approved if and only if its key is in the
    list. *)
Theorem C12_approved_iff_listed_partial : forall D cfg k,
  exists s : lve D, validate_pubkey cfg (Some k) fresh = ([], Ok s) /\
    (s_approved s = true <-> In k (cfg_keys cfg)).
Proof. exact @c12. Qed.
Print Assumptions C12_approved_iff_listed_partial.

(** A tool without certificate makes the LVE use a null pointer as soon as a key is
    compiled in. *)
Theorem C12_no_certificate_refuted : forall D cfg k l,
  cfg_keys cfg = k :: l -> validate_pubkey cfg None (@fresh D) = ([], UB NullDeref).
Proof. intros D cfg k l E. unfold validate_pubkey. rewrite E. reflexivity. Qed.
Print Assumptions C12_no_certificate_refuted.

Example C12_ex : In (B "key2") (cfg_keys vendor) /\ cfg_keys vendor = B "key1" :: [B "key2"].
Proof. split; [right; now left|reflexivity]. Qed.

(** ** C13 *)

(** Every file the LVE opens is inside the library directory if the requested path has
    no ".." component (file system without links; the library path is not empty). *)
Theorem C13_inside_library_partial : forall D cfg (e : env D) s r d p cwd lib,
  s_phase s = P_LICENSE -> s_lib s = Some lib -> Request r C_FILE d -> AllocOk e ->
  In (ReadFile p) (fst (lve_step cfg e s r)) ->
  cstr lib <> [] -> ~ In (B "..") (split_slash (cstr d)) ->
  Inside (denotes cwd (cstr lib)) (denotes cwd p).
Proof. exact @c13_inside. Qed.
Print Assumptions C13_inside_library_partial.

Example C13_ex :
  In (ReadFile (B "/lib/a.mo")) (fst (lve_step vendor world served (file_record (B "a.mo")))) /\
  ~ In (B "..") (split_slash (cstr (B "a.mo"))).
Proof. split; [vm_compute; auto|]. intros [K|[]]; vm_compute in K; discriminate. Qed.

(** With ".." a tool gets any file the LVE can read. *)
Theorem C13_dotdot_refuted : exists (ts : list (turn unit)) es s p m cwd,
  session vendor (Some (B "key1")) ts = (es, Ok s) /\ s_lib s = Some (B "/lib") /\
  In (ReadFile p) es /\ In (Reply m) es /\ m = filecont_message (B "secret") /\
  ~ Inside (denotes cwd (B "/lib")) (denotes cwd p).
Proof.
  exists [say version_record; say lib_record; say (file_record (B "../secret"))].
  eexists _, _, (B "/lib/../secret"), _, []. split; [vm_compute; reflexivity|].
  split; [reflexivity|]. split; [vm_compute; auto 10|]. split; [|split; [reflexivity|]].
  - vm_compute. auto 10.
  - intros (below & E). vm_compute in E. destruct below as [|x [|y below]]; discriminate.
Qed.
Print Assumptions C13_dotdot_refuted.

(** ** C14 *)

(** An ordinary file is answered by exactly its bytes. *)
Theorem C14_plain_file : forall D cfg (e : env D) s r lib d b err,
  s_phase s = P_LICENSE -> s_approved s = true -> s_lib s = Some lib -> AllocOk e ->
  Request r C_FILE d -> e_file e (file_path lib (cstr d)) = Content (zlen b) b err ->
  InMemory b -> ~ MocFile (cstr d) ->
  lve_step cfg e s r = ([Recv r; ReadFile (file_path lib (cstr d)); Reply (filecont_message b)], Ok s).
Proof.
  intros D cfg e s r lib d b err P Ap L A R F Ib N. apply (file_plain cfg e s r lib d b err); auto.
  destruct (is_moc (cstr d)) eqn:M; [|reflexivity]. destruct N. now apply is_moc_spec.
Qed.
Print Assumptions C14_plain_file.

(** An encrypted file is answered by exactly the decryptor's output. *)
Theorem C14_encrypted_file : forall D cfg (e : env D) s r lib d b err cr plain,
  s_phase s = P_LICENSE -> s_approved s = true -> s_lib s = Some lib -> AllocOk e ->
  Request r C_FILE d -> e_file e (file_path lib (cstr d)) = Content (zlen b) b err ->
  MocFile (cstr d) -> e_decrypt e (s_cr s) (cstr d) b = Ok (cr, Some plain) -> InMemory plain ->
  lve_step cfg e s r =
  ([Recv r; ReadFile (file_path lib (cstr d)); Reply (filecont_message plain)], Ok (set_cr s cr)).
Proof.
  intros D cfg e s r lib d b err cr plain P Ap L A R F N Dc Ib.
  apply is_moc_spec in N. now apply (file_moc cfg e s r lib d b err cr plain).
Qed.
Print Assumptions C14_encrypted_file.

(** If decryption fails the answer is error 8 and contains no file bytes. *)
Theorem C14_decryption_fails : forall D cfg (e : env D) s r lib d b err cr,
  s_phase s = P_LICENSE -> s_approved s = true -> s_lib s = Some lib -> AllocOk e ->
  Request r C_FILE d -> e_file e (file_path lib (cstr d)) = Content (zlen b) b err ->
  MocFile (cstr d) -> e_decrypt e (s_cr s) (cstr d) b = Ok (cr, None) ->
  InMemory lib -> InMemory d ->
  lve_step cfg e s r =
  ([Recv r; ReadFile (file_path lib (cstr d));
    Reply (error_message 8 (B "Failed to decrypt file " ++ file_path lib (cstr d) ++ B ", might be corrupted."))],
   Ok (set_cr s cr)).
Proof.
  intros D cfg e s r lib d b err cr P Ap L A R F N Dc Il Id.
  apply is_moc_spec in N. now apply (file_moc_fails cfg e s r lib d b err cr).
Qed.
Print Assumptions C14_decryption_fails.

(** If the file cannot be read the answer is error 6 with the system's explanation. *)
Theorem C14_unreadable_file : forall D cfg (e : env D) s r lib d t,
  s_phase s = P_LICENSE -> s_approved s = true -> s_lib s = Some lib -> AllocOk e ->
  Request r C_FILE d -> Unreadable e (file_path lib (cstr d)) t ->
  lve_step cfg e s r =
  ([Recv r; ReadFile (file_path lib (cstr d)); Reply (error_message 6 (firstn 2047 t))], Ok s).
Proof. exact @file_unreadable. Qed.
Print Assumptions C14_unreadable_file.

Example C14_ex :
  e_file world (file_path (B "/lib") (cstr (B "b.moc"))) = Content (zlen (B "cba")) (B "cba") None /\
  MocFile (cstr (B "b.moc")) /\ e_decrypt world (s_cr served) (cstr (B "b.moc")) (B "cba") = Ok (Some tt, Some (B "abc")) /\
  e_file world (file_path (B "/lib") (cstr (B "a.mo"))) = Content (zlen (B "hello")) (B "hello") None /\
  ~ MocFile (cstr (B "a.mo")) /\
  e_decrypt world (s_cr served) (cstr (B "c.moc")) (B "bad") = Ok (Some tt, None) /\
  Unreadable world (file_path (B "/lib") (cstr (B "x")))
    (B "Couldn't open file " ++ B "/lib/x" ++ B ". The error message was: " ++ B "No such file").
Proof.
  repeat split; try (vm_compute; reflexivity).
  - apply is_moc_spec. vm_compute. reflexivity.
  - intros K. apply is_moc_spec in K. vm_compute in K. discriminate.
  - apply (U_open world (B "/lib/x")). vm_compute. reflexivity.
Qed.

(** ** C15 *)

(** YES is sent only for a non-empty path, when a decryption context could be made and,
    for an approved tool, the library-wide feature (if there is one) was checked out. *)
Theorem C15_yes_conditions_partial : forall D cfg (e : env D) s r d,
  s_phase s = P_TOOLS \/ s_phase s = P_LIB -> Request r C_LIB d -> AllocOk e ->
  In (Reply (B "YES" ++ [LF])) (fst (lve_step cfg e s r)) ->
  d <> [] /\ e_cr_create e (cstr (trim d)) <> None /\
  (forall f, cfg_global cfg = Some f -> s_approved s = true ->
     e_checkout e f = Granted /\ In (Checkout f true) (fst (lve_step cfg e s r))).
Proof. exact @lib_yes_only. Qed.
Print Assumptions C15_yes_conditions_partial.

(** But it is sent whatever stat(2) says about the directory. *)
Theorem C15_yes_without_directory_refuted : forall D cfg (e : env D) s r d,
  s_phase s = P_TOOLS \/ s_phase s = P_LIB -> Request r C_LIB d -> d <> [] -> AllocOk e ->
  e_cr_create e (cstr (trim d)) <> None -> cfg_global cfg = None ->
  exists s', lve_step cfg e s r = ([Recv r; Reply (B "YES" ++ [LF])], Ok s').
Proof. exact @handle_lib_no_global. Qed.
Print Assumptions C15_yes_without_directory_refuted.

Example C15_ex :
  e_stat world (B "/nowhere") = StatFails /\
  session vendor (Some (B "key1")) [say version_record; say (line (B "LIB 8") ++ B "/nowhere")] =
  ([Recv version_record; Reply (line (B "VERSION 1")); Recv (line (B "LIB 8") ++ B "/nowhere");
    Reply (line (B "YES"))],
   Ok {| s_phase := P_LICENSE; s_lib := Some (B "/nowhere"); s_approved := true; s_err := 4;
         s_errmsg := Some (B "Library path does not exist."); s_lic := false; s_cr := Some tt; s_buf := [] |}).
Proof. split; vm_compute; reflexivity. Qed.

(** ** C16 *)

(** The stored library path is the path sent without trailing slashes and backslashes,
    it is not empty, and it stays the same for the rest of the session. *)
Theorem C16_library_path : forall D cfg (e : env D) s r d es1 s1 ts es2 s2,
  s_phase s = P_TOOLS \/ s_phase s = P_LIB -> Request r C_LIB d -> d <> [] -> AllocOk e ->
  lve_step cfg e s r = (es1, Ok s1) -> lve_loop cfg s1 ts = (es2, Ok s2) ->
  exists lib, Trimmed d lib /\ s_lib s1 = Some lib /\ s_lib s2 = Some lib.
Proof. exact @c16. Qed.
Print Assumptions C16_library_path.

(** There is only one such path. *)
Theorem C16_unique : forall raw l1 l2, Trimmed raw l1 -> Trimmed raw l2 -> l1 = l2.
Proof. exact trimmed_unique. Qed.
Print Assumptions C16_unique.

Example C16_ex : Trimmed (B "/lib/") (B "/lib") /\ Trimmed (B "///") (B "/").
Proof.
  split; [exact (trim_spec (B "/lib/") ltac:(discriminate))|exact (trim_spec (B "///") ltac:(discriminate))].
Qed.

(** ** C17 *)

(** FEATURE: YES exactly if the manager is there and grants the feature, NO with its
    text if it refuses, error 7 with its text if it cannot be set up.  The manager is
    asked exactly once, for exactly this feature. *)
Theorem C17_feature : forall D cfg (e : env D) s r f,
  s_phase s = P_LICENSE -> Request r C_FEATURE f -> AllocOk e ->
  (forall p, Explains (e_lic_new e p)) -> (forall g, Explains (e_checkout e g)) ->
  exists a m s', lve_step cfg e s r = (Recv r :: a ++ [Reply m], Ok s') /\ Forall internal a /\
    (m = B "YES" ++ [LF] <-> ManagerThere e s /\ e_checkout e f = Granted) /\
    (forall t, ManagerThere e s -> e_checkout e f = Refused (Some t) -> m = length_message (B "NO") t) /\
    (forall t, s_lic s = false -> e_lic_new e (option_map cstr (s_lib s)) = Refused (Some t) ->
       m = error_message 7 t) /\
    (forall g b, In (Checkout g b) a <-> ManagerThere e s /\ g = f /\ b = lic_ok (e_checkout e f)).
Proof. exact @c17_feature. Qed.
Print Assumptions C17_feature.

Theorem C17_returnfeature : forall D cfg (e : env D) s r f,
  s_phase s = P_LICENSE -> Request r C_RETURNFEATURE f -> AllocOk e ->
  (forall p, Explains (e_lic_new e p)) -> (forall g, Explains (e_checkin e g)) ->
  exists a m s', lve_step cfg e s r = (Recv r :: a ++ [Reply m], Ok s') /\ Forall internal a /\
    (m = B "YES" ++ [LF] <-> ManagerThere e s /\ e_checkin e f = Granted) /\
    (forall t, ManagerThere e s -> e_checkin e f = Refused (Some t) -> m = error_message 7 t) /\
    (forall t, s_lic s = false -> e_lic_new e (option_map cstr (s_lib s)) = Refused (Some t) ->
       m = error_message 7 t) /\
    (forall g b, In (Checkin g b) a <-> ManagerThere e s /\ g = f /\ b = lic_ok (e_checkin e f)).
Proof. exact @c17_return. Qed.
Print Assumptions C17_returnfeature.

Example C17_ex :
  Request (line (B "FEATURE 4") ++ B "gold") C_FEATURE (B "gold") /\
  lve_step vendor world served (line (B "FEATURE 4") ++ B "gold") =
  ([Recv (line (B "FEATURE 4") ++ B "gold"); LicNew (Some (B "/lib")) true; Checkout (B "gold") true;
    Reply (line (B "YES"))], Ok (set_lic served true)) /\
  lve_step vendor world served (line (B "FEATURE 3") ++ B "tin") =
  ([Recv (line (B "FEATURE 3") ++ B "tin"); LicNew (Some (B "/lib")) true; Checkout (B "tin") false;
    Reply (line (B "NO 7") ++ B "no gold")], Ok (set_lic served true)).
Proof.
  split; [exact (request_made C_FEATURE (B "gold") eq_refl ltac:(vm_compute; discriminate))|].
  split; vm_compute; reflexivity.
Qed.

(** ** C18 *)

Theorem C18_license_partial : forall D cfg (e : env D) s r d,
  s_phase s = P_LICENSE -> Request r C_LICENSE d -> AllocOk e ->
  lve_step cfg e s r = ([Recv r; Reply (B "NOTSIMPLE" ++ [LF])], Ok s).
Proof. exact @license_step. Qed.
Print Assumptions C18_license_partial.

(** RETURNLICENSE is never answered YES. *)
Theorem C18_returnlicense_refuted : forall D cfg (e : env D) s r d,
  s_phase s = P_LICENSE -> Request r C_RETURNLICENSE d -> AllocOk e ->
  lve_step cfg e s r = ([Recv r; Reply (B "NOTSIMPLE" ++ [LF])], Ok s).
Proof. exact @returnlicense_step. Qed.
Print Assumptions C18_returnlicense_refuted.

Example C18_ex :
  Request (line (B "RETURNLICENSE 3") ++ B "abc") C_RETURNLICENSE (B "abc") /\ s_phase served = P_LICENSE.
Proof. split; [exact (request_made C_RETURNLICENSE (B "abc") eq_refl ltac:(vm_compute; discriminate))|reflexivity]. Qed.

(** ** C19 *)

(** TOOLS is answered by a VERSION message, never by TOOLLIST. *)
Theorem C19_tools_refuted : forall D cfg (e : env D) s r,
  s_phase s = P_TOOLS -> Asks r C_TOOLS -> AllocOk e ->
  lve_step cfg e s r = ([Recv r; Reply (B "VERSION 4" ++ [LF])], Ok (set_phase s P_LIB)).
Proof. exact @tools_step. Qed.
Print Assumptions C19_tools_refuted.

Example C19_ex : Asks (line (B "TOOLS")) C_TOOLS /\ s_phase waiting_lib = P_TOOLS.
Proof.
  split; [|reflexivity]. exists {| c_id := C_TOOLS; c_number := 0; c_length := 0 |}.
  split; [|reflexivity]. apply (ParseProofs.parse_valid_iff 4096). eexists. vm_compute. reflexivity.
Qed.

(** ** C20 *)

(** With a library-wide feature every FILECONT is preceded by its successful checkout,
    provided decryption contexts can always be made. *)
Theorem C20_global_licence_partial : forall D cfg key f (ts : list (turn D)) es o,
  cfg_global cfg = Some f ->
  Forall (fun t => forall p, e_cr_create (t_env t) p <> None) ts ->
  session cfg key ts = (es, o) ->
  forall a m b, es = a ++ Reply m :: b -> CarriesFile m -> In (Checkout f true) a.
Proof. exact @gl_session. Qed.
Print Assumptions C20_global_licence_partial.

Definition licensed_world (ok : bool) (ctx : option unit) : env unit :=
  {| e_alloc := e_alloc world; e_cr_create := fun _ => ctx; e_decrypt := e_decrypt world;
     e_lic_new := e_lic_new world;
     e_checkout := fun _ => if ok then Granted else Refused (Some (B "no licence"));
     e_checkin := e_checkin world; e_stat := e_stat world; e_file := e_file world |}.
Definition say_in (e : env unit) (r : bytes) : turn unit :=
  {| t_env := e; t_record := r; t_shutdown := false |}.

Example C20_ex :
  session vendor_global (Some (B "key1"))
    (map (say_in (licensed_world true (Some tt))) [version_record; lib_record; file_record (B "a.mo")]) =
  ([Recv version_record; Reply (line (B "VERSION 1")); Recv lib_record; LicNew (Some (B "/lib")) true;
    Checkout (B "all") true; Reply (line (B "YES")); Recv (file_record (B "a.mo")); ReadFile (B "/lib/a.mo");
    Reply (line (B "FILECONT 5") ++ B "hello")], Ok (set_lic served true)).
Proof. vm_compute. reflexivity. Qed.

(** If making the context fails, the licence is never checked and files are served. *)
Theorem C20_context_failure_refuted : exists (ts : list (turn unit)) es s m,
  session vendor_global (Some (B "key1")) ts = (es, Ok s) /\
  In (Reply m) es /\ m = filecont_message (B "hello") /\ ~ (exists f b, In (Checkout f b) es).
Proof.
  exists (map (say_in (licensed_world false None)) [version_record; lib_record; file_record (B "a.mo")]).
  eexists _, _, _. split; [vm_compute; reflexivity|]. split; [|split; [reflexivity|]].
  - vm_compute. auto 10.
  - intros (f & b & H). vm_compute in H. repeat destruct H as [H|H]; discriminate || exact H.
Qed.
Print Assumptions C20_context_failure_refuted.

(** ** C21 (the LVE's side) *)

(** VERSION n is accepted if and only if n >= 1; otherwise error 2 and the session stays
    at the start. *)
Theorem C21_version : forall D cfg (e : env D) s r c,
  s_phase s = P_VERSION -> ValidLine (cstr r) c -> c_id c = C_VERSION -> AllocOk e ->
  ((1 <= c_number c)%Z ->
     lve_step cfg e s r = ([Recv r; Reply (B "VERSION 1" ++ [LF])], Ok (set_phase s P_TOOLS))) /\
  ((c_number c < 1)%Z ->
     lve_step cfg e s r = ([Recv r; Reply (error_message 2 version_low_text)],
                           Ok (set_buf s version_low_text))).
Proof. exact @version_step. Qed.
Print Assumptions C21_version.

Example C21_ex : forall n, (LONG_MIN <= n <= LONG_MAX)%Z ->
  exists c, ValidLine (cstr (B "VERSION" ++ [SP] ++ print_dec n ++ [LF])) c /\ c_id c = C_VERSION /\ c_number c = n.
Proof. intros n H. exists {| c_id := C_VERSION; c_number := n; c_length := 0 |}. split; [now apply version_made|auto]. Qed.

(** ** C47 (the LVE's side) *)

(** The text for a command that is not allowed is never cut: a larger buffer would
    contain the same text. *)
Theorem C47_lve_text_fits : forall p id size,
  id <> C_UNDEFINED -> ERROR_SIZE <= size ->
  exists t, invalid_text ERROR_SIZE p id = Ok t /\ invalid_text size p id = Ok t.
Proof. exact c47_lve. Qed.
Print Assumptions C47_lve_text_fits.

Example C47_lve_ex :
  invalid_text ERROR_SIZE P_LICENSE C_VERSION =
  Ok (B "Protocol error: Command VERSION is not valid in this state, expected command is one of FEATURE, FILE, LICENSE, RETURNFEATURE, RETURNLICENSE.").
Proof. vm_compute. reflexivity. Qed.
