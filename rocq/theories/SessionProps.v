(** C24: a tool and an LVE in lock step. *)
From Verif Require Import Base ParseModel ParseSpec WireModel WireSpec LveModel LveSpec LveProofs LveHist LveProps
  ToolModel ToolSpec SessionModel SessionSpec SessionProofs.

(** Whatever calls a tool makes in whatever order: each call ends, it is answered by
    exactly one reply to exactly its own request, its result is the one that this reply
    stands for, and nothing unread is left for the next call.  Missing for the full
    property: empty library paths and arguments that do not fit one record (see below),
    and a world that misbehaves. *)
Theorem C24_lock_step_partial : forall D cfg key (cs : list (link D * call)),
  Forall (fun '(k, c) => FairLink k /\ FairCall c) cs ->
  exists ds s, tool_session cfg (Some key) cs = Ok (ds, s, []) /\
    Forall2 (fun '(k, c) d => Answered (k_alloc k) c d) cs ds.
Proof. exact @session_lock_step. Qed.
Print Assumptions C24_lock_step_partial.

(** A tool whose key is compiled in, that has asked for an acceptable version and named
    the library, gets exactly the plaintext of a file, whatever it did in between. *)
Theorem C24_file_delivered : forall D cfg key (kv kl kf : link D) min max p mid lib f b,
  In key (cfg_keys cfg) -> (1 <= max)%Z ->
  Forall (fun '(k, c) => FairLink k /\ FairCall c)
    ((kv, Version min max) :: (kl, LibPath p) :: mid ++ [(kf, File f)]) ->
  Trimmed p lib ->
  (forall g, cfg_global cfg = Some g ->
     e_lic_new (k_env kl) (Some (cstr lib)) = Granted /\ e_checkout (k_env kl) g = Granted) ->
  Plaintext (k_env kf) lib f b ->
  exists ds d s h,
    tool_session cfg (Some key) ((kv, Version min max) :: (kl, LibPath p) :: mid ++ [(kf, File f)]) =
      Ok (ds ++ [d], s, []) /\
    d_result d = Some (Contents h) /\ Opened b h.
Proof. exact @session_file. Qed.
Print Assumptions C24_file_delivered.

(** The way OpenSSL cuts messages is covered. *)
Theorem C24_tls_records_fair : FairCut tls_records.
Proof. exact tls_fair. Qed.
Print Assumptions C24_tls_records_fair.

(** Without the conditions on the library path the property is false: with an empty
    path the tool waits forever for a reply ... *)
Theorem C24_empty_path_refuted : forall D cfg (k : link D) s,
  s_phase s = P_TOOLS \/ s_phase s = P_LIB -> FairLink k ->
  api_call cfg k s [] (LibPath []) = Blocked.
Proof. exact @empty_library_path. Qed.
Print Assumptions C24_empty_path_refuted.

(** ... and with a path that does not fit one TLS record the LVE uses uninitialised
    memory as library path. *)
Theorem C24_long_path_refuted : forall D cfg (k : link D) s q p,
  s_phase s = P_TOOLS \/ s_phase s = P_LIB -> AllocOk (k_env k) -> (forall n, k_alloc k n = true) ->
  k_cut k = tls_records -> (16384 < zlen p <= LONG_MAX)%Z ->
  api_call cfg k s q (LibPath p) = UB UninitRead.
Proof. exact @long_library_path. Qed.
Print Assumptions C24_long_path_refuted.

Definition wire : link unit := {| k_env := small_world; k_alloc := fun _ => true; k_cut := tls_records |}.

Example C24_wire_fair : FairLink wire.
Proof.
  split; [|split; [intros n; reflexivity|exact tls_fair]].
  assert (H := C10_ex). apply Forall_inv in H. exact (proj1 H).
Qed.

Definition dialogue : list (link unit * call) :=
  map (pair wire) [Version 1 1; File (B "a.mo"); LibPath (B "/lib/"); Feature (B "silver"); Version 1 2;
                   License (B "p"); Feature (B "gold"); File (B "b.moc")].

Example C24_dialogue_fair : Forall (fun '(k, c) => FairLink k /\ FairCall c) dialogue.
Proof.
  unfold dialogue. cbn [map].
  repeat (apply Forall_cons; [split; [exact C24_wire_fair|]|]); try apply Forall_nil;
    cbn [FairCall]; try (vm_compute; discriminate); split; vm_compute; discriminate.
Qed.

(** Each call gets its own answer, also after failures. *)
Example C24_dialogue_runs :
  (do (ds, _, q) <- tool_session vendor (Some (B "key2")) dialogue ;
   Ok (map (fun d => (match d_result d with Some One => Some None
                      | Some (Contents h) => Some (fc_cell h) | None => None end,
                      option_map err_text (d_error d))) ds, q)) =
  Ok ([(Some None, None);
       (None, Some (Some (B "Got ERROR command with message: Protocol error: Command FILE is not valid in this state, expected command is one of TOOLS, LIB.")));
       (Some None, None);
       (None, Some (Some (B "no gold")));
       (None, Some (Some (B "Got ERROR command with message: Protocol error: Command VERSION is not valid in this state, expected command is one of FEATURE, FILE, LICENSE, RETURNFEATURE, RETURNLICENSE.")));
       (None, Some (Some (B "Library vendor executable doesn't use simplified licensing, use command FEATURE instead.")));
       (Some None, None);
       (Some (Some (B "abc")), None)], []).
Proof. vm_compute. reflexivity. Qed.

Example C24_file_ex : In (B "key2") (cfg_keys vendor) /\ Trimmed (B "/lib/") (B "/lib") /\
  Plaintext (k_env wire) (B "/lib") (B "b.moc") (B "abc").
Proof.
  split; [right; now left|]. split; [exact (trim_spec (B "/lib/") ltac:(discriminate))|].
  split; [vm_compute; reflexivity|]. exists (B "cba"), None. split; [vm_compute; reflexivity|].
  split; [intros _ cr; exists cr; reflexivity|].
  intros N. destruct N. apply LveSteps.is_moc_spec. vm_compute. reflexivity.
Qed.

Example C24_long_ex : exists p, (16384 < zlen p <= LONG_MAX)%Z /\ k_cut wire = tls_records /\
  s_phase waiting_lib = P_TOOLS.
Proof.
  exists (repeat SLASH (Z.to_nat 20000)). split; [|split; reflexivity].
  unfold zlen. rewrite repeat_length. vm_compute. split; [reflexivity|discriminate].
Qed.
