(** C84-C86: what a tool without entitlement learns and gets; feature calls of a tool. *)
From Verif Require Import Base ParseModel ParseSpec WireModel WireSpec LveModel LveSpec LveSteps LveProps
  ToolModel ToolSpec SessionModel SessionSpec SessionProofs SessionProps DummyModel
  SecretSpec SecretProofs LicenceProofs.

(** ** C84 *)

(** A tool whose key is not compiled in sees the same on two machines that differ in the
    files of the library and in what decryption makes of them (even in the kind of
    decryption context): the LVE does the same, and ends in the same way. *)
Theorem C84_unlisted_partial : forall D D' cfg k (ts : list (turn D)) (ts' : list (turn D')),
  ~ In k (cfg_keys cfg) -> SameTurns SameButFiles ts ts' ->
  fst (session cfg (Some k) ts) = fst (session cfg (Some k) ts') /\
  SameEnd (snd (session cfg (Some k) ts)) (snd (session cfg (Some k) ts')).
Proof. exact @unlisted_same. Qed.
Print Assumptions C84_unlisted_partial.

(** The same holds for every tool, listed or not, while the licence for the whole library
    is refused, if decryption contexts can be made (see C20 for the opposite). *)
Theorem C84_unlicensed_partial : forall D D' cfg key (ts : list (turn D)) (ts' : list (turn D')),
  Forall (fun t => LicenceRefused cfg (t_env t) /\ forall p, e_cr_create (t_env t) p <> None) ts ->
  SameTurns SameButFiles ts ts' ->
  fst (session cfg key ts) = fst (session cfg key ts') /\
  SameEnd (snd (session cfg key ts)) (snd (session cfg key ts')).
Proof. exact @unlicensed_same. Qed.
Print Assumptions C84_unlicensed_partial.

(** Another machine: the same directory with other files, and a decryptor with memory. *)
Definition other_world : env nat :=
  {| e_alloc := e_alloc world; e_cr_create := fun _ => Some 7;
     e_decrypt := fun d _ f => Ok (Some 8, Some (B "plans"));
     e_lic_new := e_lic_new world; e_checkout := e_checkout world; e_checkin := e_checkin world;
     e_stat := e_stat world;
     e_file := fun p => if beq p (B "/lib/a.mo") then Content 6 (B "secret") None else NoOpen (B "I/O error") |}.
Definition visit : list bytes := [version_record; lib_record; file_record (B "a.mo"); file_record (B "b.moc")].
Definition turns {D} (e : env D) (rs : list bytes) : list (turn D) :=
  map (fun r => {| t_env := e; t_record := r; t_shutdown := false |}) rs.

Lemma turns_same {D D'} (R : env D -> env D' -> Prop) e e' rs : R e e' -> SameTurns R (turns e rs) (turns e' rs).
Proof. intro H. induction rs as [|r rs IH]; constructor; [cbn; auto|exact IH]. Qed.

Example C84_same : SameButFiles world other_world.
Proof. repeat split; try reflexivity; discriminate. Qed.

Example C84_ex :
  SameTurns SameButFiles (turns world visit) (turns other_world visit) /\
  replies (fst (session vendor (Some (B "other")) (turns world visit))) =
    [line (B "VERSION 1"); line (B "YES"); error_message 5 (B "Not a valid tool");
     error_message 5 (B "Not a valid tool")] /\
  replies (fst (session vendor (Some (B "key1")) (turns world visit))) <>
  replies (fst (session vendor (Some (B "key1")) (turns other_world visit))).
Proof.
  split; [apply turns_same, C84_same|]. split; [vm_compute; reflexivity|]. vm_compute. discriminate.
Qed.

Example C84_licence_ex :
  Forall (fun t => LicenceRefused vendor_global (t_env t) /\ forall p, e_cr_create (t_env t) p <> None)
    (turns world visit) /\
  replies (fst (session vendor_global (Some (B "key1")) (turns world visit))) =
    [line (B "VERSION 1"); error_message 7 (B "no gold"); error_message 7 (B "no gold");
     error_message 7 (B "no gold")].
Proof.
  split; [|vm_compute; reflexivity].
  apply Forall_forall. intros t H. apply in_map_iff in H as (r & <- & _). cbn. split; [|discriminate].
  exists (B "all"). split; [reflexivity|]. vm_compute. discriminate.
Qed.

(** The claim is false for directories: a tool that is not listed finds out which
    directories there are, for every path it likes, by the code of the refusal. *)
Theorem C84_directories_refuted : exists (e e' : env unit) k ts ts',
  ~ In k (cfg_keys vendor) /\ SameButDisk e e' /\ SameTurns SameButDisk ts ts' /\
  Forall (fun t => t_env t = e) ts /\ Forall (fun t => t_env t = e') ts' /\
  In (error_message 5 (B "Not a valid tool")) (replies (fst (session vendor (Some k) ts))) /\
  In (error_message 4 (B "Library path does not exist.")) (replies (fst (session vendor (Some k) ts'))) /\
  ~ In (error_message 5 (B "Not a valid tool")) (replies (fst (session vendor (Some k) ts'))).
Proof.
  set (away := {| e_alloc := e_alloc world; e_cr_create := e_cr_create world; e_decrypt := e_decrypt world;
     e_lic_new := e_lic_new world; e_checkout := e_checkout world; e_checkin := e_checkin world;
     e_stat := fun _ => StatFails; e_file := e_file world |}).
  assert (S' : SameButDisk world away) by (repeat split; try reflexivity; discriminate).
  exists world, away, (B "other"), (turns world visit), (turns away visit).
  split; [intros [K|[K|[]]]; vm_compute in K; discriminate K|].
  split; [exact S'|]. split; [apply turns_same, S'|].
  split; [apply Forall_forall; intros t H; apply in_map_iff in H as (r & <- & _); reflexivity|].
  split; [apply Forall_forall; intros t H; apply in_map_iff in H as (r & <- & _); reflexivity|].
  split; [vm_compute; auto|]. split; [vm_compute; auto|].
  vm_compute. intros [H|[H|[H|[H|[]]]]]; discriminate H.
Qed.
Print Assumptions C84_directories_refuted.

(** ** C85 *)

(** For a tool whose key is not compiled in, the licence manager is asked only for
    features that the tool has just named in a complete FEATURE request; the licence for
    the whole library is not taken when it names a library. *)
Theorem C85_only_asked_partial : forall D cfg k (ts : list (turn D)) es o a f ok b,
  ~ In k (cfg_keys cfg) -> session cfg (Some k) ts = (es, o) -> es = a ++ Checkout f ok :: b ->
  exists a' r mid, a = a' ++ Recv r :: mid /\ (forall x, ~ In (Recv x) mid) /\ NamesFeature r f.
Proof. exact @unlisted_checkout. Qed.
Print Assumptions C85_only_asked_partial.

Definition feature_record (f : bytes) : bytes := line (B "FEATURE " ++ print_dec (zlen f)) ++ f.

Example C85_ex :
  session vendor_global (Some (B "other"))
    (turns world [version_record; lib_record; feature_record (B "tin")]) =
  ([Recv version_record; Reply (line (B "VERSION 1")); Recv lib_record; Reply (line (B "YES"));
    Recv (feature_record (B "tin")); LicNew (Some (B "/lib")) true; Checkout (B "tin") false;
    Reply (line (B "NO 7") ++ B "no gold")],
   Ok {| s_phase := P_LICENSE; s_lib := Some (B "/lib"); s_approved := false; s_err := 5;
         s_errmsg := Some (B "Not a valid tool"); s_lic := true; s_cr := Some tt; s_buf := [] |}).
Proof. vm_compute. reflexivity. Qed.

(** But it does get licences: whatever the manager grants is checked out and confirmed
    for a tool that will never see a file. *)
Theorem C85_licence_refuted : forall D cfg (e : env D) k (ts : list (turn D)) es s r f,
  ~ In k (cfg_keys cfg) -> session cfg (Some k) ts = (es, Ok s) -> s_phase s = P_LICENSE ->
  Request r C_FEATURE f -> AllocOk e -> (forall p, e_lic_new e p = Granted) ->
  (forall g, Explains (e_checkout e g)) -> e_checkout e f = Granted ->
  exists a s', lve_step cfg e s r = (Recv r :: a ++ [Reply (B "YES" ++ [LF])], Ok s') /\
    In (Checkout f true) a.
Proof.
  intros D cfg e k ts es s r f _ _ P R A L X G.
  assert (Ln : forall p, Explains (e_lic_new e p)) by (intro p; rewrite L; exact I).
  destruct (C17_feature D cfg e s r f P R A Ln X) as (a & m & s' & E & _ & Y & _ & _ & C).
  assert (MT : ManagerThere e s) by (right; apply L).
  exists a, s'. rewrite <- (proj2 Y (conj MT G)). split; [exact E|].
  apply C. rewrite G. auto.
Qed.
Print Assumptions C85_licence_refuted.

Example C85_refuted_ex :
  ~ In (B "other") (cfg_keys vendor) /\
  session vendor (Some (B "other")) (turns world [version_record; lib_record; feature_record (B "gold")]) =
  ([Recv version_record; Reply (line (B "VERSION 1")); Recv lib_record; Reply (line (B "YES"));
    Recv (feature_record (B "gold")); LicNew (Some (B "/lib")) true; Checkout (B "gold") true;
    Reply (line (B "YES"))],
   Ok {| s_phase := P_LICENSE; s_lib := Some (B "/lib"); s_approved := false; s_err := 5;
         s_errmsg := Some (B "Not a valid tool"); s_lic := true; s_cr := Some tt; s_buf := [] |}).
Proof.
  split; [intros [K|[K|[]]]; vm_compute in K; discriminate K|]. vm_compute. reflexivity.
Qed.

(** ** C86 *)

(** A tool that has agreed on a version and named a library, and then done whatever it
    likes, asks for a feature: the call succeeds exactly if the licence manager grants the
    feature, the manager is asked exactly once and for exactly this feature, and a refusal
    brings the manager's text to the tool. *)
Theorem C86_feature_call : forall D cfg key (kv kl kf : link D) min max p mid f,
  (1 <= max)%Z ->
  Forall (fun '(k, c) => FairLink k /\ FairCall c)
    ((kv, Version min max) :: (kl, LibPath p) :: mid ++ [(kf, Feature f)]) ->
  (forall q, e_lic_new (k_env kf) q = Granted) ->
  exists ds d s,
    tool_session cfg (Some key) ((kv, Version min max) :: (kl, LibPath p) :: mid ++ [(kf, Feature f)]) =
      Ok (ds ++ [d], s, []) /\
    ((exists v, d_result d = Some v) <-> e_checkout (k_env kf) f = Granted) /\
    (forall t, e_checkout (k_env kf) f = Refused (Some t) -> Says (d_error d) (firstn 2047 (cstr t))) /\
    (forall g b, In (Checkout g b) (d_events d) <-> g = f /\ b = lic_ok (e_checkout (k_env kf) f)).
Proof. exact @session_feature. Qed.
Print Assumptions C86_feature_call.

(** With the manager delivered for tests: exactly one feature is granted. *)
Theorem C86_testing_manager : forall D cfg key (kv kl kf : link D) min max p mid f,
  (1 <= max)%Z -> (exists e, k_env kf = with_dummy e) ->
  Forall (fun '(k, c) => FairLink k /\ FairCall c)
    ((kv, Version min max) :: (kl, LibPath p) :: mid ++ [(kf, Feature f)]) ->
  exists ds d s,
    tool_session cfg (Some key) ((kv, Version min max) :: (kl, LibPath p) :: mid ++ [(kf, Feature f)]) =
      Ok (ds ++ [d], s, []) /\
    ((exists v, d_result d = Some v) <-> cstr f = B "test_licensed_feature") /\
    (cstr f <> B "test_licensed_feature" -> Says (d_error d) (B "Feature not licensed")).
Proof. exact @dummy_session. Qed.
Print Assumptions C86_testing_manager.

(** With this manager and another feature for the whole library nobody gets a file. *)
Theorem C86_testing_library : forall D cfg key g (ts : list (turn D)) es o m,
  cfg_global cfg = Some g -> cstr g <> B "test_licensed_feature" ->
  Forall (fun t => (exists e, t_env t = with_dummy e) /\ forall p, e_cr_create (t_env t) p <> None) ts ->
  session cfg key ts = (es, o) -> In (Reply m) es -> ~ CarriesFile m.
Proof. exact @dummy_no_files. Qed.
Print Assumptions C86_testing_library.

Definition test_wire : link unit :=
  {| k_env := with_dummy small_world; k_alloc := fun _ => true; k_cut := tls_records |}.

Example C86_wire_fair : FairLink test_wire.
Proof.
  destruct C24_wire_fair as ((A & C & Dc & _ & _ & _ & F) & Al & Cut).
  split; [|split; [exact Al|exact Cut]]. split; [exact A|]. split; [exact C|]. split; [exact Dc|].
  split; [intros p; exact I|]. split; [|split; [intros f; exact I|exact F]].
  intros f. cbn. unfold dummy_checkout. destruct (beq _ _); [exact I|]. vm_compute. reflexivity.
Qed.

Example C86_ex : exists ds d s,
  tool_session vendor (Some (B "other"))
    [(test_wire, Version 1 1); (test_wire, LibPath (B "/lib")); (test_wire, File (B "a.mo"));
     (test_wire, Feature (B "test_licensed_feature"))] = Ok (ds ++ [d], s, []) /\
  exists v, d_result d = Some v.
Proof.
  destruct (C86_testing_manager unit vendor (B "other") test_wire test_wire test_wire 1 1 (B "/lib")
    [(test_wire, File (B "a.mo"))] (B "test_licensed_feature")) as (ds & d & s & E & R & _).
  - vm_compute. discriminate.
  - exists small_world. reflexivity.
  - repeat (apply Forall_cons; [split; [exact C86_wire_fair|vm_compute; (split; discriminate) || discriminate]|]).
    constructor.
  - exists ds, d, s. split; [exact E|]. apply R. reflexivity.
Qed.

Example C86_library_ex :
  replies (fst (session vendor_global (Some (B "key1")) (turns (with_dummy world) visit))) =
    [line (B "VERSION 1"); error_message 7 (B "Feature not licensed");
     error_message 7 (B "Feature not licensed"); error_message 7 (B "Feature not licensed")].
Proof. vm_compute. reflexivity. Qed.
