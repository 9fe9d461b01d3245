(** Proofs about the LVE command line. *)
From Verif Require Import Base ParseModel ParseSpec ParseProofs WireModel WireSpec WireProofs
  LveModel LveSpec LveProofs LveSteps LveHist BaseProofs MainModel MainSpec.

Lemma beq_iff a b : beq a b = true <-> a = b.
Proof.
  revert b. induction a as [|x a IH]; intros [|y b]; cbn; try (split; [discriminate|congruence]); [tauto|].
  rewrite andb_true_iff, IH, Ascii.eqb_eq. split; [intros [-> ->]; reflexivity|intros E; injection E; auto].
Qed.
Lemma beq_refl_ a : beq a a = true. Proof. now apply beq_iff. Qed.

Arguments OPT_FEATURE : simpl never. Arguments OPT_LIBPATH : simpl never.
Arguments OPT_VERSION : simpl never. Arguments OPT_HELP : simpl never.

(** An argument is one of the options or something else. *)
Lemma arg_cases a : a = OPT_FEATURE \/ a = OPT_LIBPATH \/ a = OPT_VERSION \/ a = OPT_HELP \/
  (beq a OPT_FEATURE = false /\ beq a OPT_LIBPATH = false /\ beq a OPT_VERSION = false /\ beq a OPT_HELP = false).
Proof.
  destruct (beq a OPT_FEATURE) eqn:E1; [left; now apply beq_iff|].
  destruct (beq a OPT_LIBPATH) eqn:E2; [right; left; now apply beq_iff|].
  destruct (beq a OPT_VERSION) eqn:E3; [do 2 right; left; now apply beq_iff|].
  destruct (beq a OPT_HELP) eqn:E4; [do 3 right; left; now apply beq_iff|]. tauto.
Qed.

Lemma options_feature al (A : forall n, al n = true) solo l r : options al solo None l (OPT_FEATURE :: r) =
  match r with [] => UB NullDeref | v :: r' => options al solo (Some v) l r' end.
Proof. cbn. destruct r; [reflexivity|]. now rewrite A. Qed.
Lemma options_libpath al (A : forall n, al n = true) solo f r : options al solo f None (OPT_LIBPATH :: r) =
  match r with [] => UB NullDeref | v :: r' => options al solo f (Some v) r' end.
Proof. cbn. destruct r; [reflexivity|]. now rewrite A. Qed.
Lemma options_version al solo f l r : options al solo f l (OPT_VERSION :: r) = Ok (Stop VersionText solo).
Proof. reflexivity. Qed.
Lemma options_help al solo f l r : options al solo f l (OPT_HELP :: r) = Ok (Stop UsageText solo).
Proof. reflexivity. Qed.
Lemma options_other al solo f l a r :
  beq a OPT_FEATURE = false -> beq a OPT_LIBPATH = false -> beq a OPT_VERSION = false -> beq a OPT_HELP = false ->
  options al solo f l (a :: r) = Ok (Stop Unexpected false).
Proof. intros H1 H2 H3 H4. cbn. now rewrite H1, H2, H3, H4. Qed.
Lemma options_feature_twice al solo f l r : options al solo (Some f) l (OPT_FEATURE :: r) = Ok (Stop SetTwice false).
Proof. reflexivity. Qed.
Lemma options_libpath_twice al solo f l r : options al solo f (Some l) (OPT_LIBPATH :: r) = Ok (Stop SetTwice false).
Proof. reflexivity. Qed.

Lemma options_full al f l a r : exists t, options al false (Some f) (Some l) (a :: r) = Ok (Stop t false).
Proof.
  destruct (arg_cases a) as [->|[->|[->|[->|(H1 & H2 & H3 & H4)]]]];
    [rewrite options_feature_twice|rewrite options_libpath_twice|rewrite options_version|rewrite options_help|
     rewrite options_other by assumption]; eexists; reflexivity.
Qed.

Definition verdict (args : list bytes) (o : outcome chosen) : Prop :=
  (o = UB NullDeref /\ Dangling args) \/
  (exists t, o = Ok (Stop t false)) \/
  (o = Ok (Stop VersionText true) /\ Means args ShowVersion) \/
  (o = Ok (Stop UsageText true) /\ Means args ShowHelp) \/
  (exists f, o = Ok (Chosen (Some f) None)) \/
  (exists f l, o = Ok (Chosen (Some f) (Some l)) /\ Means args (CheckOut f l)) \/
  (exists l, o = Ok (Chosen None l) /\ Means args Serve).

Ltac stop := right; left; eexists; reflexivity.
Lemma options_verdict al (A : forall n, al n = true) args : verdict args (options al (length args =? 1) None None args).
Proof.
  destruct args as [|a r].
  - do 6 right. exists None. split; [reflexivity|constructor].
  - destruct (arg_cases a) as [->|[->|[->|[->|(H1 & H2 & H3 & H4)]]]].
    + rewrite (options_feature al A). destruct r as [|v r]; [left; split; [reflexivity|constructor]|].
      change (length (OPT_FEATURE :: v :: r) =? 1) with false.
      destruct r as [|b r]; [do 4 right; left; exists v; reflexivity|].
      destruct (arg_cases b) as [->|[->|[->|[->|(H1 & H2 & H3 & H4)]]]].
      * rewrite options_feature_twice. stop.
      * rewrite (options_libpath al A). destruct r as [|w r]; [left; split; [reflexivity|constructor]|].
        destruct r as [|c r].
        -- do 5 right; left. exists v, w. split; [reflexivity|constructor].
        -- right; left. apply options_full.
      * rewrite options_version. stop.
      * rewrite options_help. stop.
      * rewrite options_other by assumption. stop.
    + rewrite (options_libpath al A). destruct r as [|v r]; [left; split; [reflexivity|constructor]|].
      change (length (OPT_LIBPATH :: v :: r) =? 1) with false.
      destruct r as [|b r]; [do 6 right; exists (Some v); split; [reflexivity|constructor]|].
      destruct (arg_cases b) as [->|[->|[->|[->|(H1 & H2 & H3 & H4)]]]].
      * rewrite (options_feature al A). destruct r as [|w r]; [left; split; [reflexivity|constructor]|].
        destruct r as [|c r].
        -- do 5 right; left. exists w, v. split; [reflexivity|constructor].
        -- right; left. apply options_full.
      * rewrite options_libpath_twice. stop.
      * rewrite options_version. stop.
      * rewrite options_help. stop.
      * rewrite options_other by assumption. stop.
    + rewrite options_version. destruct r; [do 2 right; left; split; [reflexivity|constructor]|]. stop.
    + rewrite options_help. destruct r; [do 3 right; left; split; [reflexivity|constructor]|]. stop.
    + rewrite options_other by assumption. stop.
Qed.

(** The direct direction. *)
Lemma main_serves {D} cfg (e : env D) args : AllocOk e -> Means args Serve -> lve_main cfg e args = ([], Ok Served).
Proof. intros A. inversion 1; subst; unfold lve_main; cbn; rewrite ?A; reflexivity. Qed.
Lemma main_version {D} cfg (e : env D) args : Means args ShowVersion ->
  lve_main cfg e args = ([], Ok (Stopped VersionText true)).
Proof. inversion 1; subst; reflexivity. Qed.
Lemma main_help {D} cfg (e : env D) args : Means args ShowHelp ->
  lve_main cfg e args = ([], Ok (Stopped UsageText true)).
Proof. inversion 1; subst; reflexivity. Qed.
Lemma main_checkout {D} cfg (e : env D) args f l : AllocOk e -> Means args (CheckOut f l) ->
  lve_main cfg e args =
  (fst (checkout_feature cfg e f l),
   match snd (checkout_feature cfg e f l) with Ok b => Ok (CheckedOut b) | UB u => UB u | Blocked => Blocked end).
Proof.
  intros A. inversion 1; subst; unfold lve_main; cbn [length Nat.eqb].
  - change (B "--checkout-feature") with OPT_FEATURE. change (B "--libpath") with OPT_LIBPATH.
    rewrite (options_feature _ A), (options_libpath _ A). cbn [options]. rewrite mbind_lift_ok.
    destruct (checkout_feature cfg e f l) as [es [b|u|]]; cbn; rewrite ?app_nil_r; reflexivity.
  - change (B "--checkout-feature") with OPT_FEATURE. change (B "--libpath") with OPT_LIBPATH.
    rewrite (options_libpath _ A), (options_feature _ A). cbn [options]. rewrite mbind_lift_ok.
    destruct (checkout_feature cfg e f l) as [es [b|u|]]; cbn; rewrite ?app_nil_r; reflexivity.
Qed.
Lemma main_dangling {D} cfg (e : env D) args : AllocOk e -> Dangling args -> lve_main cfg e args = ([], UB NullDeref).
Proof. intros A. inversion 1; subst; unfold lve_main; cbn; rewrite ?A; reflexivity. Qed.

Lemma main_rejects {D} cfg (e : env D) args : AllocOk e ->
  (forall q, ~ Means args q) -> ~ Dangling args ->
  exists t, lve_main cfg e args = ([], Ok (Stopped t false)).
Proof.
  intros A N ND. unfold lve_main.
  destruct (options_verdict (e_alloc e) A args) as [[-> H]|[[t ->]|[[-> H]|[[-> H]|[[f ->]|[(f & l & -> & H)|(l & -> & H)]]]]]];
    try (exfalso; first [exact (ND H)|exact (N _ H)]); eexists; reflexivity.
Qed.

(** ** checking out *)

Definition sendable_cmd (id : cmd_id) (arg : bytes) : command := {| c_id := id; c_number := 0; c_length := zlen arg |}.
Lemma local_command_eq al id arg : (forall n, al n = true) -> form_of id = F_LENGTH -> InMemory arg ->
  local_command al id arg = Ok (Some (zlen arg, complete_payload arg)).
Proof.
  intros A F I. unfold local_command. rewrite A.
  assert (T : cmd_name id ++ [SP] ++ print_dec (zlen arg) ++ [LF] ++ arg =
              join (header_words (sendable_cmd id arg)) ++ LF :: arg).
  { unfold header_words, sendable_cmd. cbn [c_id c_length]. rewrite F. cbn [join].
    rewrite <- !app_assoc. reflexivity. }
  rewrite T.
  assert (Sd : sendable (sendable_cmd id arg)).
  { unfold sendable, sendable_cmd. cbn [c_id c_number c_length]. rewrite F.
    unfold InMemory in I. pose proof (zlen_nonneg arg). unfold LONG_MAX. repeat split; lia. }
  destruct (parse_header ERROR_SIZE (sendable_cmd id arg) (LF :: arg) Sd) as [m ->]; [right; eauto|].
  rewrite (extract_complete al (zlen arg) _ (join (header_words (sendable_cmd id arg))) arg);
    [reflexivity| |reflexivity|apply A].
  split; [reflexivity|]. apply join_chars. intros w. apply header_words_good.
Qed.

Lemma no_ssl_quiet {A} (m : M A) : existsb is_reply (fst m) = false -> no_ssl m = m.
Proof. unfold no_ssl. now intros ->. Qed.

Lemma handle_lib_quiet {D} cfg (e : env D) p lib d :
  AllocOk e -> e_cr_create e lib = Some d -> Trimmed p lib -> ~ In NUL p ->
  handle_lib cfg e true fresh (zlen p) (Some (complete_payload p)) =
  ([], Ok (validate_directory e (set_cr (set_lib fresh (Some lib)) (Some d)) lib)).
Proof.
  intros A Cr T NN. unfold handle_lib.
  assert (P : p <> []) by (destruct T as (sl & -> & _ & N & _); destruct lib; [congruence|discriminate]).
  pose proof (zlen_pos p P). destruct (Z.eqb_spec (zlen p) 0); [lia|].
  rewrite A. cbn [negb]. rewrite complete_bytes, mbind_lift_ok.
  rewrite <- (trimmed_unique p lib (trim p) T (trim_spec p P)).
  assert (C : cstr lib = lib).
  { apply cstr_no_nul. intros K. apply NN. destruct T as (sl & -> & _). apply in_or_app. now left. }
  rewrite C, Cr. unfold global_licence. cbn [s_approved set_cr set_lib fresh].
  destruct (cfg_global cfg); reflexivity.
Qed.

Lemma trimmed_nonul p lib : Trimmed p lib -> ~ In NUL p -> cstr lib = lib.
Proof.
  intros T NN. apply cstr_no_nul. intros K. apply NN. destruct T as (sl & -> & _). apply in_or_app. now left.
Qed.

Lemma handle_feature_quiet {D} (e : env D) s lib f :
  s_lic s = false -> s_lib s = Some lib -> cstr lib = lib -> e_lic_new e (Some lib) = Granted ->
  handle_feature e true s (Some (complete_payload f)) =
  ([LicNew (Some lib) true; Checkout f (lic_ok (e_checkout e f))], Ok (set_lic s true, lic_ok (e_checkout e f))).
Proof.
  intros L Lb C G. unfold handle_feature, setup_check, setup_licensing. rewrite L, Lb, C, G.
  cbn [lic_ok emit feature_name]. cbn. destruct (payload_bytes (complete_payload f)) eqn:E;
    rewrite complete_bytes in E; try discriminate. injection E as <-.
  destruct (e_checkout e f); reflexivity.
Qed.

Lemma checkout_granted {D} cfg (e : env D) f p lib d :
  AllocOk e -> e_cr_create e lib = Some d -> Trimmed p lib -> ~ In NUL p -> InMemory p -> InMemory f ->
  e_lic_new e (Some lib) = Granted ->
  checkout_feature cfg e f p =
  match e_stat e lib with
  | StatDir => ([LicNew (Some lib) true; Checkout f (lic_ok (e_checkout e f))], Ok (lic_ok (e_checkout e f)))
  | _ => ([], Ok false)
  end.
Proof.
  intros A Cr T NN Ip If G. unfold checkout_feature.
  rewrite (local_command_eq _ C_LIB p A eq_refl Ip), (local_command_eq _ C_FEATURE f A eq_refl If).
  rewrite !mbind_lift_ok. rewrite (handle_lib_quiet cfg e p lib d A Cr T NN).
  rewrite mbind_ok. unfold validate_directory. rewrite (trimmed_nonul p lib T NN).
  destruct (e_stat e lib); cbn [fst snd].
  - rewrite no_ssl_quiet; reflexivity.
  - rewrite no_ssl_quiet; reflexivity.
  - rewrite (handle_feature_quiet e (set_cr (set_lib fresh (Some lib)) (Some d)) lib f eq_refl eq_refl (trimmed_nonul p lib T NN) G).
    rewrite mbind_ok. cbn [ret app fst snd]. rewrite no_ssl_quiet; reflexivity.
Qed.

Lemma checkout_no_manager {D} cfg (e : env D) f p lib d t :
  AllocOk e -> e_cr_create e lib = Some d -> Trimmed p lib -> ~ In NUL p -> InMemory p -> InMemory f ->
  e_stat e lib = StatDir -> e_lic_new e (Some lib) = Refused t -> Explains (Refused t) ->
  checkout_feature cfg e f p = ([LicNew (Some lib) false], UB NullDeref).
Proof.
  intros A Cr T NN Ip If St R X. unfold checkout_feature.
  rewrite (local_command_eq _ C_LIB p A eq_refl Ip), (local_command_eq _ C_FEATURE f A eq_refl If).
  rewrite !mbind_lift_ok. rewrite (handle_lib_quiet cfg e p lib d A Cr T NN).
  rewrite mbind_ok. unfold validate_directory. rewrite (trimmed_nonul p lib T NN), St. cbn [fst snd].
  destruct t as [t|]; [|destruct X].
  assert (Sc : setup_check e (set_cr (set_lib fresh (Some lib)) (Some d)) =
               ([LicNew (Some lib) false; Reply (error_message 7 t)],
                Ok (set_cr (set_lib fresh (Some lib)) (Some d), false))).
  { unfold setup_check, setup_licensing. cbn [s_lic s_lib set_cr set_lib fresh].
    rewrite (trimmed_nonul p lib T NN), R. cbn [lic_ok]. unfold emit. rewrite !mbind_ok. cbn [fst snd ret].
    rewrite mbind_ok. unfold reply, ERR_LICENSE. rewrite send_error_ok; [reflexivity|apply A|lia|cbn in X; unfold InMemory in X; lia]. }
  unfold handle_feature. rewrite Sc. reflexivity.
Qed.

Lemma checkout_no_path {D} cfg (e : env D) f : AllocOk e -> InMemory f ->
  checkout_feature cfg e f [] = ([], Ok false).
Proof.
  intros A If. unfold checkout_feature.
  rewrite (local_command_eq _ C_LIB [] A eq_refl ltac:(reflexivity)), (local_command_eq _ C_FEATURE f A eq_refl If).
  rewrite !mbind_lift_ok. reflexivity.
Qed.
