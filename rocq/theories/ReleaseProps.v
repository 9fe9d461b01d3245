(** C110: licences are given back. *)
From Verif Require Import Base BaseProofs ParseModel WireModel LveModel LveSpec LveProps MainModel MainSpec MainProofs MainProps ReleaseModel ReleaseSpec ReleaseProofs ReleasePath.

(** Whatever a tool sends and whatever the system and the licence manager answer, the LVE makes no second manager while it has one, uses a manager only while
    it has one, and frees it exactly once, in the end. *)
Theorem C110_life : forall D cfg key (ts : list (turn D)) acts o,
  serving (session cfg key ts) = (acts, o) -> exists b, Life false acts b /\ (o = Ok tt -> b = false).
Proof. exact @served_life. Qed.
Print Assumptions C110_life.

(** It does so also if the tool has gone away at some moment, if then no reply is still to be written, or if the signal SIGPIPE is ignored.  Missing from the
    full statement: a tool that goes away while its request is worked on. *)
Theorem C110_gone_partial : forall D cfg key (ts : list (turn D)) acts ignored n,
  serving (session cfg key ts) = (acts, Ok tt) -> (ignored = true \/ forall m, ~ In (Does (Reply m)) (skipn n acts)) ->
  Life false (performed ignored n acts) false.
Proof. exact @quiet_life. Qed.
Print Assumptions C110_gone_partial.

(** If the tool goes away after the manager was made, and a reply is still to be written, the LVE ends without freeing the manager: all features that were checked
    out stay so. *)
Theorem C110_killed_refuted : forall D cfg key (ts : list (turn D)) acts n p m,
  serving (session cfg key ts) = (acts, Ok tt) -> In (Does (LicNew p true)) (firstn n acts) -> In (Does (Reply m)) (skipn n acts) ->
  Life false (performed false n acts) true /\ ~ In FreeManager (performed false n acts).
Proof. exact @killed_life. Qed.
Print Assumptions C110_killed_refuted.

(** A feature that is checked out from the command line is never given back. *)
Theorem C110_command_line_refuted : forall D cfg (e : env D) f p lib d,
  AllocOk e -> e_cr_create e lib = Some d -> Trimmed p lib -> ~ In NUL p -> InMemory p -> InMemory f ->
  e_lic_new e (Some lib) = Granted -> e_stat e lib = StatDir -> e_checkout e f = Granted ->
  snd (lve_main cfg e [B "--checkout-feature"; f; B "--libpath"; p]) = Ok (CheckedOut true) /\
  let acts := checked_out (lve_main cfg e [B "--checkout-feature"; f; B "--libpath"; p]) in
  In (Does (Checkout f true)) acts /\ Life false acts true /\ ~ In FreeManager acts.
Proof.
  intros D cfg e f p lib d A Cr T NN Ip If G St Ck. rewrite (C45_checkout_partial D cfg e f p lib d A Cr T NN Ip If G), St, Ck. cbn.
  split; [reflexivity|]. split; [auto|]. split; [do 3 constructor|]. intros [[=]|[[=]|[]]].
Qed.
Print Assumptions C110_command_line_refuted.

(** The manager is made for the library the tool has named, without slashes at the end: in the request LIB and after it there is no other. *)
Theorem C110_library : forall D cfg (e : env D) s r d sh (ts : list (turn D)),
  s_phase s = P_TOOLS \/ s_phase s = P_LIB -> Request r C_LIB d -> d <> [] -> AllocOk e ->
  exists lib, Trimmed d lib /\
    forall p ok, In (LicNew p ok) (fst (lve_loop cfg s ({| t_env := e; t_record := r; t_shutdown := sh |} :: ts))) -> p = Some (cstr lib).
Proof. exact @named_library. Qed.
Print Assumptions C110_library.
(** A session with a slash at the end of the path. *)
Example C110_library_ex : exists s, snd (session vendor (Some (B "key1")) [{| t_env := world; t_record := version_record; t_shutdown := false |}]) = Ok s /\
  s_phase s = P_TOOLS /\ Request lib_record C_LIB (B "/lib/") /\ AllocOk world /\ Trimmed (B "/lib/") (B "/lib") /\
  In (LicNew (Some (B "/lib")) true) (fst (lve_loop vendor s (map (fun r => {| t_env := world; t_record := r; t_shutdown := false |})
    [lib_record; line (B "FEATURE 4") ++ B "gold"]))).
Proof.
  eexists. split; [vm_compute; reflexivity|]. split; [reflexivity|]. split; [exact lib_request|].
  split; [intros n; reflexivity|]. split; [exact (proj1 C16_ex)|]. vm_compute. tauto.
Qed.

(** Examples: a tool that takes a feature and ends; one that ends while it is waiting for the answer. *)
Definition feature_turns : list (turn unit) :=
  map (fun r => {| t_env := world; t_record := r; t_shutdown := false |})
    [version_record; lib_record; line (B "FEATURE 4") ++ B "gold"; line (B "FEATURE 6") ++ B "silver"].
Definition feature_acts : list act := fst (serving (session vendor (Some (B "key1")) feature_turns)).
Example C110_life_ex : serving (session vendor (Some (B "key1")) feature_turns) = (feature_acts, Ok tt) /\
  filter (fun a => match a with Does (Recv _) | Does (Reply _) => false | _ => true end) feature_acts =
    [Does (LicNew (Some (B "/lib")) true); Does (Checkout (B "gold") true); Does (Checkout (B "silver") false); FreeManager; CloseNotify].
Proof. split; vm_compute; reflexivity. Qed.
Example C110_gone_ex : length feature_acts = 13 /\ (forall m, ~ In (Does (Reply m)) (skipn 11 feature_acts)) /\
  performed false 11 feature_acts = firstn 12 feature_acts.
Proof. split; [vm_compute; reflexivity|]. split; [|vm_compute; reflexivity]. intros m H. vm_compute in H. destruct H as [H|[H|[]]]; discriminate H. Qed.
Example C110_killed_ex : In (Does (LicNew (Some (B "/lib")) true)) (firstn 7 feature_acts) /\ (exists m, In (Does (Reply m)) (skipn 7 feature_acts)) /\
  In (Does (Checkout (B "gold") true)) (performed false 7 feature_acts) /\ ~ In FreeManager (performed false 7 feature_acts).
Proof.
  split; [vm_compute; tauto|]. split; [eexists; vm_compute; left; reflexivity|]. split; [vm_compute; tauto|].
  intros H. vm_compute in H. repeat destruct H as [H|H]; try discriminate H; exact H.
Qed.
Example C110_command_line_ex : AllocOk small_world /\ e_cr_create small_world (B "/lib") <> None /\ Trimmed (B "/lib//") (B "/lib") /\
  e_lic_new small_world (Some (B "/lib")) = Granted /\ e_stat small_world (B "/lib") = StatDir /\ e_checkout small_world (B "gold") = Granted.
Proof. split; [intros n; reflexivity|]. split; [discriminate|]. split; [exact C45_trimmed_ex|]. split; [reflexivity|]. split; reflexivity. Qed.


(** A library path of length 0 is not answered, but a tool can go on: the manager is then made without a library, and features are taken. *)
Theorem C110_no_path_refuted : exists es s,
  session vendor (Some (B "key1")) (map (fun r => {| t_env := world; t_record := r; t_shutdown := false |})
    [version_record; line (B "LIB 0"); line (B "FEATURE 4") ++ B "gold"]) = (es, Ok s) /\
  In (LicNew None true) es /\ In (Checkout (B "gold") true) es /\ s_lib s = None.
Proof. eexists. eexists. split; [vm_compute; reflexivity|]. split; [cbn; tauto|]. split; [cbn; tauto|reflexivity]. Qed.
Print Assumptions C110_no_path_refuted.
