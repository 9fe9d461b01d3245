(** C34, C41: the command line of the packaging tool. *)
From Verif Require Import Base BaseProofs ArgsModel ArgsSpec ArgsProofs.

(** ** An example *)

Definition ex_stats : stats := fun p =>
  if beq p (B "/home/u/MyLib") then Some true else if beq p (B "/") then Some true
  else if beq p (B "icon.png") then Some false else None.
Definition ex_args : list bytes :=
  [B "-librarypath"; B "/home/u/MyLib//"; B "-version"; B "1.2"; B "-language"; B "3.4"; B "-encrypt"; B "TRUE"; B "-icon"; B "icon.png"].
Definition ex_options : list (bytes * bytes) :=
  [(B "librarypath", B "/home/u/MyLib//"); (B "version", B "1.2"); (B "language", B "3.4"); (B "encrypt", B "TRUE"); (B "icon", B "icon.png")].
Lemma ex_command : CommandLine Dash ex_args ex_options.
Proof.
  assert (K : forall k, lookup_argument k = true -> KnownOption k) by (intros k; apply valid_known).
  unfold ex_args, ex_options.
  repeat (apply CL_cons; [reflexivity|apply K; reflexivity|discriminate|cbn [map fst In]; intros H; repeat destruct H as [H|H]; try discriminate H; exact H|]).
  apply CL_nil.
Qed.
Lemma dash_any args o : CommandLine Dash args o -> CommandLine AnyByte args o.
Proof. induction 1; constructor; try assumption. exact I. Qed.

(** ** C34 *)

(** The arguments are accepted if and only if they are known options, each given once and with a
    value, the mandatory ones among them, and the files they name exist.  Missing from the full
    statement: any character is accepted in place of the dash. *)
Theorem C34_accepted_partial : forall st lves args,
  (exists t, validate st lves args = Ok (Some t)) <-> (exists o, CommandLine AnyByte args o /\ Acceptable st lves o).
Proof. exact validate_accepts. Qed.
Print Assumptions C34_accepted_partial.

(** The values used afterwards are those that were given, except that the library path loses the
    slashes at its end and encrypt is in lower case; options that were not given have no value. *)
Theorem C34_values : forall st lves args o t,
  CommandLine AnyByte args o -> validate st lves args = Ok (Some t) -> Kept o (value_of t).
Proof. exact validate_keeps. Qed.
Print Assumptions C34_values.

Example C34_ex : exists t, validate ex_stats 2 ex_args = Ok (Some t) /\ CommandLine Dash ex_args ex_options /\
  Acceptable ex_stats 2 ex_options /\
  value_of t (B "librarypath") = Some (B "/home/u/MyLib") /\ value_of t (B "encrypt") = Some (B "true") /\
  value_of t (B "icon") = Some (B "icon.png") /\ value_of t (B "title") = None.
Proof.
  assert (V : exists t, validate ex_stats 2 ex_args = Ok (Some t)) by (eexists; vm_compute; reflexivity).
  assert (A : Acceptable ex_stats 2 ex_options).
  { destruct (proj1 (C34_accepted_partial _ _ _) V) as (o & C & A). now rewrite <- (command_fun _ _ _ _ _ C ex_command). }
  eexists. split; [vm_compute; reflexivity|]. split; [exact ex_command|]. split; [exact A|].
  split; [vm_compute; reflexivity|]. split; [vm_compute; reflexivity|]. split; vm_compute; reflexivity.
Qed.
(** Rejected: no LVE although encryption is wanted; an option given twice; a missing value. *)
Example C34_rejected_ex :
  validate ex_stats 0 ex_args = Ok None /\ validate ex_stats 2 (ex_args ++ [B "-version"; B "2"]) = Ok None /\
  validate ex_stats 2 (ex_args ++ [B "-title"]) = Ok None /\ validate ex_stats 2 (ex_args ++ [B "-title"; []]) = Ok None /\
  validate ex_stats 2 (ex_args ++ [B "-tools"; B "nowhere"]) = Ok None.
Proof. vm_compute. tauto. Qed.

(** An option may start with any character. *)
Theorem C34_prefix_refuted : forall c, c <> MINUS -> exists args,
  (exists t, validate ex_stats 2 args = Ok (Some t)) /\ (forall o, ~ CommandLine Dash args o) /\ In (c :: B "version") args.
Proof.
  intros c Nc. exists [B "-librarypath"; B "/home/u/MyLib"; c :: B "version"; B "1.2"; B "-language"; B "3.4"].
  split; [eexists; vm_compute; reflexivity|]. split; [|right; right; now left].
  intros o C. inversion C as [|? ? ? ? ? _ _ _ _ C2]; subst. inversion C2 as [|? ? ? ? ? D]; subst. exact (Nc D).
Qed.
Print Assumptions C34_prefix_refuted.

(** An empty string in place of an option makes the program read past the end of the string; and
    this is the only case in which the check of the arguments has undefined behaviour. *)
Theorem C34_empty_refuted : forall args,
  (exists r, validate_arguments args = UB r) <->
  (exists pre post o, args = pre ++ [] :: post /\ CommandLine AnyByte pre o).
Proof. exact validate_arguments_ub. Qed.
Print Assumptions C34_empty_refuted.
Example C34_empty_ex : validate ex_stats 2 (ex_args ++ [[]; B "x"]) = UB OobRead.
Proof. vm_compute. reflexivity. Qed.

(** ** C41 *)

(** The library id is the last component of the library path, whatever number of slashes follows,
    and asking for it changes nothing.  Missing: names that end with a backslash, paths that have
    no last component. *)
Theorem C41_library_id_partial : forall st lves args t p name,
  validate st lves args = Ok (Some t) -> (exists o, CommandLine AnyByte args o /\ In (B "librarypath", p) o) ->
  LastComponent p name -> (forall q, name <> q ++ [BSLASH]) -> library_name t = Ok (Some name, t).
Proof. exact library_name_component. Qed.
Print Assumptions C41_library_id_partial.
Example C41_ex : exists t, validate ex_stats 2 ex_args = Ok (Some t) /\ LastComponent (B "/home/u/MyLib//") (B "MyLib") /\
  library_name t = Ok (Some (B "MyLib"), t).
Proof.
  eexists. split; [vm_compute; reflexivity|]. split; [|vm_compute; reflexivity].
  exists (B "/home/u/"), (B "//"). split; [reflexivity|]. split; [discriminate|]. split.
  { intros H. cbn [B list_ascii_of_string In] in H. repeat destruct H as [H|H]; try discriminate H; exact H. }
  split; [apply Forall_cons; [reflexivity|apply Forall_cons; [reflexivity|apply Forall_nil]]|]. right. now exists (B "/home/u").
Qed.

(** A directory may have a name that ends with a backslash; the backslash is lost. *)
Theorem C41_backslash_refuted : forall st lves args o t pre name,
  validate st lves args = Ok (Some t) -> CommandLine AnyByte args o ->
  In (B "librarypath", pre ++ name ++ [BSLASH]) o -> LastComponent (pre ++ name) name -> (forall q, name <> q ++ [BSLASH]) ->
  (pre = [] \/ exists q, pre = q ++ [SLASH]) ->
  library_name t = Ok (Some name, t) /\ LastComponent (pre ++ name ++ [BSLASH]) (name ++ [BSLASH]).
Proof. exact backslash_library. Qed.
Print Assumptions C41_backslash_refuted.
Definition bs_args : list bytes :=
  [B "-librarypath"; B "/home/u/MyLib" ++ [BSLASH]; B "-version"; B "1.2"; B "-language"; B "3.4"].
Example C41_backslash_ex : exists t, validate ex_stats 0 bs_args = Ok (Some t) /\ library_name t = Ok (Some (B "MyLib"), t).
Proof. eexists. split; vm_compute; reflexivity. Qed.

(** A library path of slashes only is accepted.  Its id is empty, and the second request for the id
    reads the byte before the path. *)
Theorem C41_root_refuted : forall st lves args o t p,
  validate st lves args = Ok (Some t) -> CommandLine AnyByte args o ->
  In (B "librarypath", p) o -> Forall (fun c => c = SLASH) p ->
  exists t1, library_name t = Ok (Some [], t1) /\ library_name t1 = UB OobRead.
Proof. exact root_library. Qed.
Print Assumptions C41_root_refuted.
Example C41_root_ex : exists t, validate ex_stats 0 [B "-librarypath"; B "///"; B "-version"; B "1.2"; B "-language"; B "3.4"] = Ok (Some t).
Proof. eexists. vm_compute. reflexivity. Qed.
