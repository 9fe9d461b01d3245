(** C35, C36, C48: the manifest. *)
From Verif Require Import Base BaseProofs ArgsModel ArgsSpec ArgsProofs ArgsProps XmlSpec XmlProofs ManifestModel ManifestSpec ManifestProofs.

(** ** C35 *)

(** The manifest of an accepted command line is well-formed XML in UTF-8, and reading it gives the
    elements of [manifest_shape] with exactly the given values, whatever markup characters they
    contain.  Missing from the full statement: values with characters that XML does not allow or
    changes (control characters, carriage returns, text that is not UTF-8; in attributes also tabs
    and line feeds); tool and dependency files that are not XML documents. *)
Theorem C35_reads_back_partial : forall st k args t o p name ver lang read lves execs icon ns1 ns2,
  validate st k args = Ok (Some t) -> CommandLine AnyByte args o ->
  In (B "librarypath", p) o -> LastComponent p name -> (forall q, name <> q ++ [BSLASH]) ->
  In (B "version", ver) o -> In (B "language", lang) o ->
  Forall (fun kv => Writable (snd kv)) o -> OneLine name ->
  (forall key v, In (key, v) o -> In key [B "enabled"; B "version"; B "build"; B "date"; B "language"] -> OneLine v) ->
  (encrypted o = true -> Executables lves execs) -> Forall (fun fp => length (fst fp) <= 200 /\ OneLine (fst fp)) execs ->
  (option_of o (B "icon") <> None -> exists i, icon = Some i /\ OneLine i) ->
  Named read o (B "tools") ns1 -> Named read o (B "dependencies") ns2 ->
  exists doc root, create_manifest true read lves icon t = Ok (t, doc) /\ XmlText doc /\ read_xml doc = Some root /\
    Says root (manifest_shape (fun v => v) name (option_of o) ver lang (if encrypted o then Some execs else None)
      (match option_of o (B "icon") with Some _ => icon | None => None end) (ns1 ++ ns2)).
Proof.
  intros st k args t o p name ver lang read lves execs icon ns1 ns2 V C Ip LC Nb Iv Il W On Oa He Fe Hi H1 H2.
  destruct (manifest_general st k args t o p name ver lang read lves execs icon ns1 ns2) as (doc & root & E & Wd & R & S0); try assumption.
  - eapply Forall_impl; [|exact Fe]. intros fp [L O]. split; [exact L|apply O].
  - intros N. destruct (Hi N) as (i & Ei & Oi). exists i. split; [exact Ei|apply Oi].
  - exists doc, root. split; [exact E|]. split; [apply Wd|]. split; [exact R|]. erewrite <- shape_same; [exact S0| | | | | |].
    + exact On.
    + apply (Oa _ _ Iv). cbn [In]. tauto.
    + apply (Oa _ _ Il). cbn [In]. tauto.
    + intros key v Ik Ek. apply (Oa key v); [|cbn [In] in *; tauto]. rewrite option_of_value in Ek. now apply value_in.
    + intros l El. destruct (encrypted o); [|discriminate]. injection El as <-. split; [now apply He|].
      eapply Forall_impl; [|exact Fe]. intros fp [_ O]. exact O.
    + intros i Ei. destruct (option_of o (B "icon")); [|discriminate]. destruct Hi as (i' & Ei' & Oi); [discriminate|]. congruence.
Qed.
Print Assumptions C35_reads_back_partial.

(** With tabs and line feeds in attribute values too, these read as spaces. *)
Theorem C35_spaces_partial : forall st k args t o p name ver lang read lves execs icon ns1 ns2,
  validate st k args = Ok (Some t) -> CommandLine AnyByte args o ->
  In (B "librarypath", p) o -> LastComponent p name -> (forall q, name <> q ++ [BSLASH]) ->
  In (B "version", ver) o -> In (B "language", lang) o -> Forall (fun kv => Writable (snd kv)) o ->
  (encrypted o = true -> Executables lves execs) -> Forall (fun fp => length (fst fp) <= 200 /\ Writable (fst fp)) execs ->
  (option_of o (B "icon") <> None -> exists i, icon = Some i /\ Writable i) ->
  Named read o (B "tools") ns1 -> Named read o (B "dependencies") ns2 ->
  exists doc root, create_manifest true read lves icon t = Ok (t, doc) /\ XmlText doc /\ read_xml doc = Some root /\
    Says root (manifest_shape (map attribute_char) name (option_of o) ver lang (if encrypted o then Some execs else None)
      (match option_of o (B "icon") with Some _ => icon | None => None end) (ns1 ++ ns2)).
Proof.
  intros st k args t o p name ver lang read lves execs icon ns1 ns2 V C Ip LC Nb Iv Il W He Fe Hi H1 H2.
  destruct (manifest_general st k args t o p name ver lang read lves execs icon ns1 ns2) as (doc & root & E & Wd & R & S0); try assumption.
  exists doc, root. split; [exact E|]. split; [apply Wd|]. now split.
Qed.
Print Assumptions C35_spaces_partial.

(** An example: markup in the values, two executables, an icon and a tool description. *)
Definition mf_stats : stats := fun p => if beq p (B "/home/u/My<Lib>") then Some true else if beq p (B "t.xml") then Some false else if beq p (B "i.png") then Some false else None.
Definition mf_args : list bytes :=
  [B "-librarypath"; B "/home/u/My<Lib>/"; B "-version"; B "1 & 2"; B "-language"; B "3.4"; B "-encrypt"; B "True"; B "-title"; B "<b>""T"" & U</b>";
   B "-icon"; B "i.png"; B "-tools"; B "t.xml"; B "-build"; B "7"; B "-copyright"; B "a<b"].
Definition mf_options : list (bytes * bytes) :=
  [(B "librarypath", B "/home/u/My<Lib>/"); (B "version", B "1 & 2"); (B "language", B "3.4"); (B "encrypt", B "True"); (B "title", B "<b>""T"" & U</b>");
   (B "icon", B "i.png"); (B "tools", B "t.xml"); (B "build", B "7"); (B "copyright", B "a<b")].
Definition mf_tools : list bytes := [B "<tools>"; B "  <tool id=""x &lt; y""/>"; B "</tools>"].
Definition mf_read : bytes -> option bytes := fun p =>
  if beq p (B "t.xml") then Some (B "<?xml version=""1.0""?>" ++ [LF] ++ lines_of mf_tools) else None.
Definition mf_node : node := Elem (B "tools") [] [Text ([LF] ++ B "  "); Elem (B "tool") [(B "id", B "x < y")] []; Text [LF]].
Definition mf_lves : list (option bytes) := [None; Some (B "lve_win64.exe"); None; Some (B "lve_linux64"); None].

Lemma mf_command : CommandLine AnyByte mf_args mf_options.
Proof.
  assert (K : forall k, lookup_argument k = true -> KnownOption k) by (intros k; apply valid_known).
  unfold mf_args, mf_options.
  repeat (apply CL_cons; [exact I|apply K; reflexivity|discriminate|cbn [map fst In]; intros H; repeat destruct H as [H|H]; try discriminate H; exact H|]).
  apply CL_nil.
Qed.
Lemma mf_oneline s : forallb (fun c => (32 <=? nat_of_ascii c) && (nat_of_ascii c <=? 127)) s = true -> OneLine s.
Proof.
  intros H. rewrite forallb_forall in H. assert (P : forallb plain s = true).
  { apply forallb_forall. intros c Ic. apply H in Ic. unfold plain. now rewrite Ic. }
  split; [now apply plain_writable|]. split; intros Ic; apply H in Ic; discriminate Ic.
Qed.
Lemma mf_document : Document (B "<?xml version=""1.0""?>" ++ [LF] ++ lines_of mf_tools) mf_node.
Proof.
  exists (B "version=""1.0"""), mf_tools. split; [reflexivity|]. split; [now apply has_byte_false|]. split; [now apply has_byte_false|].
  split; [apply Nat.leb_le; reflexivity|]. split.
  - assert (Short : forall l, (length l <? 200) && negb (has_byte LF l) && negb (has_byte NUL l) && negb (has_byte (ch 255) l) = true -> ShortLine l).
    { intros l H. rewrite !andb_true_iff, !negb_true_iff, Nat.ltb_lt, !has_byte_false in H. unfold ShortLine. tauto. }
    unfold mf_tools. apply Forall_cons; [now apply Short|]. apply Forall_cons; [now apply Short|]. apply Forall_cons; [now apply Short|]. apply Forall_nil.
  - split; [now apply plain_writable|vm_compute; reflexivity].
Qed.
Example C35_ex : exists t doc root, validate mf_stats 2 mf_args = Ok (Some t) /\
  create_manifest true mf_read mf_lves (Some (B "i.png")) t = Ok (t, doc) /\ XmlText doc /\ read_xml doc = Some root /\
  Says root (manifest_shape (fun v => v) (B "My<Lib>") (option_of mf_options) (B "1 & 2") (B "3.4")
     (Some [(B "lve_win64.exe", B "win64"); (B "lve_linux64", B "linux64")]) (Some (B "i.png")) [mf_node]).
Proof.
  assert (V : exists t, validate mf_stats 2 mf_args = Ok (Some t)) by (eexists; vm_compute; reflexivity). destruct V as [t V].
  assert (Ex : Executables mf_lves (present mf_lves) /\ Forall (fun fp => length (fst fp) <= 200 /\ OneLine (fst fp)) (present mf_lves)).
  { apply present_executables. intros f H. cbn in H. repeat destruct H as [H|H]; try discriminate H; try contradiction; injection H as <-; cbn; tauto. }
  destruct (C35_reads_back_partial mf_stats 2 mf_args t mf_options (B "/home/u/My<Lib>/") (B "My<Lib>") (B "1 & 2") (B "3.4") mf_read mf_lves
    (present mf_lves) (Some (B "i.png")) [mf_node] []) as (doc & root & E & X & R & S0).
  - exact V.
  - exact mf_command.
  - now left.
  - exists (B "/home/u/"), [SLASH]. split; [reflexivity|]. split; [discriminate|]. split; [now apply has_byte_false|]. split; [constructor; constructor|].
    right. exists (B "/home/u"). reflexivity.
  - intros q H. apply (f_equal last_byte) in H. rewrite last_byte_app in H. discriminate H.
  - right. now left.
  - right. right. now left.
  - apply Forall_forall. intros kv H. cbn [mf_options In] in H. repeat destruct H as [<-|H]; try contradiction; now apply plain_writable.
  - now apply mf_oneline.
  - intros key v H _. cbn [mf_options In] in H. repeat destruct H as [H|H]; try contradiction; injection H as <- <-; now apply mf_oneline.
  - intros _. apply Ex.
  - apply Ex.
  - intros _. exists (B "i.png"). split; [reflexivity|now apply mf_oneline].
  - exists (B "<?xml version=""1.0""?>" ++ [LF] ++ lines_of mf_tools), mf_node. split; [reflexivity|]. split; [exact mf_document|reflexivity].
  - reflexivity.
  - exists t, doc, root. split; [exact V|]. split; [exact E|]. split; [exact X|]. split; [exact R|exact S0].
Qed.

(** A tab or a line feed in an attribute value does not come back: the version that is read is not
    the one that was given. *)
Theorem C35_attribute_refuted : forall st k args t o p name ver lang read lves icon,
  validate st k args = Ok (Some t) -> CommandLine AnyByte args o ->
  In (B "librarypath", p) o -> LastComponent p name -> (forall q, name <> q ++ [BSLASH]) ->
  In (B "version", ver) o -> In (B "language", lang) o -> Forall (fun kv => Writable (snd kv)) o ->
  encrypted o = false -> option_of o (B "icon") = None -> option_of o (B "tools") = None -> option_of o (B "dependencies") = None ->
  In TAB ver \/ In LF ver ->
  exists doc root, create_manifest true read lves icon t = Ok (t, doc) /\ read_xml doc = Some root /\
    ~ Says root (manifest_shape (fun v => v) name (option_of o) ver lang None None []).
Proof.
  intros st k args t o p name ver lang read lves icon V C Ip LC Nb Iv Il W He Hi Ht Hd Hv.
  destruct (manifest_general st k args t o p name ver lang read lves [] icon [] []) as (doc & root & E & Wd & R & S0); try assumption.
  - intros H. congruence.
  - constructor.
  - congruence.
  - unfold Named. now rewrite Ht.
  - unfold Named. now rewrite Hd.
  - exists doc, root. split; [exact E|]. split; [exact R|]. rewrite He, Hi in S0. cbn [app] in S0. intros S1.
    apply (attribute_changes ver Hv). exact (version_differs _ _ _ _ _ _ _ _ _ _ S0 S1).
Qed.
Print Assumptions C35_attribute_refuted.
Example C35_attribute_ex : exists t doc, validate ex_stats 0 [B "-librarypath"; B "/home/u/MyLib"; B "-version"; B "1" ++ [TAB] ++ B "2"; B "-language"; B "3"] = Ok (Some t) /\
  create_manifest true (fun _ => None) [] None t = Ok (t, doc) /\
  exists root a b, read_xml doc = Some root /\ elements root = a ++ (B "version", [(B "number", B "1 2")]) :: b.
Proof.
  eexists. eexists. split; [vm_compute; reflexivity|]. split; [vm_compute; reflexivity|]. eexists.
  exists [(B "archive", []); (B "manifest", [(B "version", B "1.0")]); (B "library", [(B "id", B "MyLib")])], [(B "language", [(B "version", B "3")])].
  split; [vm_compute; reflexivity|vm_compute; reflexivity].
Qed.

(** A control character in a value makes a document that is not XML at all. *)
Theorem C35_control_refuted : forall st k args t o opened read lves icon t' doc key v c,
  validate st k args = Ok (Some t) -> CommandLine AnyByte args o -> In (key, v) o -> In key written -> In c v -> control c ->
  create_manifest opened read lves icon t = Ok (t', doc) -> ~ XmlText doc.
Proof.
  intros st k args t o opened read lves icon t' doc key v c V C Io Ik Ic Hc E.
  apply (control_written opened read lves icon t t' doc key v c E Ik); [|exact Ic|exact Hc].
  rewrite (kept_value st k args o t key V C).
  - rewrite option_of_value. now apply (value_command _ _ _ _ _ C).
  - unfold written in Ik. cbn [In] in Ik. unfold KnownOption. cbn [In]. tauto.
  - intros ->. unfold written in Ik. cbn [In] in Ik. repeat destruct Ik as [Ik|Ik]; try discriminate Ik; contradiction.
  - intros ->. unfold written in Ik. cbn [In] in Ik. repeat destruct Ik as [Ik|Ik]; try discriminate Ik; contradiction.
Qed.
Print Assumptions C35_control_refuted.
Example C35_control_ex : exists t t' doc,
  validate ex_stats 0 [B "-librarypath"; B "/home/u/MyLib"; B "-version"; B "1"; B "-language"; B "3"; B "-title"; [ch 1]] = Ok (Some t) /\
  create_manifest true (fun _ => None) [] None t = Ok (t', doc) /\ In (B "title") written /\ control (ch 1).
Proof.
  eexists. eexists. eexists. split; [vm_compute; reflexivity|]. split; [vm_compute; reflexivity|]. split; [cbn; tauto|].
  split; [apply Nat.ltb_lt; reflexivity|]. split; [discriminate|split; discriminate].
Qed.

(** ** C36 *)

(** All lines except the first appear in the manifest, unchanged and in one piece.  Missing from the
    full statement: lines of 200 or more characters, a last line without line feed, NUL and 255
    bytes. *)
Theorem C36_copied_partial : forall opened read lves icon t t' doc key p first ls,
  create_manifest opened read lves icon t = Ok (t', doc) -> In key [B "tools"; B "dependencies"] -> value_of t key = Some p ->
  read p = Some (first ++ [LF] ++ lines_of ls) -> FirstLine first -> Forall ShortLine ls ->
  exists a b, doc = a ++ lines_of ls ++ b.
Proof. exact manifest_copied. Qed.
Print Assumptions C36_copied_partial.
Example C36_ex : exists t doc, validate mf_stats 2 mf_args = Ok (Some t) /\ value_of t (B "tools") = Some (B "t.xml") /\
  create_manifest true mf_read mf_lves (Some (B "i.png")) t = Ok (t, doc).
Proof. eexists. eexists. split; [vm_compute; reflexivity|]. split; vm_compute; reflexivity. Qed.

(** A last line without line feed is lost: the manifest is the same as without it. *)
Theorem C36_last_line_refuted : forall opened read lves icon t p first ls last,
  FirstLine first -> Forall ShortLine ls -> ~ In LF last -> length last <= 200 ->
  create_manifest opened (fun q => if beq q p then Some (first ++ [LF] ++ lines_of ls ++ last) else read q) lves icon t =
  create_manifest opened (fun q => if beq q p then Some (first ++ [LF] ++ lines_of ls) else read q) lves icon t.
Proof.
  intros opened read lves icon t p first ls last F1 F N L. apply manifest_ext. intros q x. destruct (beq q p); [|reflexivity].
  unfold copy_file_information. rewrite !copy_first by exact F1. now rewrite copy_prefix_tail.
Qed.
Print Assumptions C36_last_line_refuted.
(** A byte 255 ends the file. *)
Theorem C36_eof_byte_refuted : forall opened read lves icon t p first ls rest,
  FirstLine first -> Forall ShortLine ls ->
  create_manifest opened (fun q => if beq q p then Some (first ++ [LF] ++ lines_of ls ++ ch 255 :: rest) else read q) lves icon t =
  create_manifest opened (fun q => if beq q p then Some (first ++ [LF] ++ lines_of ls) else read q) lves icon t.
Proof.
  intros opened read lves icon t p first ls rest F1 F. apply manifest_ext. intros q x. destruct (beq q p); [|reflexivity].
  unfold copy_file_information. rewrite !copy_first by exact F1. now rewrite copy_stops.
Qed.
Print Assumptions C36_eof_byte_refuted.
(** A line of 200 or more characters overruns the line buffer. *)
Theorem C36_long_line_refuted : forall opened read lves icon t key p first ls long rest,
  In key [B "tools"; B "dependencies"] -> value_of t key = Some p ->
  read p = Some (first ++ [LF] ++ lines_of ls ++ long ++ [LF] ++ rest) -> FirstLine first -> Forall ShortLine ls ->
  ~ In LF long -> ~ In NUL long -> ~ In (ch 255) long -> 200 <= length long ->
  exists r, create_manifest opened read lves icon t = UB r.
Proof. exact manifest_long. Qed.
Print Assumptions C36_long_line_refuted.
Definition long_read (n : nat) : bytes -> option bytes := fun _ => Some (B "<?xml?>" ++ [LF] ++ lines_of [B "<a>"] ++ repeat (ch 97) n ++ [LF] ++ B "</a>").
Example C36_long_line_ex : exists t, validate mf_stats 2 mf_args = Ok (Some t) /\
  (exists doc, create_manifest true (long_read 199) mf_lves (Some (B "i.png")) t = Ok (t, doc)) /\
  create_manifest true (long_read 200) mf_lves (Some (B "i.png")) t = UB OobRead /\
  create_manifest true (long_read 201) mf_lves (Some (B "i.png")) t = UB OobWrite.
Proof.
  eexists. split; [vm_compute; reflexivity|]. split; [eexists; vm_compute; reflexivity|]. split; vm_compute; reflexivity.
Qed.

(** ** C48 *)

(** Whichever of the LVE executables are there, the manifest of an encrypted library has one
    executable element for each of them, with its path and platform, and no others (except in the
    tool and dependency descriptions). *)
Theorem C48_executables : forall st k args t o p name ver lang read lves icon ns1 ns2,
  validate st k args = Ok (Some t) -> CommandLine AnyByte args o ->
  In (B "librarypath", p) o -> LastComponent p name -> (forall q, name <> q ++ [BSLASH]) ->
  In (B "version", ver) o -> In (B "language", lang) o -> Forall (fun kv => Writable (snd kv)) o ->
  encrypted o = true -> (forall f, In (Some f) lves -> In f (map fst shipped)) ->
  (option_of o (B "icon") <> None -> exists i, icon = Some i /\ Writable i) ->
  Named read o (B "tools") ns1 -> Named read o (B "dependencies") ns2 ->
  exists doc root, create_manifest true read lves icon t = Ok (t, doc) /\ read_xml doc = Some root /\
    executables (elements root) =
      map (fun fp => (B "executable", [(B "path", B ".library/" ++ fst fp); (B "platform", snd fp); (B "licensing", B "true")])) (present lves) ++
      executables (flat_map elements (ns1 ++ ns2)).
Proof.
  intros st k args t o p name ver lang read lves icon ns1 ns2 V C Ip LC Nb Iv Il W He Hl Hi H1 H2.
  destruct (present_executables lves Hl) as [X Fx].
  destruct (manifest_general st k args t o p name ver lang read lves (present lves) icon ns1 ns2) as (doc & root & E & Wd & R & S0); try assumption.
  - intros _. exact X.
  - eapply Forall_impl; [|exact Fx]. intros fp [L O]. split; [exact L|apply O].
  - exists doc, root. split; [exact E|]. split; [exact R|]. rewrite He in S0. rewrite (says_elements _ _ S0), manifest_executables. f_equal.
    apply map_ext_in. intros fp Ip'. rewrite Forall_forall in Fx. destruct (Fx fp Ip') as [_ Of]. pose proof (executables_platform _ _ _ X Ip') as Pf.
    rewrite (oneline_same (B ".library/" ++ fst fp)) by (apply oneline_app; [now apply mf_oneline|exact Of]).
    rewrite (attribute_same (snd fp)); [reflexivity| | |]; intros H; apply (platform_in _ _ _ Pf) in H; destruct Of as [[_ O3] [O1 O2]]; tauto.
Qed.
Print Assumptions C48_executables.
Example C48_ex : exists t doc root, validate mf_stats 2 mf_args = Ok (Some t) /\
  create_manifest true mf_read mf_lves (Some (B "i.png")) t = Ok (t, doc) /\ read_xml doc = Some root /\
  executables (elements root) =
    [(B "executable", [(B "path", B ".library/lve_win64.exe"); (B "platform", B "win64"); (B "licensing", B "true")]);
     (B "executable", [(B "path", B ".library/lve_linux64"); (B "platform", B "linux64"); (B "licensing", B "true")])].
Proof.
  eexists. eexists. eexists. split; [vm_compute; reflexivity|]. split; [vm_compute; reflexivity|]. split; vm_compute; reflexivity.
Qed.
