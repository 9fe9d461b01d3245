(** C109: the structure of the manifest. *)
From Verif Require Import Base BaseProofs ArgsModel ArgsSpec ArgsProofs ArgsProps XmlSpec XmlProofs ManifestModel ManifestSpec ManifestProofs ManifestProps
  StructSpec StructProofs.

(** Without a file of dependencies and without an LVE for macOS the manifest has only elements and attributes that the documentation
    lists, at the places that it gives, and all mandatory ones.  The executables are those in the list, for documented platforms, not two
    different ones for the same platform.  The file of tools must contain a documented element for compatibility, as packagetool does
    not look at it.  Missing from the full statement: the two cases of the theorems below, and values that cannot be written (C35). *)
Theorem C109_structure_partial : forall st k args t o p name ver lang read lves icon ns,
  validate st k args = Ok (Some t) -> CommandLine AnyByte args o ->
  In (B "librarypath", p) o -> LastComponent p name -> (forall q, name <> q ++ [BSLASH]) ->
  In (B "version", ver) o -> In (B "language", lang) o -> Forall (fun kv => Writable (snd kv)) o ->
  (forall f, In (Some f) lves -> In f (map fst shipped) /\ f <> B "lve_darwin64") ->
  (option_of o (B "icon") <> None -> exists i, icon = Some i /\ Writable i) ->
  Named read o (B "tools") ns -> Forall (fun n => Conforms [B "archive"; B "library"] n /\ exists a kids, n = Elem (B "compatibility") a kids) ns ->
  option_of o (B "dependencies") = None ->
  exists doc root, create_manifest true read lves icon t = Ok (t, doc) /\ read_xml doc = Some root /\ Conforms [] root /\ Complete root /\
    (forall a, Found root [B "archive"; B "library"; B "encryption"; B "executable"] a -> exists f platform, In (Some f) lves /\ In platform platforms /\
       a = [(B "path", B ".library/" ++ f); (B "platform", platform); (B "licensing", B "true")]) /\
    (forall a b platform, Found root [B "archive"; B "library"; B "encryption"; B "executable"] a ->
       Found root [B "archive"; B "library"; B "encryption"; B "executable"] b ->
       In (B "platform", platform) a -> In (B "platform", platform) b -> a = b).
Proof.
  intros st k args t o p name ver lang read lves icon ns V C Ip LC Nb Iv Il W Hl Hi H1 Hn Hd.
  destruct (present_executables lves (fun f I => proj1 (Hl f I))) as [X Fx].
  destruct (C35_spaces_partial st k args t o p name ver lang read lves (present lves) icon ns []) as (doc & root & E & _ & R & S0); try assumption.
  - intros _. exact X.
  - eapply Forall_impl; [|exact Fx]. intros fp [L O]. split; [exact L|apply O].
  - unfold Named. now rewrite Hd.
  - rewrite app_nil_r in S0. rewrite Forall_forall in Hn. exists doc, root. split; [exact E|]. split; [exact R|]. split; [|split; [|]].
    + intros q a F. apply (says_to _ _ S0) in F. apply shape_conforms in F; [exact F|]. intros x Ix. exact (proj1 (Hn x Ix)).
    + intros q key [H|[H|[H|[]]]]; injection H as <- <-; do 2 eexists; (split; [apply (says_from _ _ S0)|]).
      * apply library_found.
      * now left.
      * eapply inside_found; [left; left; reflexivity|apply FS_root].
      * now left.
      * eapply inside_found; [left; right; left; reflexivity|apply FS_root].
      * now left.
    + assert (Ex : forall a, Found root [B "archive"; B "library"; B "encryption"; B "executable"] a ->
        exists fp, In (Some (fst fp)) lves /\ In fp shipped /\ fst fp <> B "lve_darwin64" /\
          a = [(B "path", B ".library/" ++ fst fp); (B "platform", snd fp); (B "licensing", B "true")]).
      { intros a F. apply (says_to _ _ S0) in F. apply shape_executables in F; [|intros x Ix; exact (proj2 (Hn x Ix))].
        destruct F as (l & fp & El & Il' & ->). destruct (encrypted o); [|discriminate El]. injection El as <-.
        apply present_in in Il'. destruct Il' as [If Is]. exists fp. split; [exact If|]. split; [exact Is|]. split; [exact (proj2 (Hl _ If))|].
        rewrite attribute_shipped by exact Is. reflexivity. }
      split.
      * intros a F. destruct (Ex a F) as (fp & If & Is & N & ->). exists (fst fp), (snd fp). split; [exact If|]. split; [|reflexivity].
        destruct Is as [<-|[<-|[<-|[<-|[<-|[]]]]]]; cbn [snd]; unfold platforms; cbn [In]; tauto.
      * intros a b pl Fa Fb Ia Ib. destruct (Ex a Fa) as (fp & _ & Is & _ & ->). destruct (Ex b Fb) as (fq & _ & Is' & _ & ->).
        assert (Q : snd fp = snd fq).
        { destruct Ia as [[=]|[Ia|[[=]|[]]]]. destruct Ib as [[=]|[Ib|[[=]|[]]]]. congruence. }
        destruct fp as [f1 p1], fq as [f2 p2]. cbn [fst snd] in *. subst p2.
        assert (f1 = f2).
        { clear - Is Is'. destruct Is as [Is|[Is|[Is|[Is|[Is|[]]]]]]; injection Is as <- <-;
          destruct Is' as [I|[I|[I|[I|[I|[]]]]]]; injection I as <-; try discriminate; reflexivity. }
        now subst f2.
Qed.
Print Assumptions C109_structure_partial.

(** Whenever a file of dependencies is given, its contents are put into the library element; nothing is put directly below the root,
    where the documentation wants it. *)
Theorem C109_dependencies_refuted : forall st k args t o p name ver lang read lves execs icon ns1 a kids,
  validate st k args = Ok (Some t) -> CommandLine AnyByte args o ->
  In (B "librarypath", p) o -> LastComponent p name -> (forall q, name <> q ++ [BSLASH]) ->
  In (B "version", ver) o -> In (B "language", lang) o -> Forall (fun kv => Writable (snd kv)) o ->
  (encrypted o = true -> Executables lves execs) -> Forall (fun fp => length (fst fp) <= 200 /\ Writable (fst fp)) execs ->
  (option_of o (B "icon") <> None -> exists i, icon = Some i /\ Writable i) ->
  Named read o (B "tools") ns1 -> Named read o (B "dependencies") [Elem (B "dependencies") a kids] ->
  exists doc root, create_manifest true read lves icon t = Ok (t, doc) /\ read_xml doc = Some root /\
    Found root [B "archive"; B "library"; B "dependencies"] a /\ (forall q b, ~ Found root (B "archive" :: B "dependencies" :: q) b) /\
    ~ Conforms [] root.
Proof.
  intros st k args t o p name ver lang read lves execs icon ns1 a kids V C Ip LC Nb Iv Il W He Fe Hi H1 H2.
  destruct (C35_spaces_partial st k args t o p name ver lang read lves execs icon ns1 [Elem (B "dependencies") a kids]) as (doc & root & E & _ & R & S0); try assumption.
  assert (F : Found root [B "archive"; B "library"; B "dependencies"] a).
  { apply (says_from _ _ S0). eapply inside_found; [right; left; eexists; split; [apply in_or_app; right; left; reflexivity|reflexivity]|].
    apply FS_foreign. apply Found_root. }
  exists doc, root. split; [exact E|]. split; [exact R|]. split; [exact F|]. split.
  - intros q b G. apply (says_to _ _ S0) in G. apply shape_top in G. destruct G as [G|G]; discriminate G.
  - intros Cf. destruct (Cf _ _ F) as (names & I & _). cbn in I. repeat destruct I as [I|I]; try discriminate I; exact I.
Qed.
Print Assumptions C109_dependencies_refuted.

(** Whenever there is an LVE for macOS, the manifest of an encrypted library has a platform that the documentation does not list. *)
Theorem C109_platform_refuted : forall st k args t o p name ver lang read lves icon ns1 ns2,
  validate st k args = Ok (Some t) -> CommandLine AnyByte args o ->
  In (B "librarypath", p) o -> LastComponent p name -> (forall q, name <> q ++ [BSLASH]) ->
  In (B "version", ver) o -> In (B "language", lang) o -> Forall (fun kv => Writable (snd kv)) o ->
  encrypted o = true -> (forall f, In (Some f) lves -> In f (map fst shipped)) -> In (Some (B "lve_darwin64")) lves ->
  (option_of o (B "icon") <> None -> exists i, icon = Some i /\ Writable i) ->
  Named read o (B "tools") ns1 -> Named read o (B "dependencies") ns2 ->
  exists doc root, create_manifest true read lves icon t = Ok (t, doc) /\ read_xml doc = Some root /\
    exists a platform, Found root [B "archive"; B "library"; B "encryption"; B "executable"] a /\ In (B "platform", platform) a /\ ~ In platform platforms.
Proof.
  intros st k args t o p name ver lang read lves icon ns1 ns2 V C Ip LC Nb Iv Il W He Hl Hm Hi H1 H2.
  destruct (present_executables lves Hl) as [X Fx].
  destruct (C35_spaces_partial st k args t o p name ver lang read lves (present lves) icon ns1 ns2) as (doc & root & E & _ & R & S0); try assumption.
  - intros _. exact X.
  - eapply Forall_impl; [|exact Fx]. intros fp [L O]. split; [exact L|apply O].
  - rewrite He in S0. exists doc, root. split; [exact E|]. split; [exact R|].
    assert (Ip' : In (B "lve_darwin64", B "darwin64") (present lves)).
    { apply in_flat_map. exists (Some (B "lve_darwin64")). split; [exact Hm|]. now left. }
    exists (exec_attrs (map attribute_char) (B "lve_darwin64", B "darwin64")), (B "darwin64"). split; [|split].
    + apply (says_from _ _ S0). eapply inside_found; [right; right; eexists; split; reflexivity|].
      eapply FS_below; [apply in_map; exact Ip'|]. apply FS_root.
    + right. left. reflexivity.
    + intros I. cbn in I. repeat destruct I as [I|I]; try discriminate I; exact I.
Qed.
Print Assumptions C109_platform_refuted.

(** Examples: a library with the tools file of the documentation, then with dependencies, then with an LVE for macOS. *)
Definition st_stats : stats := fun p =>
  if beq p (B "/l/My") then Some true else if beq p (B "t.xml") then Some false else if beq p (B "d.xml") then Some false else None.
Definition st_options : list (bytes * bytes) :=
  [(B "librarypath", B "/l/My"); (B "version", B "1.0"); (B "language", B "3.2"); (B "encrypt", B "true"); (B "tools", B "t.xml")].
Definition st_args (o : list (bytes * bytes)) : list bytes := flat_map (fun kv => [B "-" ++ fst kv; snd kv]) o.
Definition st_tools : list bytes :=
  [B "<compatibility>"; B "  <tool name=""tool 1"" minversion=""1.0""/>"; B "  <tool name=""tool 2"" minversion=""3.0""/>"; B "</compatibility>"].
Definition st_depends : list bytes := [B "<dependencies>"; B "  <dependency id=""Other""/>"; B "</dependencies>"].
Definition st_read : bytes -> option bytes := fun p =>
  if beq p (B "t.xml") then Some (B "<?xml version=""1.0""?>" ++ [LF] ++ lines_of st_tools)
  else if beq p (B "d.xml") then Some (B "<?xml version=""1.0""?>" ++ [LF] ++ lines_of st_depends) else None.
Definition st_node : node :=
  Elem (B "compatibility") [] [Text ([LF] ++ B "  "); Elem (B "tool") [(B "name", B "tool 1"); (B "minversion", B "1.0")] [];
    Text ([LF] ++ B "  "); Elem (B "tool") [(B "name", B "tool 2"); (B "minversion", B "3.0")] []; Text [LF]].
Definition st_more : list (bytes * bytes) := st_options ++ [(B "dependencies", B "d.xml")].

Lemma st_command : CommandLine AnyByte (st_args st_options) st_options.
Proof.
  assert (K : forall k, lookup_argument k = true -> KnownOption k) by (intros k; apply valid_known).
  unfold st_args, st_options. cbn [flat_map fst snd app].
  do 5 (apply CL_cons; [exact I|apply K; reflexivity|discriminate|cbn [map fst In]; intros H; repeat destruct H as [H|H]; try discriminate H; exact H|]).
  apply CL_nil.
Qed.
Lemma st_command' : CommandLine AnyByte (st_args st_more) st_more.
Proof.
  assert (K : forall k, lookup_argument k = true -> KnownOption k) by (intros k; apply valid_known).
  unfold st_args, st_more, st_options. cbn [flat_map fst snd app].
  do 6 (apply CL_cons; [exact I|apply K; reflexivity|discriminate|cbn [map fst In]; intros H; repeat destruct H as [H|H]; try discriminate H; exact H|]).
  apply CL_nil.
Qed.
Lemma st_document ls n :
  forallb (fun l => (length l <? 200) && negb (has_byte LF l) && negb (has_byte NUL l) && negb (has_byte (ch 255) l)) ls = true ->
  forallb plain (B "<?xml version=""1.0""?>" ++ [LF] ++ lines_of ls) = true ->
  read_xml (B "<?xml version=""1.0""?>" ++ [LF] ++ lines_of ls) = Some n -> Document (B "<?xml version=""1.0""?>" ++ [LF] ++ lines_of ls) n.
Proof.
  intros F P R. exists (B "version=""1.0"""), ls. split; [reflexivity|]. split; [now apply has_byte_false|]. split; [now apply has_byte_false|].
  split; [apply Nat.leb_le; reflexivity|]. split.
  - apply Forall_forall. intros l Il. rewrite forallb_forall in F. apply F in Il.
    rewrite !andb_true_iff, !negb_true_iff, Nat.ltb_lt, !has_byte_false in Il. unfold ShortLine. tauto.
  - split; [now apply plain_writable|exact R].
Qed.
Lemma st_conforms : Conforms [B "archive"; B "library"] st_node.
Proof.
  intros p a F. inversion F as [|? ? ? x q b I Fx]; subst.
  - apply (no_attributes 12 _ []). reflexivity.
  - destruct I as [<-|[<-|[<-|[<-|[<-|[]]]]]]; inversion Fx as [|? ? ? y r b I Fy]; subst; try (destruct I; fail);
    (apply (listed 13 _ _ [B "name"; B "minversion"]); [reflexivity|apply incl_refl]).
Qed.
Lemma st_last : LastComponent (B "/l/My") (B "My").
Proof.
  exists (B "/l/"), []. split; [reflexivity|]. split; [discriminate|]. split; [now apply has_byte_false|]. split; [constructor|].
  right. exists (B "/l"). reflexivity.
Qed.
Lemma st_no_backslash q : B "My" <> q ++ [BSLASH].
Proof. intros H. apply (f_equal last_byte) in H. rewrite last_byte_app in H. discriminate H. Qed.
Lemma st_named o : option_of o (B "tools") = Some (B "t.xml") -> Named st_read o (B "tools") [st_node].
Proof.
  intros E. unfold Named. rewrite E. exists (B "<?xml version=""1.0""?>" ++ [LF] ++ lines_of st_tools), st_node. split; [reflexivity|]. split; [|reflexivity].
  apply st_document; vm_compute; reflexivity.
Qed.
Example C109_structure_ex : exists t doc root, validate st_stats 2 (st_args st_options) = Ok (Some t) /\
  create_manifest true st_read [None; Some (B "lve_win64.exe"); Some (B "lve_linux64")] None t = Ok (t, doc) /\ read_xml doc = Some root /\
  Conforms [] root /\ Complete root /\
  Found root [B "archive"; B "library"; B "encryption"; B "executable"]
    [(B "path", B ".library/lve_linux64"); (B "platform", B "linux64"); (B "licensing", B "true")] /\
  Found root [B "archive"; B "library"; B "compatibility"; B "tool"] [(B "name", B "tool 2"); (B "minversion", B "3.0")].
Proof.
  assert (V : exists t, validate st_stats 2 (st_args st_options) = Ok (Some t)) by (eexists; vm_compute; reflexivity). destruct V as [t V].
  destruct (C109_structure_partial st_stats 2 (st_args st_options) t st_options (B "/l/My") (B "My") (B "1.0") (B "3.2") st_read
    [None; Some (B "lve_win64.exe"); Some (B "lve_linux64")] None [st_node]) as (doc & root & E & R & Cf & Cm & _).
  - exact V.
  - exact st_command.
  - now left.
  - exact st_last.
  - exact st_no_backslash.
  - right. now left.
  - right. right. now left.
  - apply Forall_forall. intros kv H. cbn [st_options In] in H. repeat destruct H as [<-|H]; try contradiction; now apply plain_writable.
  - intros f [[=]|[[= <-]|[[= <-]|[]]]]; (split; [cbn; tauto|discriminate]).
  - intros N. now destruct N.
  - now apply st_named.
  - apply Forall_cons; [|apply Forall_nil]. split; [exact st_conforms|]. do 2 eexists. reflexivity.
  - reflexivity.
  - exists t, doc, root. do 5 (split; [assumption|]). clear Cf Cm.
    revert R E. vm_compute in V. injection V as <-. intros R E. vm_compute in E. injection E as <-.
    vm_compute in R. injection R as <-. split.
    + eapply Found_below; [do 3 right; left; reflexivity|]. eapply Found_below; [do 5 right; left; reflexivity|].
      eapply Found_below; [do 3 right; left; reflexivity|]. apply Found_root.
    + eapply Found_below; [do 3 right; left; reflexivity|]. eapply Found_below; [do 7 right; left; reflexivity|].
      eapply Found_below; [do 3 right; left; reflexivity|]. apply Found_root.
Qed.
Example C109_dependencies_ex : exists t doc root, validate st_stats 2 (st_args st_more) = Ok (Some t) /\
  create_manifest true st_read [None; Some (B "lve_linux64")] None t = Ok (t, doc) /\ read_xml doc = Some root /\
  Found root [B "archive"; B "library"; B "dependencies"; B "dependency"] [(B "id", B "Other")] /\
  (forall q b, ~ Found root (B "archive" :: B "dependencies" :: q) b) /\ ~ Conforms [] root.
Proof.
  assert (V : exists t, validate st_stats 2 (st_args st_more) = Ok (Some t)) by (eexists; vm_compute; reflexivity). destruct V as [t V].
  assert (Ex : Executables [None; Some (B "lve_linux64")] (present [None; Some (B "lve_linux64")]) /\
    Forall (fun fp => length (fst fp) <= 200 /\ OneLine (fst fp)) (present [None; Some (B "lve_linux64")])).
  { apply present_executables. intros f [[=]|[[= <-]|[]]]. cbn. tauto. }
  destruct (C109_dependencies_refuted st_stats 2 (st_args st_more) t st_more (B "/l/My") (B "My") (B "1.0") (B "3.2") st_read
    [None; Some (B "lve_linux64")] (present [None; Some (B "lve_linux64")]) None [st_node] []
    [Text ([LF] ++ B "  "); Elem (B "dependency") [(B "id", B "Other")] []; Text [LF]]) as (doc & root & E & R & F & T & Nc).
  - exact V.
  - exact st_command'.
  - now left.
  - exact st_last.
  - exact st_no_backslash.
  - right. now left.
  - right. right. now left.
  - apply Forall_forall. intros kv H. cbn [st_more st_options app In] in H. repeat destruct H as [<-|H]; try contradiction; now apply plain_writable.
  - intros _. apply Ex.
  - eapply Forall_impl; [|apply Ex]. intros fp [L O]. split; [exact L|apply O].
  - intros N. now destruct N.
  - now apply st_named.
  - exists (B "<?xml version=""1.0""?>" ++ [LF] ++ lines_of st_depends). eexists. split; [reflexivity|]. split; [|reflexivity].
    apply st_document; vm_compute; reflexivity.
  - exists t, doc, root. split; [exact V|]. split; [exact E|]. split; [exact R|]. split; [|now split]. clear F T Nc.
    revert R E. vm_compute in V. injection V as <-. intros R E. vm_compute in E. injection E as <-. vm_compute in R. injection R as <-.
    eapply Found_below; [do 3 right; left; reflexivity|]. eapply Found_below; [do 9 right; left; reflexivity|].
    eapply Found_below; [do 1 right; left; reflexivity|]. apply Found_root.
Qed.
Example C109_platform_ex : exists t doc root, validate st_stats 2 (st_args st_options) = Ok (Some t) /\
  create_manifest true st_read [Some (B "lve_darwin64")] None t = Ok (t, doc) /\ read_xml doc = Some root /\
  exists a platform, Found root [B "archive"; B "library"; B "encryption"; B "executable"] a /\ In (B "platform", platform) a /\ ~ In platform platforms.
Proof.
  assert (V : exists t, validate st_stats 2 (st_args st_options) = Ok (Some t)) by (eexists; vm_compute; reflexivity). destruct V as [t V].
  destruct (C109_platform_refuted st_stats 2 (st_args st_options) t st_options (B "/l/My") (B "My") (B "1.0") (B "3.2") st_read
    [Some (B "lve_darwin64")] None [st_node] []) as (doc & root & E & R & H).
  - exact V.
  - exact st_command.
  - now left.
  - exact st_last.
  - exact st_no_backslash.
  - right. now left.
  - right. right. now left.
  - apply Forall_forall. intros kv H. cbn [st_options In] in H. repeat destruct H as [<-|H]; try contradiction; now apply plain_writable.
  - reflexivity.
  - intros f [[= <-]|[]]. cbn. tauto.
  - now left.
  - intros N. now destruct N.
  - now apply st_named.
  - reflexivity.
  - exists t, doc, root. now repeat split.
Qed.

(** The example of a file of dependencies in the documentation (doc/SEMLA.md:245-258) is accepted, and the manifest is then not XML. *)
Definition documentation_lines : list bytes :=
  [B "<dependencies>  "; B "  <dependency id=""depend 1"" >  "; B "    <versions>"; B "      <version number=""1""/>"; B "        <providers>";
   B "          <provider name=""Example Company"" uri=""www.example.com"" />"; B "        </providers>"; B "      </version>"; B "    </versions>";
   B "  </dependency>"; B "</dependencies>"].
Theorem C109_documentation_refuted : exists t doc,
  validate st_stats 2 (st_args [(B "librarypath", B "/l/My"); (B "version", B "1.0"); (B "language", B "3.2"); (B "dependencies", B "d.xml")]) = Ok (Some t) /\
  create_manifest true (fun p => if beq p (B "d.xml") then Some (B "<?xml version=""1.0"" encoding=""utf-8""?>" ++ [LF] ++ lines_of documentation_lines) else None)
    [] None t = Ok (t, doc) /\ read_xml doc = None.
Proof. eexists. eexists. split; [vm_compute; reflexivity|]. split; [vm_compute; reflexivity|]. vm_compute. reflexivity. Qed.
Print Assumptions C109_documentation_refuted.
