(** C98: packaging succeeds. *)
From Coq Require Import Permutation.
From Verif Require Import Base BaseProofs WireModel ArgsModel ArgsSpec ArgsProofs ArgsProps XmlSpec ManifestModel ManifestSpec ManifestProofs CryptModel CryptSpec CryptProofs CryptProps
  PackageModel PackageSpec TreeProofs CopyProofs PackageProofs IconProofs ShipProofs PackageExamples PackageProps ShipProps LiveSpec LiveProofs.

(** If nothing fails the program ends with code 0 and leaves an archive and no staging folder.
    Missing from the full statement: the conditions [Packable], [Encryptable]; see below for what
    happens without some of them. *)
Theorem C98_succeeds_partial : forall pr K w args o name lib, GoodPrimitives pr -> length K = 32 -> Sane w -> Works w -> Request w args o name lib ->
  Packable w o name lib -> (encrypted o = true -> Encryptable w name lib) ->
  exists r l, package pr K w args = Ok r /\ k_code r = 0 /\ k_staging r = None /\ k_archive r = Some (archive_name name, l).
Proof.
  intros pr K w args o name lib G LK Sa Wk Rq Pk En. destruct (succeeds pr K w args o name lib G LK Sa Wk Rq Pk En) as (r & H & Cd).
  destruct (archive_complete pr K w args o name lib r Sa (proj1 Wk) Rq H Cd) as (l & Ea & _). exists r, l. split; [exact H|]. split; [exact Cd|]. split; [|exact Ea].
  destruct Wk as (_ & Wd & _ & _ & _ & _ & _ & _ & _ & Wu & Wr). apply (staging_removed pr K w args o name lib r Rq H (Wd Removing) Wu Wr). lia.
Qed.
Print Assumptions C98_succeeds_partial.
(** Without encryption every file is in the archive, as it is. *)
Theorem C98_plain_partial : forall pr K w args o name lib, GoodPrimitives pr -> length K = 32 -> Sane w -> Works w -> Request w args o name lib ->
  Packable w o name lib -> encrypted o = false ->
  exists r l, package pr K w args = Ok r /\ k_code r = 0 /\ k_archive r = Some (archive_name name, l) /\
    forall p d, At (Folder lib) p (Reg d) -> ~ In (B ".library") p -> In (slashed (name :: p), d) l.
Proof.
  intros pr K w args o name lib G LK Sa Wk Rq Pk En. destruct (succeeds pr K w args o name lib G LK Sa Wk Rq Pk) as (r & H & Cd); [congruence|].
  destruct (archive_complete pr K w args o name lib r Sa (proj1 Wk) Rq H Cd) as (l & Ea & Hl). exists r, l. split; [exact H|]. split; [exact Cd|]. split; [exact Ea|].
  intros p d A Nd. destruct (@exists_last _ p) as (dir & n & ->); [intros ->; inversion A|]. exact (proj1 (Hl dir n d A Nd) En).
Qed.
Print Assumptions C98_plain_partial.
(** With encryption the archive, unpacked anywhere, gives back every Modelica file of a package. *)
Theorem C98_delivered_partial : forall pr K w args o name lib base, GoodPrimitives pr -> length K = 32 -> Sane w -> Works w -> Request w args o name lib ->
  Packable w o name lib -> encrypted o = true -> Encryptable w name lib -> Tidy w lib (length base + 1 + length name) ->
  exists r l, package pr K w args = Ok r /\ k_code r = 0 /\ k_staging r = None /\ k_archive r = Some (archive_name name, l) /\
    (forall dir n d, Wanted lib dir n d -> exists out, In (slashed (name :: dir ++ [n ++ B "c"]), out) l) /\
    forall disk, Unpacked base l disk -> forall reqs : list request,
      (forall dir n d out, In (dir, n, d, out) reqs -> Wanted lib dir n d /\ In (slashed (name :: dir ++ [n ++ B "c"]), out) l) ->
      decrypt_all pr K disk (base ++ [SLASH] ++ name) [] (map (fun '(dir, n, _, out) => (slashed (dir ++ [n ++ B "c"]), out)) reqs) = Ok (map (fun '(_, _, d, _) => Some d) reqs).
Proof.
  intros pr K w args o name lib base G LK Sa Wk Rq Pk En Ec Td.
  destruct (C98_succeeds_partial pr K w args o name lib G LK Sa Wk Rq Pk (fun _ => Ec)) as (r & l & H & Cd & Ks & Ea). exists r, l.
  split; [exact H|]. split; [exact Cd|]. split; [exact Ks|]. split; [exact Ea|].
  pose proof (packed_library pr K w args o name lib r (length base) l G LK Sa (proj1 Wk) (proj1 (proj2 Ec)) Rq En Td H Cd Ea) as Sh. split.
  - intros dir n d Wn. destruct Sh as (fs & outs & _ & _ & _ & I1 & _ & _ & Wa & _). destruct (Wa dir n d Wn) as (f & out & I & _ & <- & <- & _). exists out. apply I1 in I.
    change (name :: n_dir f ++ [n_name f ++ B "c"]) with ((name :: n_dir f) ++ [n_name f ++ B "c"]). now rewrite slashed_path.
  - intros disk Un. exact (proj2 (shipped_decrypt pr K name lib base l disk G LK Sh Un)).
Qed.
Print Assumptions C98_delivered_partial.

(** ** Folders that are called like Modelica files *)

(** If the library has a folder called package.mo, or a folder next to a Modelica file that is called
    like its encrypted form, packaging with encryption does not succeed though nothing fails. *)
Theorem C98_folder_refuted : forall pr K w args o name lib dir fs, Sane w -> CopiesAll w -> Request w args o name lib -> encrypted o = true ->
  Forall (fun c => caseeq c (B "package.mo") = false) dir -> ~ In (B ".library") dir ->
  At (Folder lib) (dir ++ [B "package.mo"]) (Folder fs) \/
  (exists n d, At (Folder lib) (dir ++ [n]) (Reg d) /\ Modelica n /\ (caseeq n (B "package.mo") = true -> n = B "package.mo") /\ At (Folder lib) (dir ++ [n ++ B "c"]) (Folder fs)) ->
  ~ exists r, package pr K w args = Ok r /\ k_code r = 0.
Proof.
  intros pr K w args o name lib dir fs Sa W Rq En Fd Nd Hf (r & H & Cd). destruct (blocked pr K w args o name lib r Sa W Rq En H Cd dir fs Fd Nd) as [X1 X2].
  destruct Hf as [A|(n & d & A & M & C & A2)]; [exact (X1 A)|]. apply is_modelica_spec in M. exact (X2 n d A M C A2).
Qed.
Print Assumptions C98_folder_refuted.

(** ** Examples *)

(** Everything in a tree. *)
Fixpoint nodes (t : tree) : list (list bytes * tree) :=
  ([], t) :: match t with
             | Folder es => flat_map (fun ex => map (fun px => (fst ex :: fst px, snd px)) (nodes (snd ex))) es
             | _ => []
             end.
Lemma at_nodes t : forall p x, At t p x -> In (p, x) (nodes t).
Proof.
  induction t as [e| |es IH] using tree_induction; intros p x A.
  - apply at_reg_any in A. destruct A as [-> ->]. now left.
  - inversion A; subst. now left.
  - destruct p as [|n p]; [apply at_nil in A; subst x; now left|]. apply at_cons_any in A. destruct A as (y & I & A). right. apply in_flat_map. exists (n, y). split; [exact I|].
    apply in_map_iff. exists (p, x). split; [reflexivity|]. now apply (IH n y I).
Qed.
Definition no_modelica_folders (t : tree) : bool :=
  forallb (fun px => match snd px with
                     | Folder _ => let n := last (fst px) [] in negb (beq n (B "package.mo")) && negb (is_modelica (removelast n))
                     | _ => true
                     end) (nodes t).
Lemma no_modelica_check t : no_modelica_folders t = true -> NoModelicaFolders t.
Proof.
  intros H dir n es A. unfold no_modelica_folders in H. rewrite forallb_forall in H. specialize (H _ (at_nodes _ _ _ A)). cbn [fst snd] in H. cbv zeta in H. rewrite last_last in H.
  apply andb_prop in H. destruct H as [H1 H2]. split; [intros ->; now rewrite beq_refl in H1|]. intros m -> M. rewrite removelast_app in H2 by discriminate. cbn [removelast] in H2.
  rewrite app_nil_r in H2. apply is_modelica_spec in M. now rewrite M in H2.
Qed.
Definition short_nodes (a b : nat) (t : tree) : bool := forallb (fun px => (a + length (slashed (fst px)) <? 100) && (b + length (slashed (fst px)) <? 100)) (nodes t).
Lemma short_check a b t q x : short_nodes a b t = true -> At t q x -> a + length (slashed q) < 1980 /\ b + length (slashed q) < 1980.
Proof.
  intros H A. unfold short_nodes in H. rewrite forallb_forall in H. specialize (H _ (at_nodes _ _ _ A)). cbn [fst] in H. apply andb_prop in H. destruct H as [H1 H2].
  apply Nat.ltb_lt in H1, H2. assert (H3 : 100 < 1980) by (apply Nat.ltb_lt; reflexivity). split; [exact (Nat.lt_trans _ _ _ H1 H3)|exact (Nat.lt_trans _ _ _ H2 H3)].
Qed.

(** A file of tools. *)
Definition TOOLS : bytes := B "/home/u/tools.xml".
Definition tools_text : bytes := B "<?xml version=""1.0""?>" ++ [LF] ++ B "<tool name=""OCT""/>" ++ [LF].
Definition live : world := {|
  w_disk := fun p => if beq p TOOLS then Some (Reg tools_text) else w_disk (machine my_lib no_faults) p;
  w_readable := fun _ => true; w_opendir := fun _ _ => true; w_mkdir := fun _ => true; w_copy := fun _ _ d => (Some d, true);
  w_exe := Some (B "/opt/pt"); w_staging := Some (B "/tmp/TemporaryFolderAbCdEf"); w_tmpdir := None;
  w_order := fun p es => match p with Encrypting => rev es | _ => es end; w_manifest := true; w_open := fun _ => true;
  w_iv := fun rel => repeat (ch (length rel)) 16; w_mask := fun rel => repeat (ch (length rel + 50)) 32;
  w_encrypts := fun _ => true; w_zip_open := true; w_zip_add := fun _ => true; w_unlink := fun _ => true; w_rmdir := fun _ => true |}.
Definition live_options (enc : bytes) : list (bytes * bytes) := pack_options enc ICON ++ [(B "tools", TOOLS)].
Definition live_args (enc : bytes) : list bytes := pack_args enc ICON ++ [B "-tools"; TOOLS].
Lemma live_disk p t : w_disk live p = Some t -> (p = TOOLS /\ t = Reg tools_text) \/ w_disk (machine my_lib no_faults) p = Some t.
Proof. cbn [live w_disk]. destruct (beq p TOOLS) eqn:E; [|now right]. intros [= <-]. apply beq_true in E. now left. Qed.
Lemma live_sane : Sane live.
Proof.
  destruct (machine_sane my_lib no_faults eq_refl) as (S1 & S2 & S3 & S4). split; [exact S1|]. split; [|split; [exact S3|exact S4]].
  intros p t H. destruct (live_disk _ _ H) as [[_ ->]|H']; [constructor|exact (S2 p t H')].
Qed.
Lemma live_works : Works live.
Proof. unfold Works, CopiesAll. cbn. repeat split; discriminate. Qed.
Lemma live_request enc : In enc [YES; NO] -> Request live (live_args enc) (live_options enc) (B "MyLib") my_lib.
Proof.
  intros He. assert (K : forall k, lookup_argument k = true -> KnownOption k) by (intros k; apply valid_known).
  assert (Ne : enc <> [] /\ enc <> B "--help" /\ enc <> B "-h") by (destruct He as [<-|[<-|[]]]; repeat split; discriminate). destruct Ne as (Ne & N1 & N2).
  split; [|split; [|split]].
  - apply dash_any. unfold live_args, live_options, pack_args, pack_options. cbn [app].
    repeat (apply CL_cons; [reflexivity|apply K; reflexivity|first [discriminate|assumption]|cbn [map fst In]; intros H; repeat destruct H as [H|H]; try discriminate H; exact H|]). apply CL_nil.
  - intros I. unfold live_args, pack_args in I. cbn [app In] in I. repeat destruct I as [I|I]; try discriminate I; try contradiction.
  - intros I. unfold live_args, pack_args in I. cbn [app In] in I. repeat destruct I as [I|I]; try discriminate I; try contradiction.
  - destruct (pack_request my_lib no_faults YES ICON) as (_ & _ & _ & p & p' & Ip & T & LC & D); [discriminate..|]. exists p, p'. split; [|split; [exact T|split; [exact LC|]]].
    + cbn [pack_options In] in Ip. repeat destruct Ip as [Ip|Ip]; try discriminate Ip; [|contradiction]. injection Ip as <-. now left.
    + cbn [live w_disk]. destruct (beq p' TOOLS) eqn:E; [|exact D]. apply beq_true in E. rewrite E in D. vm_compute in D. discriminate.
Qed.
Lemma live_extras t : w_disk live (B "/opt/pt/.library") = Some t -> t = Folder [(B "notes.txt", Reg (B "notes"))].
Proof. intros H. vm_compute in H. now injection H as <-. Qed.
Lemma live_packable enc : Packable live (live_options enc) (B "MyLib") my_lib.
Proof.
  assert (Ex : forall exe t, w_exe live = Some exe -> w_disk live (exe ++ B "/.library") = Some t -> exe = B "/opt/pt" /\ t = Folder [(B "notes.txt", Reg (B "notes"))]).
  { intros exe t [= <-] H. split; [reflexivity|]. now apply live_extras. }
  split; [exists (B "1.0"); cbn; tauto|]. split; [exists (B "3.4"); cbn; tauto|]. split; [discriminate|]. split; [discriminate|]. split; [|split; [|split; [|split]]].
  - intros k v I Ik. cbn [live_options pack_options app In] in I. exists tools_text.
    assert (v = TOOLS) as ->. { destruct Ik as [<-|[<-|[]]]; repeat destruct I as [I|I]; try discriminate I; try contradiction; now injection I as <-. }
    split; [reflexivity|]. intros a l b E _. apply (f_equal (@length _)) in E. rewrite !app_length in E. change (length tools_text) with 41 in E. apply Nat.lt_le_trans with 42; [lia|]. apply Nat.leb_le. reflexivity.
  - intros v I. cbn [live_options pack_options app In] in I. assert (v = ICON) as -> by (repeat destruct I as [I|I]; try discriminate I; try contradiction; now injection I as <-).
    split; [vm_compute; discriminate|]. split; [cbn; lia|]. exists (B "icon.png"), (B "PNG"). split; [|split; [discriminate|cbn; tauto]].
    exists (B "/home/u/MyLib/"). split; [reflexivity|]. split; [now apply has_byte_false|]. right. now exists (B "/home/u/MyLib").
  - intros exe t He Ht. destruct (Ex exe t He Ht) as [_ ->]. eexists. split; [reflexivity|]. intros fs [E|[]]. discriminate.
  - intros p q x I A. cbn [live_options pack_options app In] in I. assert (p = B "/home/u/MyLib/") as -> by (repeat destruct I as [I|I]; try discriminate I; try contradiction; now injection I as <-).
    refine (short_check _ _ _ _ _ _ A). vm_compute. reflexivity.
  - intros exe t q x He Ht A. destruct (Ex exe t He Ht) as [-> ->]. refine (short_check _ _ _ _ _ _ A). vm_compute. reflexivity.
Qed.
Lemma live_tidy : Tidy live my_lib (length (B "/opt") + 1 + length (B "MyLib")).
Proof.
  intros dir n d O. apply (my_lib_tidy dir n d). destruct O as [q d A|exe m d He Im Hd|exe t p d He Hd A|doc]; [now apply From_library| | |apply From_manifest].
  - apply (From_lve (machine my_lib (with_tmpdir None)) _ exe m d He Im). destruct (live_disk _ _ Hd) as [[E _]|H]; [|exact H]. injection He as <-. discriminate.
  - apply (From_extra (machine my_lib (with_tmpdir None)) _ exe t p d He); [|exact A]. destruct (live_disk _ _ Hd) as [[E _]|H]; [|exact H]. injection He as <-. discriminate.
Qed.
Lemma live_encryptable : Encryptable live (B "MyLib") my_lib.
Proof.
  split; [vm_compute; discriminate|]. split; [|split; [|split]].
  - intros exe n x He Im Hd. apply (machine_lves my_lib no_faults exe n x He Im). destruct (live_disk _ _ Hd) as [[E _]|H]; [|exact H]. injection He as <-. discriminate.
  - intros dir n d O. destruct (live_tidy dir n d O) as [T1 T2]. split; [exact T1|]. intros M. destruct (T2 M) as (A1 & A2 & A3 & A4 & A5). repeat (split; [assumption|]).
    eapply Nat.le_trans; [|exact A5]. apply Nat.add_le_mono_r. cbn. lia.
  - now apply no_modelica_check.
  - intros exe t [= <-] H. rewrite (live_extras t H). now apply no_modelica_check.
Qed.
(** The library of the other examples, with an icon and a file of tools. *)
Example C98_ex : forall enc, In enc [YES; NO] ->
  GoodPrimitives toy /\ length toy_key = 32 /\ Sane live /\ Works live /\ Request live (live_args enc) (live_options enc) (B "MyLib") my_lib /\ Packable live (live_options enc) (B "MyLib") my_lib /\
  Encryptable live (B "MyLib") my_lib /\ Tidy live my_lib (length (B "/opt") + 1 + length (B "MyLib")) /\
  exists r l, package toy toy_key live (live_args enc) = Ok r /\ k_code r = 0 /\ k_staging r = None /\ k_archive r = Some (B "MyLib.mol", l) /\ length l = if beq enc YES then 10 else 8.
Proof.
  intros enc He. split; [exact toy_good|]. split; [reflexivity|]. split; [exact live_sane|]. split; [exact live_works|]. split; [now apply live_request|]. split; [apply live_packable|].
  split; [exact live_encryptable|]. split; [exact live_tidy|].
  destruct (C98_succeeds_partial toy toy_key live (live_args enc) (live_options enc) (B "MyLib") my_lib toy_good eq_refl live_sane live_works (live_request enc He) (live_packable enc) (fun _ => live_encryptable)) as (r & l & H & Cd & Ks & Ea).
  exists r, l. split; [exact H|]. split; [exact Cd|]. split; [exact Ks|]. split; [exact Ea|].
  destruct He as [<-|[<-|[]]]; vm_compute in H; injection H as <-; vm_compute in Ea; injection Ea as <-; reflexivity.
Qed.

(** Two libraries with such folders. *)
Definition folder_lib : list (bytes * tree) := [(B "package.mo", Reg (B "package MyLib end MyLib;")); (B "icon.png", Reg (B "PNG")); (B "Sub", Folder [(B "package.mo", Folder [(B "x", Reg (B "x"))])])].
Definition moc_lib : list (bytes * tree) := [(B "package.mo", Reg (B "package MyLib end MyLib;")); (B "icon.png", Reg (B "PNG")); (B "A.mo", Reg (B "model A end A;")); (B "A.moc", Folder [])].
Example C98_folder_ex : forall lib, In lib [folder_lib; moc_lib] -> Sane (machine lib no_faults) /\ CopiesAll (machine lib no_faults) /\
  Request (machine lib no_faults) (pack_args YES ICON) (pack_options YES ICON) (B "MyLib") lib /\ encrypted (pack_options YES ICON) = true.
Proof.
  intros lib Hl. assert (P : proper_ok (Folder lib) = true) by (destruct Hl as [<-|[<-|[]]]; vm_compute; reflexivity).
  split; [now apply machine_sane|]. split; [exact (proj1 (machine_works lib))|]. split; [now apply pack_request|reflexivity].
Qed.
Example C98_folder_code : (exists r, package toy toy_key (machine folder_lib no_faults) (pack_args YES ICON) = Ok r /\ k_code r = 8) /\
  package toy toy_key (machine moc_lib no_faults) (pack_args YES ICON) = UB NullDeref /\
  At (Folder folder_lib) ([B "Sub"] ++ [B "package.mo"]) (Folder [(B "x", Reg (B "x"))]) /\ At (Folder moc_lib) ([] ++ [B "A.mo" ++ B "c"]) (Folder []).
Proof.
  split; [|split; [vm_compute; reflexivity|split; now apply find_path_at]].
  destruct (package toy toy_key (machine folder_lib no_faults) (pack_args YES ICON)) as [r| |] eqn:E; [|vm_compute in E; discriminate..]. exists r. split; [reflexivity|].
  vm_compute in E. injection E as <-. reflexivity.
Qed.

(** ** A library as it should be *)

(** The full statement: a library that is a folder with a name, in a system where nothing fails,
    options whose files exist, no long names. *)
Theorem C98_refuted : ~ (forall pr K w args o name lib, GoodPrimitives pr -> length K = 32 -> Sane w -> Works w -> Request w args o name lib ->
  Acceptable (stats_of w) (count_lve w) o -> Short w o name lib -> exists r, package pr K w args = Ok r /\ k_code r = 0).
Proof.
  intros H. destruct (C98_folder_ex folder_lib (or_introl eq_refl)) as (S0 & C0 & R0 & En).
  refine (C98_folder_refuted toy toy_key _ _ _ _ folder_lib [B "Sub"] [(B "x", Reg (B "x"))] S0 C0 R0 En _ _ _ (H toy toy_key _ _ _ _ _ toy_good eq_refl S0 (machine_works folder_lib) R0 _ _)).
  - apply Forall_cons; [reflexivity|apply Forall_nil].
  - intros [E|[]]. discriminate.
  - left. now apply find_path_at.
  - split; [exists (B "1.0"); cbn; tauto|]. split; [exists (B "3.4"); cbn; tauto|]. split; [|split].
    + destruct R0 as (_ & _ & _ & p & p' & Ip & T & _ & D). exists p, p'. split; [exact Ip|]. split; [exact T|]. unfold stats_of. now rewrite D.
    + intros v _ _. vm_compute. discriminate.
    + intros k v I Ik. cbn [pack_options In] in I. destruct Ik as [<-|[<-|[<-|[]]]]; repeat destruct I as [I|I]; try discriminate I; try contradiction. injection I as <-. vm_compute. discriminate.
  - split.
    + intros p q x I A. cbn [pack_options In] in I. assert (p = B "/home/u/MyLib/") as -> by (repeat destruct I as [I|I]; try discriminate I; try contradiction; now injection I as <-).
      refine (short_check _ _ _ _ _ _ A). vm_compute. reflexivity.
    + intros exe t q x [= <-] Ht A. assert (t = Folder [(B "notes.txt", Reg (B "notes"))]) as -> by (vm_compute in Ht; now injection Ht as <-).
      refine (short_check _ _ _ _ _ _ A). vm_compute. reflexivity.
Qed.
Print Assumptions C98_refuted.
