(** C37 to C40, C54, C55: packaging a library. *)
From Coq Require Import Permutation.
From Verif Require Import Base BaseProofs ArgsModel ArgsSpec XmlSpec ManifestModel ManifestSpec WireModel CryptModel CryptSpec CryptProps
  PackageModel PackageSpec PackageProofs IconProofs ShipProofs KeepProofs LostProofs PackageExamples.

(** ** C37 *)

(** No entry of the archive of an encrypted library is a Modelica file, whatever fails. *)
Theorem C37_no_modelica : forall pr K w args o r z l, Sane w -> CommandLine AnyByte args o -> encrypted o = true ->
  package pr K w args = Ok r -> k_archive r = Some (z, l) -> forall e d, In (e, d) l -> ~ Modelica e.
Proof. exact no_modelica. Qed.
Print Assumptions C37_no_modelica.

(** Every entry is a copy of a file or the encryption of a Modelica file, whatever fails, if files are
    copied as they are when they are copied at all. *)
Theorem C37_contents : forall pr K w args o name lib r z l, GoodPrimitives pr -> length K = 32 -> Sane w -> ExactCopies w -> PlainLves w ->
  Request w args o name lib -> package pr K w args = Ok r -> k_archive r = Some (z, l) ->
  forall e d, In (e, d) l -> exists q, e = slashed (name :: q) /\
    ((Origin w lib q d /\ (encrypted o = true -> ~ Modelica e)) \/
     (encrypted o = true /\ exists dir n src, q = dir ++ [n ++ B "c"] /\ Modelica n /\ Origin w lib (dir ++ [n]) src /\
        Concealed pr (w_iv w (slashed (dir ++ [n]))) (w_mask w (slashed (dir ++ [n]))) src d)).
Proof. exact archive_contents. Qed.
Print Assumptions C37_contents.

(** An example: a library with packages, a file in capitals, a folder .library; one file cannot be
    copied and the archive is incomplete. *)
Definition lossy : faults :=
  {| f_copy := fun from _ d => if beq from (B "/home/u/MyLib/A.mo") then (None, false) else (Some d, true); f_open := fun _ => true; f_encrypts := fun _ => true;
     f_opendir := fun _ _ => true; f_unlink := fun _ => true; f_tmpdir := None; f_zip_add := fun p => negb (beq p (B "/tmp/TemporaryFolderAbCdEf/MyLib/package.moc")) |}.
Example C37_ex : exists w args o name lib r z l,
  GoodPrimitives toy /\ length toy_key = 32 /\ Sane w /\ ExactCopies w /\ PlainLves w /\ Request w args o name lib /\ encrypted o = true /\
  package toy toy_key w args = Ok r /\ k_code r = 9 /\ k_archive r = Some (z, l) /\ length l = 8 /\ In (B "MyLib/Resources/data.txt", B "1 2 3") l.
Proof.
  exists (machine my_lib lossy), (pack_args YES ICON), (pack_options YES ICON), (B "MyLib"), my_lib.
  destruct (package toy toy_key (machine my_lib lossy) (pack_args YES ICON)) as [r| |] eqn:E; [|vm_compute in E; discriminate|vm_compute in E; discriminate].
  vm_compute in E. injection E as <-. do 3 eexists.
  split; [exact toy_good|]. split; [reflexivity|]. split; [now apply machine_sane|].
  split; [intros f t d; cbn [machine w_copy f_copy lossy]; destruct (beq _ _); [now right|now left]|]. split; [apply machine_lves|].
  split; [now apply pack_request|]. split; [reflexivity|]. split; [reflexivity|]. split; [reflexivity|]. split; [reflexivity|]. split; [reflexivity|].
  cbn [In]. repeat (first [left; reflexivity|right]).
Qed.

(** ** C38 *)

(** If packaging succeeds and no file failed to be copied or opened, then every file outside folders
    called .library is in the archive: as it is, or encrypted with 'c' appended.  Missing from the
    full statement: failures while copying; Modelica files called package.mo in another spelling or
    below a folder with such a name; files with the name of an encrypted file; folders called
    .library. *)
Theorem C38_complete_partial : forall pr K w args o name lib r, Sane w -> CopiesAll w -> Request w args o name lib ->
  package pr K w args = Ok r -> k_code r = 0 ->
  exists l, k_archive r = Some (archive_name name, l) /\
  forall dir n d, At (Folder lib) (dir ++ [n]) (Reg d) -> ~ In (B ".library") (dir ++ [n]) ->
    (encrypted o = false -> In (slashed (name :: dir ++ [n]), d) l) /\
    (encrypted o = true -> ~ Modelica n -> (forall m e, n = m ++ B "c" -> Modelica m -> ~ At (Folder lib) (dir ++ [m]) (Reg e)) ->
       In (slashed (name :: dir ++ [n]), d) l) /\
    (encrypted o = true -> Modelica n -> (caseeq n (B "package.mo") = true -> n = B "package.mo") ->
       Forall (fun c => caseeq c (B "package.mo") = false) dir ->
       exists out, In (slashed (name :: dir ++ [n ++ B "c"]), out) l /\
         (GoodPrimitives pr -> length K = 32 -> Concealed pr (w_iv w (slashed (dir ++ [n]))) (w_mask w (slashed (dir ++ [n]))) d out)).
Proof. exact archive_complete. Qed.
Print Assumptions C38_complete_partial.

Example C38_ex : exists w args o name lib r, Sane w /\ CopiesAll w /\ Request w args o name lib /\ encrypted o = true /\
  package toy toy_key w args = Ok r /\ k_code r = 0 /\
  At (Folder lib) [B "Sub"; B "B.MO"] (Reg (B "within MyLib.Sub; model B end B;")).
Proof.
  exists (machine my_lib no_faults), (pack_args YES ICON), (pack_options YES ICON), (B "MyLib"), my_lib.
  destruct (package toy toy_key (machine my_lib no_faults) (pack_args YES ICON)) as [r| |] eqn:E; [|vm_compute in E; discriminate|vm_compute in E; discriminate].
  vm_compute in E. injection E as <-. eexists. split; [now apply machine_sane|]. split; [now apply machine_copies|]. split; [now apply pack_request|].
  split; [reflexivity|]. split; [reflexivity|]. split; [reflexivity|]. now apply find_path_at.
Qed.

(** A package file that is not spelt package.mo, and every Modelica file below a folder with such a
    name, is always lost when the library is encrypted. *)
Theorem C38_spelling_refuted : forall pr K w args o name lib r z l dir n d, Sane w -> CopiesAll w -> Request w args o name lib ->
  package pr K w args = Ok r -> k_archive r = Some (z, l) -> encrypted o = true -> At (Folder lib) (dir ++ [n]) (Reg d) -> Modelica n ->
  (caseeq n (B "package.mo") = true /\ n <> B "package.mo") \/ Exists (fun c => caseeq c (B "package.mo") = true) dir ->
  (forall e, ~ At (Folder lib) (dir ++ [n ++ B "c"]) (Reg e)) -> hd [] dir <> B ".library" ->
  Lost lib name l (dir ++ [n]).
Proof. exact lost_spelling. Qed.
Print Assumptions C38_spelling_refuted.
(** So are the files of folders called .library that are not the one of the library itself. *)
Theorem C38_folder_refuted : forall pr K w args o name lib r z l dir n d, Sane w -> CopiesAll w -> Request w args o name lib ->
  package pr K w args = Ok r -> k_archive r = Some (z, l) -> At (Folder lib) (dir ++ [n]) (Reg d) -> In (B ".library") dir -> hd [] dir <> B ".library" ->
  Lost lib name l (dir ++ [n]).
Proof. exact lost_library. Qed.
Print Assumptions C38_folder_refuted.

(** A library with both, and with an encrypted file from elsewhere, a link and a folder called like a
    package file. *)
Definition odd_lib : list (bytes * tree) :=
  [(B "Package.MO", Reg (B "package MyLib end MyLib;")); (B "A.mo", Reg (B "model A end A;")); (B "A.moc", Reg (B "old")); (B "link.mo", Other);
   (B "Sub", Folder [(B ".library", Folder [(B "data.txt", Reg (B "1"))])]); (B "PACKAGE.mo", Folder [(B "B.mo", Reg (B "model B end B;"))]);
   (B "icon.png", Reg (B "PNG"))].
Definition odd_result : packed :=
  match package toy toy_key (machine odd_lib no_faults) (pack_args YES ICON) with Ok r => r | _ => {| k_code := 1; k_staging := None; k_archive := None |} end.
Definition archive_entries (r : packed) : list (bytes * bytes) := match k_archive r with Some (_, l) => l | None => [] end.
Lemma odd_run : package toy toy_key (machine odd_lib no_faults) (pack_args YES ICON) = Ok odd_result.
Proof. vm_compute. reflexivity. Qed.
Example C38_odd_ex : Sane (machine odd_lib no_faults) /\ Works (machine odd_lib no_faults) /\
  Request (machine odd_lib no_faults) (pack_args YES ICON) (pack_options YES ICON) (B "MyLib") odd_lib /\
  package toy toy_key (machine odd_lib no_faults) (pack_args YES ICON) = Ok odd_result /\ k_code odd_result = 0 /\
  Lost odd_lib (B "MyLib") (archive_entries odd_result) [B "Package.MO"] /\
  Lost odd_lib (B "MyLib") (archive_entries odd_result) [B "PACKAGE.mo"; B "B.mo"] /\
  Lost odd_lib (B "MyLib") (archive_entries odd_result) [B "Sub"; B ".library"; B "data.txt"].
Proof.
  assert (S0 : Sane (machine odd_lib no_faults)) by now apply machine_sane. assert (C0 : CopiesAll (machine odd_lib no_faults)) by now apply machine_copies.
  assert (R0 : Request (machine odd_lib no_faults) (pack_args YES ICON) (pack_options YES ICON) (B "MyLib") odd_lib) by now apply pack_request.
  assert (E0 : k_archive odd_result = Some (B "MyLib.mol", archive_entries odd_result)) by (vm_compute; reflexivity).
  split; [exact S0|]. split; [apply machine_works|]. split; [exact R0|]. split; [exact odd_run|]. split; [vm_compute; reflexivity|].
  assert (N : forall p e, existsb (fun q => beq (slashed (fst q)) (slashed p)) (files (Folder odd_lib)) = false -> ~ At (Folder odd_lib) p (Reg e)).
  { intros p e H A. apply at_files in A. apply not_true_iff_false in H. apply H. apply existsb_exists. exists (p, e). split; [exact A|apply beq_refl]. }
  split; [|split].
  - apply (C38_spelling_refuted toy toy_key _ _ _ _ _ _ _ _ [] (B "Package.MO") (B "package MyLib end MyLib;") S0 C0 R0 odd_run E0 eq_refl); [now apply find_path_at| | | |discriminate].
    + exists (B "Package"), (B "MO"). now split.
    + left. split; [reflexivity|discriminate].
    + intros e. now apply N.
  - apply (C38_spelling_refuted toy toy_key _ _ _ _ _ _ _ _ [B "PACKAGE.mo"] (B "B.mo") (B "model B end B;") S0 C0 R0 odd_run E0 eq_refl); [now apply find_path_at| | | |discriminate].
    + exists (B "B"), (B "mo"). now split.
    + right. now apply Exists_cons_hd.
    + intros e. now apply N.
  - apply (C38_folder_refuted toy toy_key _ _ _ _ _ _ _ _ [B "Sub"; B ".library"] (B "data.txt") (B "1") S0 C0 R0 odd_run E0); [now apply find_path_at| |discriminate].
    right. now left.
Qed.

(** The full statement is false, even if no call fails. *)
Theorem C38_refuted : ~ (forall pr K w args o name lib r z l, Sane w -> Works w -> Request w args o name lib -> package pr K w args = Ok r -> k_code r = 0 ->
  k_archive r = Some (z, l) -> forall p, ~ Lost lib name l p).
Proof.
  intros H. destruct C38_odd_ex as (S0 & W0 & R0 & E0 & C0 & L0 & _). refine (H toy toy_key _ _ _ _ _ _ (B "MyLib.mol") _ S0 W0 R0 E0 C0 _ _ L0). vm_compute. reflexivity.
Qed.
Print Assumptions C38_refuted.
(** The encryption of a file replaces a file that has the name already. *)
Theorem C38_replaced_refuted : exists w args o name lib r z l d, Sane w /\ Works w /\ Request w args o name lib /\ package toy toy_key w args = Ok r /\ k_code r = 0 /\
  k_archive r = Some (z, l) /\ At (Folder lib) [B "A.moc"] (Reg d) /\ forall e, In (slashed [name; B "A.moc"], e) l -> e <> d.
Proof.
  destruct C38_odd_ex as (S0 & W0 & R0 & E0 & C0 & _). exists (machine odd_lib no_faults), (pack_args YES ICON), (pack_options YES ICON), (B "MyLib"), odd_lib, odd_result, (B "MyLib.mol"), (archive_entries odd_result), (B "old").
  split; [exact S0|]. split; [exact W0|]. split; [exact R0|]. split; [exact E0|]. split; [exact C0|]. split; [vm_compute; reflexivity|]. split; [now apply find_path_at|].
  assert (H : forallb (fun pd => negb (beq (fst pd) (B "MyLib/A.moc") && beq (snd pd) (B "old"))) (archive_entries odd_result) = true) by (vm_compute; reflexivity).
  intros e I ->. rewrite forallb_forall in H. specialize (H _ I). cbn [fst snd] in H. change (slashed [B "MyLib"; B "A.moc"]) with (B "MyLib/A.moc") in H. rewrite !beq_refl in H. discriminate H.
Qed.
Print Assumptions C38_replaced_refuted.
(** A file that could not be copied, or a package file that could not be opened for encryption, is
    missing from an archive that is reported as complete. *)
Definition unread : faults :=
  {| f_copy := fun _ _ d => (Some d, true); f_open := fun p => negb (beq p (B "/tmp/TemporaryFolderAbCdEf/MyLib/package.mo")); f_encrypts := fun _ => true;
     f_opendir := fun _ _ => true; f_unlink := fun _ => true; f_tmpdir := None; f_zip_add := fun _ => true |}.
Definition uncopied : faults :=
  {| f_copy := fun from _ d => if beq from (B "/home/u/MyLib/A.mo") then (None, false) else (Some d, true); f_open := fun _ => true; f_encrypts := fun _ => true;
     f_opendir := fun _ _ => true; f_unlink := fun _ => true; f_tmpdir := None; f_zip_add := fun _ => true |}.
Definition result_with (f : faults) : packed :=
  match package toy toy_key (machine my_lib f) (pack_args YES ICON) with Ok r => r | _ => {| k_code := 1; k_staging := None; k_archive := None |} end.
Definition names_free (l : list (bytes * bytes)) (e : bytes) : bool := forallb (fun pd => negb (beq (fst pd) e) && negb (beq (fst pd) (e ++ B "c"))) l.
Lemma names_free_lost lib name l p d : At (Folder lib) p (Reg d) -> names_free l (slashed (name :: p)) = true -> Lost lib name l p.
Proof.
  intros A H. unfold names_free in H. rewrite forallb_forall in H. split; [eauto|]. split; intros e I; specialize (H _ I); cbn [fst] in H; rewrite beq_refl in H; [discriminate|].
  rewrite andb_false_r in H. discriminate.
Qed.
Theorem C38_failures_refuted :
  Lost my_lib (B "MyLib") (archive_entries (result_with uncopied)) [B "A.mo"] /\ k_code (result_with uncopied) = 0 /\
  Lost my_lib (B "MyLib") (archive_entries (result_with unread)) [B "package.mo"] /\ k_code (result_with unread) = 0 /\
  (forall f, In f [uncopied; unread] -> Sane (machine my_lib f) /\ Request (machine my_lib f) (pack_args YES ICON) (pack_options YES ICON) (B "MyLib") my_lib /\
     package toy toy_key (machine my_lib f) (pack_args YES ICON) = Ok (result_with f)).
Proof.
  split; [eapply names_free_lost; [now apply find_path_at|vm_compute; reflexivity]|]. split; [vm_compute; reflexivity|].
  split; [eapply names_free_lost; [now apply find_path_at|vm_compute; reflexivity]|]. split; [vm_compute; reflexivity|].
  intros f [<-|[<-|[]]]; (split; [now apply machine_sane|]); (split; [now apply pack_request|]); vm_compute; reflexivity.
Qed.
Print Assumptions C38_failures_refuted.

(** ** C39 *)

(** The temporary copy is removed exactly after success (or if packaging did not begin), provided that
    the calls that remove it succeed. *)
Theorem C39_removed_partial : forall pr K w args o name lib r, Request w args o name lib -> package pr K w args = Ok r ->
  (forall p, w_opendir w Removing p = true) -> (forall p, w_unlink w p = true) -> (forall p, w_rmdir w p = true) ->
  (k_staging r = None <-> k_code r <= 1).
Proof. exact staging_removed. Qed.
Print Assumptions C39_removed_partial.
(** After every failure it is left, with all Modelica sources that were copied as clear text. *)
Theorem C39_left_refuted : forall pr K w args o name lib r, Request w args o name lib -> package pr K w args = Ok r -> 2 <= k_code r -> k_staging r <> None.
Proof. intros pr K w args o name lib r Rq H. exact (proj2 (code_archive pr K w args o name lib r Rq H)). Qed.
Print Assumptions C39_left_refuted.
Theorem C39_cleartext_refuted : forall pr K w args o name lib r, Sane w -> CopiesAll w -> Request w args o name lib -> package pr K w args = Ok r -> 3 <= k_code r ->
  exists es, k_staging r = Some es /\ forall dir n d, At (Folder lib) (dir ++ [n]) (Reg d) -> ~ In (B ".library") (dir ++ [n]) -> Modelica n ->
    At (Folder es) (name :: dir ++ [n]) (Reg d).
Proof. exact failure_leaves. Qed.
Print Assumptions C39_cleartext_refuted.
Definition unencrypted : faults :=
  {| f_copy := fun _ _ d => (Some d, true); f_open := fun _ => true; f_encrypts := fun p => negb (beq p (B "Sub/B.MO"));
     f_opendir := fun _ _ => true; f_unlink := fun _ => true; f_tmpdir := None; f_zip_add := fun _ => true |}.
Example C39_ex : Sane (machine my_lib unencrypted) /\ CopiesAll (machine my_lib unencrypted) /\
  Request (machine my_lib unencrypted) (pack_args YES ICON) (pack_options YES ICON) (B "MyLib") my_lib /\
  package toy toy_key (machine my_lib unencrypted) (pack_args YES ICON) = Ok (result_with unencrypted) /\ k_code (result_with unencrypted) = 8 /\
  (exists es, k_staging (result_with unencrypted) = Some es /\ At (Folder es) [B "MyLib"; B "Sub"; B "B.MO"] (Reg (B "within MyLib.Sub; model B end B;"))) /\
  k_staging (result_with no_faults) = None /\ k_code (result_with no_faults) = 0.
Proof.
  split; [now apply machine_sane|]. split; [now apply machine_copies|]. split; [now apply pack_request|]. split; [vm_compute; reflexivity|]. split; [vm_compute; reflexivity|].
  split; [|split; vm_compute; reflexivity]. eexists. split; [vm_compute; reflexivity|]. now apply find_path_at.
Qed.
(** If removal fails, the copy stays and success is reported all the same. *)
Definition sticky : faults :=
  {| f_copy := fun _ _ d => (Some d, true); f_open := fun _ => true; f_encrypts := fun _ => true; f_opendir := fun _ _ => true;
     f_unlink := fun p => negb (beq p (B "/tmp/TemporaryFolderAbCdEf/MyLib/package.mo")); f_tmpdir := None; f_zip_add := fun _ => true |}.
Theorem C39_silent_refuted : exists w args o name lib r es, Sane w /\ Request w args o name lib /\ package toy toy_key w args = Ok r /\ k_code r = 0 /\
  k_staging r = Some es /\ At (Folder es) [name; B "A.mo"] (Reg (B "within MyLib; model A end A;")).
Proof.
  exists (machine my_lib sticky), (pack_args YES ICON), (pack_options YES ICON), (B "MyLib"), my_lib, (result_with sticky).
  eexists. split; [now apply machine_sane|]. split; [now apply pack_request|]. split; [vm_compute; reflexivity|]. split; [vm_compute; reflexivity|]. split; [vm_compute; reflexivity|].
  now apply find_path_at.
Qed.
Print Assumptions C39_silent_refuted.
