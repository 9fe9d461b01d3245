(** C104: what is found under the name of the archive after a run of the packaging tool. *)
From Coq Require Import Permutation.
From Verif Require Import Base BaseProofs WireModel ArgsModel ArgsSpec ManifestModel ManifestSpec CryptModel CryptSpec CryptProps PackageModel PackageSpec TreeProofs CopyProofs PackageProofs
  PackageExamples LiveSpec LiveProofs LiveProps RerunModel RerunProofs.

(** Where a file of the library goes: a Modelica file of an encrypted library gets a "c" at its end. *)
Definition Entry (o : list (bytes * bytes)) (name : bytes) (dir : list bytes) (n e : bytes) : Prop :=
  (encrypted o = false /\ e = slashed (name :: dir ++ [n])) \/
  (encrypted o = true /\ Modelica n /\ (caseeq n (B "package.mo") = true -> n = B "package.mo") /\ Forall (fun c => caseeq c (B "package.mo") = false) dir /\
   e = slashed (name :: dir ++ [n ++ B "c"])).

(** If a file cannot be added to the archive the tool fails, but an archive without this file, that can be read, has taken the
    place of that of an earlier run. *)
Theorem C104_incomplete_refuted : forall pr K w args o name lib staging dir n d e removed old code f,
  Sane w -> CopiesAll w -> Request w args o name lib -> At (Folder lib) (dir ++ [n]) (Reg d) -> ~ In (B ".library") (dir ++ [n]) -> Entry o name dir n e ->
  w_staging w = Some staging -> w_zip_add w (staging ++ [SLASH] ++ e) = false -> rerun pr K w removed true old args = Ok (code, f) ->
  code <> 0 /\ (code = 9 -> w_zip_open w = true -> exists l, f = Readable l /\ forall d', ~ In (e, d') l).
Proof.
  intros pr K w args o name lib staging dir n d e removed old code f Sa W Rq A Nd En Es Za H. unfold rerun in H.
  destruct (package pr K w args) as [r| |] eqn:Hp; [|discriminate|discriminate]. cbn [bind] in H. injection H as <- <-.
  assert (Ab : forall z l, k_archive r = Some (z, l) -> forall d', ~ In (e, d') l).
  { intros z l Ea d' I. destruct (archive_added _ _ _ _ _ _ _ _ _ _ Sa Rq Hp Ea) as (st & Est & Ha). assert (st = staging) by congruence. subst st. rewrite (Ha e d' I) in Za. discriminate. }
  split.
  - intros Cd. destruct (archive_complete _ _ _ _ _ _ _ _ Sa W Rq Hp Cd) as (l & Ea & Hl). destruct (Hl dir n d A Nd) as (H1 & _ & H3).
    destruct En as [(E0 & ->)|(E1 & M & Cs & Fd & ->)]; [exact (Ab _ _ Ea d (H1 E0))|]. destruct (H3 E1 M Cs Fd) as (out & I & _). exact (Ab _ _ Ea out I).
  - intros C9 Wo. destruct (nine_archive _ _ _ _ _ _ _ _ Rq Hp C9 Wo) as (z & l & Ea). exists l. unfold left_behind. rewrite Ea. split; [reflexivity|exact (Ab z l Ea)].
Qed.
Print Assumptions C104_incomplete_refuted.
(** The disk is full after five files: an archive of these is left, without the models, and the old one is
    gone. *)
Definition full_disk : faults :=
  {| f_copy := f_copy no_faults; f_open := f_open no_faults; f_encrypts := f_encrypts no_faults; f_opendir := f_opendir no_faults; f_unlink := f_unlink no_faults; f_tmpdir := None;
     f_zip_add := fun p => negb (existsb (beq p) (map (fun n => B "/tmp/TemporaryFolderAbCdEf/MyLib/" ++ n) [B "Sub/package.moc"; B "Sub/B.MOc"; B "icon.png"; B "package.moc"; B "A.moc"])) |}.
Definition old_archive : found := Readable [(B "MyLib/package.moc", B "from last week")].
Example C104_incomplete_ex : Sane (machine my_lib full_disk) /\ CopiesAll (machine my_lib full_disk) /\
  Request (machine my_lib full_disk) (pack_args YES ICON) (pack_options YES ICON) (B "MyLib") my_lib /\ At (Folder my_lib) ([] ++ [B "A.mo"]) (Reg (B "within MyLib; model A end A;")) /\
  ~ In (B ".library") ([] ++ [B "A.mo"]) /\ Entry (pack_options YES ICON) (B "MyLib") [] (B "A.mo") (B "MyLib/A.moc") /\
  w_staging (machine my_lib full_disk) = Some (B "/tmp/TemporaryFolderAbCdEf") /\ w_zip_add (machine my_lib full_disk) (B "/tmp/TemporaryFolderAbCdEf" ++ [SLASH] ++ B "MyLib/A.moc") = false /\
  w_zip_open (machine my_lib full_disk) = true /\
  exists l, rerun toy toy_key (machine my_lib full_disk) true true old_archive (pack_args YES ICON) = Ok (9, Readable l) /\
    map fst l = map (fun n => B "MyLib/" ++ n) [B ".library/lve_win64.exe"; B ".library/lve_linux64"; B ".library/notes.txt"; B ".library/manifest.xml"; B "Resources/data.txt"].
Proof.
  split; [apply machine_sane; reflexivity|]. split; [now apply machine_copies|]. split; [now apply pack_request|]. split; [apply find_path_at; reflexivity|].
  split; [intros [H|[]]; discriminate H|]. split.
  { right. split; [vm_compute; reflexivity|]. split; [apply is_modelica_spec; reflexivity|]. split; [discriminate|]. split; [constructor|reflexivity]. }
  split; [reflexivity|]. split; [vm_compute; reflexivity|]. split; [reflexivity|].
  destruct (rerun toy toy_key (machine my_lib full_disk) true true old_archive (pack_args YES ICON)) as [[c [|l|]]| |] eqn:E; vm_compute in E; try discriminate E.
  exists l. injection E as <- <-. split; vm_compute; reflexivity.
Qed.

(** If nothing fails but writing the directory of the archive, at the end, the tool reports success, and there is no archive that
    can be read. *)
Theorem C104_close_refuted : forall pr K w args o name lib removed old, GoodPrimitives pr -> length K = 32 -> Sane w -> Works w -> Request w args o name lib ->
  Packable w o name lib -> (encrypted o = true -> Encryptable w name lib) -> rerun pr K w removed false old args = Ok (0, Unreadable).
Proof.
  intros pr K w args o name lib removed old G LK Sa Wk Rq Pk En. destruct (C98_succeeds_partial pr K w args o name lib G LK Sa Wk Rq Pk En) as (r & l & H & Cd & _ & Ea).
  unfold rerun. rewrite H. cbn [bind]. unfold left_behind. now rewrite Ea, Cd.
Qed.
Print Assumptions C104_close_refuted.
(** See C98_ex for the hypotheses. *)
Example C104_close_ex : rerun toy toy_key live true false old_archive (live_args YES) = Ok (0, Unreadable).
Proof.
  apply (C104_close_refuted toy toy_key live (live_args YES) (live_options YES) (B "MyLib") my_lib true old_archive toy_good eq_refl live_sane live_works);
    [apply live_request; now left|apply live_packable|intros _; exact live_encryptable].
Qed.

(** Otherwise success means that there is an archive that can be read, with all files; failures before the archive is written leave
    an earlier one alone.  Missing from the full statement: the failures above, and the archive that cannot be opened. *)
Theorem C104_found_partial : forall pr K w args o name lib removed old code f, Sane w -> Request w args o name lib -> rerun pr K w removed true old args = Ok (code, f) ->
  (code <> 0 -> code <> 9 -> f = old) /\
  (code = 0 -> CopiesAll w -> exists l, f = Readable l /\
     forall dir n d e, At (Folder lib) (dir ++ [n]) (Reg d) -> ~ In (B ".library") (dir ++ [n]) -> Entry o name dir n e -> exists out, In (e, out) l).
Proof.
  intros pr K w args o name lib removed old code f Sa Rq H. unfold rerun in H. destruct (package pr K w args) as [r| |] eqn:Hp; [|discriminate|discriminate]. cbn [bind] in H. injection H as <- <-. split.
  - intros N0 N9. unfold left_behind. destruct (k_archive r) as [[z l]|] eqn:Ea; [|apply Nat.eqb_neq in N9; now rewrite N9].
    destruct (archive_inv _ _ _ _ _ _ _ _ _ _ Sa Rq Hp Ea) as (_ & [C|C] & _); contradiction.
  - intros Cd W. destruct (archive_complete _ _ _ _ _ _ _ _ Sa W Rq Hp Cd) as (l & Ea & Hl). exists l. unfold left_behind. rewrite Ea. split; [reflexivity|].
    intros dir n d e A Nd En. destruct (Hl dir n d A Nd) as (H1 & _ & H3). destruct En as [(E0 & ->)|(E1 & M & Cs & Fd & ->)]; [exists d; now apply H1|].
    destruct (H3 E1 M Cs Fd) as (out & I & _). now exists out.
Qed.
Print Assumptions C104_found_partial.
(** The second library cannot be encrypted. *)
Example C104_found_ex : (exists l, rerun toy toy_key (machine my_lib no_faults) true true old_archive (pack_args YES ICON) = Ok (0, Readable l) /\ length l = 10) /\
  rerun toy toy_key (machine folder_lib no_faults) true true old_archive (pack_args YES ICON) = Ok (8, old_archive) /\
  Request (machine folder_lib no_faults) (pack_args YES ICON) (pack_options YES ICON) (B "MyLib") folder_lib /\ Sane (machine folder_lib no_faults).
Proof.
  split; [|split; [vm_compute; reflexivity|split; [now apply pack_request|apply machine_sane; reflexivity]]].
  destruct (rerun toy toy_key (machine my_lib no_faults) true true old_archive (pack_args YES ICON)) as [[c [|l|]]| |] eqn:E; vm_compute in E; try discriminate E.
  exists l. injection E as <- <-. split; vm_compute; reflexivity.
Qed.
