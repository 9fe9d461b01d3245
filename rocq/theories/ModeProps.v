(** C108: permissions of packaged files. *)
From Coq Require Import NArith Lia.
From Verif Require Import Base ManifestSpec PackageSpec TreeProofs ModeModel ModeSpec ModeProofs SpawnModel.

(** A user with the usual mask 022, a library with a script and an encrypted file left over from an earlier run (0600), and an LVE. *)
Definition someone : user := {| u_root := false; u_umask := 18 |}.
Definition toy_seal (p : list bytes) (d : bytes) : bytes := B "sealed " ++ d.
Definition sample : list (bytes * node) :=
  [(B "package.mo", File 416 (B "package P"));
   (B "Sub", Dir [(B "A.mo", File 420 (B "model A")); (B "A.moc", File 384 (B "old")); (B "run.sh", File 493 (B "#!"))]);
   (B ".library", Dir [(B "x", File 420 [])])].
Definition programs : list (bytes * (N * bytes)) := [(B "lve_linux64", (493%N, B "ELF"))].
Definition result : node :=
  Dir [(B "package.mo", File 416 (B "package P"));
       (B "Sub", Dir [(B "A.mo", File 420 (B "model A")); (B "A.moc", File 384 (B "sealed model A")); (B "run.sh", File 493 (B "#!"))]);
       (B ".library", Dir [(B "lve_linux64", File 493 (B "ELF")); (B "manifest.xml", File 420 (B "<archive/>"))]);
       (B "package.moc", File 420 (B "sealed package P"))].
Example C108_run : stage someone toy_seal sample programs None (B "<archive/>") = Ok (Some result).
Proof. vm_compute. reflexivity. Qed.
Lemma sample_tidy : Tidy (Dir sample).
Proof.
  assert (ND : forall l : list bytes, nodup (list_eq_dec ascii_dec) l = l -> NoDup l) by (intros l E; rewrite <- E; apply NoDup_nodup).
  constructor; [apply ND; vm_compute; reflexivity|]. intros n x [[= <- <-]|[[= <- <-]|[[= <- <-]|[]]]]; [constructor| |].
  - constructor; [apply ND; vm_compute; reflexivity|]. intros n x [[= <- <-]|[[= <- <-]|[[= <- <-]|[]]]]; constructor.
  - constructor; [apply ND; vm_compute; reflexivity|]. intros n x [[= <- <-]|[]]; constructor.
Qed.

(** Files of the library, on Linux: in the staging folder they have the permissions they have in the library, except those replaced by an
    encrypted file. *)
Theorem C108_library : forall u seal lib lves extra doc t, Tidy (Dir lib) -> stage u seal lib lves extra doc = Ok (Some t) ->
  forall p m d, HasFile (Dir lib) p m d -> ~ In (B ".library") p -> MayRead u m ->
  (forall dir n, p = dir ++ [n ++ B "c"] -> Encrypted n -> forall m' d', ~ HasFile (Dir lib) (dir ++ [n]) m' d') ->
  exists m', HasFile t p m' d /\ SameMode m' m.
Proof. exact library_modes. Qed.
Print Assumptions C108_library.
Example C108_library_used : exists m', HasFile result [B "Sub"; B "run.sh"] m' (B "#!") /\ SameMode m' 493.
Proof.
  apply (C108_library _ _ _ _ _ _ _ sample_tidy C108_run [B "Sub"; B "run.sh"] 493 (B "#!")); [| |right; reflexivity|].
  - apply find_has. vm_compute. reflexivity.
  - intros [X|[X|[]]]; discriminate.
  - intros dir n E. exfalso. change [B "Sub"; B "run.sh"] with ([B "Sub"] ++ [B "run.sh"]) in E. apply app_inj_tail in E. destruct E as [_ E].
    apply (f_equal (@rev ascii)) in E. rewrite rev_app_distr in E. discriminate.
Qed.

(** Encrypted files are new files, or have the permissions of the file they replace. *)
Theorem C108_encrypted : forall u seal lib lves extra doc t, Tidy (Dir lib) -> stage u seal lib lves extra doc = Ok (Some t) ->
  forall dir n m d, HasFile (Dir lib) (dir ++ [n]) m d -> ~ In (B ".library") dir -> Encrypted n -> Ordinary dir -> MayRead u m ->
  exists m', HasFile t (dir ++ [n ++ B "c"]) m' (seal (dir ++ [n]) d) /\
    ((forall k e, HasFile (Dir lib) (dir ++ [n ++ B "c"]) k e -> ~ MayRead u k) -> NewMode u m') /\
    (forall k e, HasFile (Dir lib) (dir ++ [n ++ B "c"]) k e -> MayRead u k -> SameMode m' k /\ MayWrite u m').
Proof. exact encrypted_modes. Qed.
Print Assumptions C108_encrypted.
Example C108_encrypted_used : exists m', HasFile result [B "Sub"; B "A.moc"] m' (B "sealed model A") /\ SameMode m' 384.
Proof.
  destruct (C108_encrypted _ _ _ _ _ _ _ sample_tidy C108_run [B "Sub"] (B "A.mo") 420 (B "model A")) as (m' & H & _ & K).
  - apply find_has. vm_compute. reflexivity.
  - intros [X|[]]; discriminate.
  - right. split; [apply is_modelica_spec; reflexivity|discriminate].
  - intros n [<-|[]]; discriminate.
  - right. reflexivity.
  - exists m'. split; [exact H|]. apply (K 384%N (B "old")); [apply find_has; vm_compute; reflexivity|right; reflexivity].
Qed.

(** An LVE in the staging folder has the permissions of the one next to packagetool; the same users can run it. *)
Theorem C108_lves : forall u seal lib lves extra doc t, Tidy (Dir lib) -> (forall es, extra = Some es -> Tidy (Dir es)) -> NoDup (map fst lves) ->
  stage u seal lib lves extra doc = Ok (Some t) ->
  forall n m d, In (n, (m, d)) lves -> In n (map fst shipped) -> (forall es, extra = Some es -> ~ In n (map fst es)) ->
  exists m', HasFile t [B ".library"; n] m' d /\ SameMode m' m /\ (MayRun u m' <-> MayRun u m).
Proof. exact lve_modes. Qed.
Print Assumptions C108_lves.
Example C108_lves_used : exists m', HasFile result [B ".library"; B "lve_linux64"] m' (B "ELF") /\ MayRun someone m'.
Proof.
  assert (ND : NoDup (map fst programs)) by (constructor; [intros []|constructor]).
  assert (NE : forall es, @None (list (bytes * node)) = Some es -> Tidy (Dir es)) by discriminate.
  destruct (C108_lves _ _ _ _ _ _ _ sample_tidy NE ND C108_run (B "lve_linux64") 493 (B "ELF") (or_introl eq_refl)) as (m' & H & _ & R).
  - vm_compute. tauto.
  - discriminate.
  - exists m'. split; [exact H|]. apply R. reflexivity.
Qed.

(** Refuted: an encrypted file left in the library by an earlier run that is read-only makes packagetool write to a null stream. *)
Theorem C108_stale_refuted : forall u seal lib lves doc, Tidy (Dir lib) -> NoDup (map fst lves) -> (forall n m d, In (n, (m, d)) lves -> MayRead u m) ->
  forall dir n m d k e, HasFile (Dir lib) (dir ++ [n]) m d -> ~ In (B ".library") dir -> Encrypted n -> Ordinary dir -> MayRead u m ->
  HasFile (Dir lib) (dir ++ [n ++ B "c"]) k e -> MayRead u k -> ~ MayWrite u k ->
  ~ In (B "manifest.xml") (map fst lves) -> stage u seal lib lves None doc = UB NullDeref.
Proof. exact stale_crash. Qed.
Print Assumptions C108_stale_refuted.
Example C108_stale_case :
  stage someone toy_seal [(B "package.mo", File 420 (B "package P")); (B "package.moc", File 292 (B "old"))] programs None (B "<archive/>") = UB NullDeref /\
  ~ MayWrite someone 292.
Proof. split; [vm_compute; reflexivity|]. intros [H|H]; discriminate. Qed.

(** Refuted: nobody can run an LVE from an archive made on Windows as it is unpacked on a POSIX system, and the tool library does not
    start it. *)
Theorem C108_windows_refuted : forall u name m, Unpacked u (central_header name) m ->
  ~ MayRun u m /\ forall limit a s, a_access a = access_x u m -> snd (spawn limit a s) = None.
Proof.
  intros u name m [[X _]|[_ H]]; [destruct (win_header name X)|]. pose proof (new_no_run u m H) as N. split; [exact N|].
  intros limit a s E. unfold spawn. rewrite E. destruct (access_x u m) eqn:A; [|reflexivity]. destruct (N (proj1 (access_spec u m) A)).
Qed.
Print Assumptions C108_windows_refuted.
Example C108_windows_case : Unpacked someone (central_header (B "Lib/.library/lve_linux64")) 420.
Proof. right. split; [apply win_header|]. exact (new_mode someone). Qed.
