(** Libraries that can be packaged, without reference to the code.  From the model only the types are used: [world], [tree]. *)
From Verif Require Import Base ArgsModel ArgsSpec ManifestSpec CryptSpec PackageModel PackageSpec.

(** Paths fit the buffers of the tool: those of the library and of the .library folder next to the program. *)
Definition Short (w : world) (o : list (bytes * bytes)) (name : bytes) (lib : list (bytes * tree)) : Prop :=
  (forall p q x, In (B "librarypath", p) o -> At (Folder lib) q x -> length p + length (slashed q) < 1980 /\ length name + length (slashed q) < 1980) /\
  (forall exe t q x, w_exe w = Some exe -> w_disk w (exe ++ B "/.library") = Some t -> At t q x ->
     length exe + length (slashed q) < 1980 /\ length name + length (slashed q) < 1980).
(** The lines of a file have less than 200 characters. *)
Definition ShortLines (f : bytes) : Prop := forall a l b, f = a ++ l ++ b -> ~ In LF l -> length l < 200.
(** What may stand next to the program: a folder, in which there is no folder called like the manifest. *)
Definition PlainExtras (w : world) : Prop :=
  forall exe t, w_exe w = Some exe -> w_disk w (exe ++ B "/.library") = Some t -> exists es, t = Folder es /\ forall fs, ~ In (B "manifest.xml", Folder fs) es.
(** Folders, other than those of links, that are called like Modelica files: package.mo or an encrypted file. *)
Definition NoModelicaFolders (t : tree) : Prop :=
  forall dir n es, At t (dir ++ [n]) (Folder es) -> n <> B "package.mo" /\ forall m, n = m ++ B "c" -> ~ Modelica m.

(** A request that can be met. *)
Definition Packable (w : world) (o : list (bytes * bytes)) (name : bytes) (lib : list (bytes * tree)) : Prop :=
  (exists v, In (B "version", v) o) /\ (exists v, In (B "language", v) o) /\ name <> B "." /\ name <> B ".." /\
  (forall k v, In (k, v) o -> In k [B "tools"; B "dependencies"] -> exists d, w_disk w v = Some (Reg d) /\ ShortLines d) /\
  (forall v, In (B "icon", v) o -> w_disk w v <> None /\ 4 <= tmpdir_length w <= staging_length + length name /\ exists n d, BaseName v n /\ n <> B ".library" /\ In (n, Reg d) lib) /\
  PlainExtras w /\ Short w o name lib.
(** The same with encryption. *)
Definition Encryptable (w : world) (name : bytes) (lib : list (bytes * tree)) : Prop :=
  beside w <> [] /\ PlainLves w /\ Tidy w lib (length name) /\ NoModelicaFolders (Folder lib) /\
  forall exe t, w_exe w = Some exe -> w_disk w (exe ++ B "/.library") = Some t -> NoModelicaFolders t.
