(** Packaging a library, without reference to the code that does it.  From the model only the types
    are used: [tree] (what a directory holds), [world] (the operating system) and [packed] (what the
    program leaves behind). *)
From Coq Require Import Permutation.
From Verif Require Import Base WireModel ArgsModel ArgsSpec ManifestSpec CryptModel CryptSpec PackageModel.

(** ** Directory trees *)

(** What is at a path (a list of names) below a directory. *)
Inductive At : tree -> list bytes -> tree -> Prop :=
| At_here t : At t [] t
| At_below es n x p y : In (n, x) es -> At x p y -> At (Folder es) (n :: p) y.

(** The path as a string. *)
Fixpoint slashed (p : list bytes) : bytes :=
  match p with
  | [] => []
  | [n] => n
  | n :: r => n ++ [SLASH] ++ slashed r
  end.

(** Names of files, and directories: the names in a directory differ. *)
Definition FileName (n : bytes) : Prop := n <> [] /\ ~ In SLASH n /\ ~ In NUL n /\ n <> B "." /\ n <> B "..".
Inductive Proper : tree -> Prop :=
| Proper_reg d : Proper (Reg d)
| Proper_other : Proper Other
| Proper_folder es : NoDup (map fst es) -> (forall n x, In (n, x) es -> FileName n /\ Proper x) -> Proper (Folder es).

(** The same directory, read in another order. *)
Inductive Same : tree -> tree -> Prop :=
| Same_reg d : Same (Reg d) (Reg d)
| Same_other : Same Other Other
| Same_folder l l1 l2 : Forall2 (fun a b => fst a = fst b /\ Same (snd a) (snd b)) l l1 -> Permutation l1 l2 -> Same (Folder l) (Folder l2).

(** Modelica files, by their names. *)
Definition Modelica (n : bytes) : Prop := exists b e, n = b ++ [DOT] ++ e /\ map lower e = B "mo".

(** ** The operating system *)

(** What always holds: directories are as above, reading one again gives the same in some order, the
    temporary folder has the name asked for, random data has the requested size. *)
Definition Sane (w : world) : Prop :=
  (forall k es, Same (Folder es) (Folder (w_order w k es))) /\
  (forall p t, w_disk w p = Some t -> Proper t) /\
  (forall s, w_staging w = Some s -> exists x, s = B "/tmp/TemporaryFolder" ++ x /\ length x = 6 /\ ~ In SLASH x) /\
  (forall r, length (w_iv w r) = 16 /\ length (w_mask w r) = 32).
(** Files that are copied are copied as they are, if at all. *)
Definition ExactCopies (w : world) : Prop :=
  forall f t d, fst (w_copy w f t d) = Some d \/ fst (w_copy w f t d) = None.
(** No failure while files are copied and opened. *)
Definition CopiesAll (w : world) : Prop :=
  (forall f t d, w_copy w f t d = (Some d, true)) /\ (forall p, w_mkdir w p = true) /\
  (forall p, w_opendir w Copying p = true) /\ (forall p, w_open w p = true).
(** No failure at all. *)
Definition Works (w : world) : Prop :=
  CopiesAll w /\ (forall k p, w_opendir w k p = true) /\ (forall p, w_readable w p = true) /\ w_exe w <> None /\ w_staging w <> None /\
  w_manifest w = true /\ (forall p, w_encrypts w p = true) /\ w_zip_open w = true /\ (forall p, w_zip_add w p = true) /\
  (forall p, w_unlink w p = true) /\ (forall p, w_rmdir w p = true).

(** ** Requests *)

(** A command line with these options that names a library [name] with these contents. *)
Definition Request (w : world) (args : list bytes) (o : list (bytes * bytes)) (name : bytes) (lib : list (bytes * tree)) : Prop :=
  CommandLine AnyByte args o /\ ~ In (B "--help") args /\ ~ In (B "-h") args /\
  exists p p', In (B "librarypath", p) o /\ ArgsSpec.Trimmed p p' /\ LastComponent p' name /\ w_disk w p' = Some (Folder lib).

(** ** Archives *)

(** What may be put into an archive before encryption: the files of the library, the LVEs, the files
    of the .library folder next to the program, the manifest. *)
Inductive Origin (w : world) (lib : list (bytes * tree)) : list bytes -> bytes -> Prop :=
| From_library p d : At (Folder lib) p (Reg d) -> Origin w lib p d
| From_lve exe n d : w_exe w = Some exe -> In n (map fst shipped) -> w_disk w (exe ++ B "/LVE/" ++ n) = Some (Reg d) ->
    Origin w lib [B ".library"; n] d
| From_extra exe t p d : w_exe w = Some exe -> w_disk w (exe ++ B "/.library") = Some t -> At t p (Reg d) ->
    Origin w lib (B ".library" :: p) d
| From_manifest doc : Origin w lib [B ".library"; B "manifest.xml"] doc.

(** The name of the archive: that of the library with an extension, at most 199 characters. *)
Definition archive_name (name : bytes) : bytes := firstn 199 (name ++ B ".mol").

(** [out] is an encrypted form of [src]: some key is used, a mask (the first of the random bytes [mask]) may have been added. *)
Definition Concealed (pr : primitives) (iv mask src out : bytes) : Prop :=
  exists key data, length key = 32 /\ (data = src \/ data = src ++ firstn (p_len pr) mask) /\ Sealed pr key iv data out.

(** The LVEs next to the program are regular files. *)
Definition PlainLves (w : world) : Prop :=
  forall exe n x, w_exe w = Some exe -> In n (map fst shipped) -> w_disk w (exe ++ B "/LVE/" ++ n) = Some x -> exists d, x = Reg d.

(** ** The manifest *)

(** The LVEs next to the program, with their platforms. *)
Definition beside (w : world) : list (bytes * bytes) :=
  filter (fun fp => match w_exe w with
                    | Some exe => match w_disk w (exe ++ B "/LVE/" ++ fst fp) with Some _ => true | None => false end
                    | None => false
                    end) shipped.
(** The last part of a path. *)
Definition BaseName (p n : bytes) : Prop := exists pre, p = pre ++ n /\ ~ In SLASH n /\ (pre = [] \/ exists q, pre = q ++ [SLASH]).
(** The length of the path for temporary files. *)
Definition tmpdir_length (w : world) : nat := length (match w_tmpdir w with Some d => d | None => B "/tmp" end).
(** The length of "/tmp/TemporaryFolderXXXXXX". *)
Definition staging_length : nat := 26.
(** A file of the library with the base name of [v]. *)
Definition IconFile (lib : list (bytes * tree)) (v : bytes) (q : list bytes) : Prop :=
  exists dir n d, q = dir ++ [n] /\ BaseName v n /\ At (Folder lib) q (Reg d).

(** A file of the library that is not in the archive, neither as it is nor encrypted. *)
Definition Lost (lib : list (bytes * tree)) (name : bytes) (l : list (bytes * bytes)) (p : list bytes) : Prop :=
  (exists d, At (Folder lib) p (Reg d)) /\
  (forall d, ~ In (slashed (name :: p), d) l) /\ (forall d, ~ In (slashed (name :: p) ++ B "c", d) l).

(** ** Using an archive *)

(** The archive, unpacked in a directory. *)
Definition Unpacked (base : bytes) (l : list (bytes * bytes)) (disk : bytes -> option bytes) : Prop :=
  (forall p d, In (p, d) l -> disk (base ++ [SLASH] ++ p) = Some d) /\
  (forall p, (forall d, ~ In (p, d) l) -> disk (base ++ [SLASH] ++ p) = None).
(** Modelica files have names without backslashes, files of packages are spelt package.mo, directories
    are not called like them, there are no encrypted files; paths and files are not too long. *)
Definition Tidy (w : world) (lib : list (bytes * tree)) (room : nat) : Prop :=
  forall dir n d, Origin w lib (dir ++ [n]) d -> n <> B "package.moc" /\
    (Modelica n -> Forall Name (dir ++ [n]) /\ Forall (fun c => caseeq c (B "package.mo") = false /\ caseeq c (B "package.moc") = false) dir /\
       (caseeq n (B "package.mo") = true -> n = B "package.mo") /\ (zlen d < 2^31 - 256)%Z /\ room + length (slashed (dir ++ [n])) <= 4000).
(** A Modelica file in a package; the package files above it, other than the file itself, are not
    empty. *)
Definition Wanted (lib : list (bytes * tree)) (dir : list bytes) (n d : bytes) : Prop :=
  At (Folder lib) (dir ++ [n]) (Reg d) /\ ~ In (B ".library") dir /\ Modelica n /\
  (exists p, At (Folder lib) (dir ++ [B "package.mo"]) (Reg p)) /\
  forall a b p, dir = a ++ b -> At (Folder lib) (a ++ [B "package.mo"]) (Reg p) -> (b = [] /\ n = B "package.mo") \/ p <> [].
