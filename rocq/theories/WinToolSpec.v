(** The packaging tool on Windows, without reference to the code.  From the model only the types are used: [world] and [windows] (the
    operating system), [tree], [packed]. *)
From Verif Require Import Base ArgsModel ArgsSpec CryptSpec PackageModel PackageSpec PackCopyModel WinPackSpec WinToolModel.

(** What always holds: names are those of Windows, reading a directory again gives the same in some order, random data has the requested
    size. *)
Definition WinSane (v : windows) : Prop :=
  (forall k es, Same (Folder es) (Folder (w_order (v_sys v) k es))) /\
  (forall p t, w_disk (v_sys v) p = Some t -> Proper t /\ WinNames t) /\
  (forall r, length (w_iv (v_sys v) r) = 16 /\ length (w_mask (v_sys v) r) = 32).
(** No failure while files are copied and opened. *)
Definition WinCopies (v : windows) : Prop :=
  CopiesAll (v_sys v) /\ (forall p, w_opendir (v_sys v) Encrypting p = true) /\
  (forall p t q d, w_disk (v_sys v) p = Some t -> At t q (Reg d) -> Fine (v_calls v (p ++ B "\" ++ backslashed q)) d).

(** The last component of a path, after a slash or a backslash. *)
Definition WinComponent (p name : bytes) : Prop :=
  exists pre, p = pre ++ name /\ FileName name /\ ~ In BSLASH name /\ (pre = [] \/ exists q c, pre = q ++ [c] /\ (c = SLASH \/ c = BSLASH)).
(** A command line with these options that names a library [name] with these contents. *)
Definition WinRequest (v : windows) (args : list bytes) (o : list (bytes * bytes)) (name : bytes) (lib : list (bytes * tree)) : Prop :=
  CommandLine AnyByte args o /\ ~ In (B "--help") args /\ ~ In (B "-h") args /\
  exists p p', In (B "librarypath", p) o /\ ArgsSpec.Trimmed p p' /\ WinComponent p' name /\ w_disk (v_sys v) p' = Some (Folder lib).
(** Package files are spelt in lower case. *)
Definition AllSpelt (v : windows) (lib : list (bytes * tree)) : Prop :=
  Spelt (Folder lib) /\ forall exe t, w_exe (v_sys v) = Some exe -> w_disk (v_sys v) (exe ++ B "/.library") = Some t -> Spelt t.

(** The directory for temporary files is the value of TEMP. *)
Definition TempDir (v : windows) : Prop :=
  exists d, v_temp v = Some d /\ v_temp_path v = Some (d ++ B "\") /\
    forall s, v_mktemp v (d ++ B "\semlaXXXXXX") = Some s -> exists u, s = d ++ B "\" ++ u /\ u <> [] /\ ~ In BSLASH u.
(** A file of the library with the base name of [p]. *)
Definition WinIconFile (lib : list (bytes * tree)) (p : bytes) (q : list bytes) : Prop :=
  exists dir n d pre, q = dir ++ [n] /\ p = pre ++ n /\ ~ In SLASH n /\ ~ In BSLASH n /\ (pre = [] \/ exists a c, pre = a ++ [c] /\ (c = SLASH \/ c = BSLASH)) /\
    At (Folder lib) q (Reg d).
