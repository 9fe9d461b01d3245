(** Permissions in the packaging tool: what copyFile, encryptFile and the zip library do with the modes of files.  The contents of the
    staging folder are as in PackageModel; here files have a mode as well.  Simplified: all files belong to the user who runs the tool,
    directories can be searched and written, memory does not run out and paths fit their buffers (for these see PackageModel), nothing but
    permissions makes a call fail. *)
From Coq Require Import NArith.
From Verif Require Import Base CryptModel ManifestModel PackageModel.

(** What a directory holds, with the mode of each file (st_mode without the type, utils.c:460). *)
Inductive node :=
| File (mode : N) (data : bytes)
| Dir (es : list (bytes * node))
| Link.
Notation nodes := (list (bytes * node)) (only parsing).

(** The entry of a name (path resolution by fopen and mkdir, utils.c:2008, 2082). *)
Fixpoint entry (es : nodes) (n : bytes) : option node :=
  match es with
  | [] => None
  | (m, t) :: r => if beq m n then Some t else entry r n
  end.
(** A new or changed entry (fopen for writing, mkdir; utils.c:2008, 2082). *)
Fixpoint enter (n : bytes) (t : node) (es : nodes) : nodes :=
  match es with
  | [] => [(n, t)]
  | (m, u) :: r => if beq m n then (m, t) :: r else (m, u) :: enter n t r
  end.

(** The user: the superuser, or not; the file mode creation mask. *)
Record user := { u_root : bool; u_umask : N }.

(** fopen for reading (utils.c:2049, 1288) as POSIX has it for the owner: bit 0400. *)
Definition readable (u : user) (m : N) : bool := u_root u || N.testbit m 8.
(** fopen for writing (utils.c:2082, 1294): the mode of the file afterwards, or failure.  A new file has mode 0666 without the mask, one
    that exists keeps its mode and needs bit 0200. *)
Definition fopen_write (u : user) (o : option node) : option N :=
  match o with
  | None => Some (N.ldiff 438 (u_umask u))
  | Some (File m _) => if u_root u || N.testbit m 7 then Some m else None
  | Some _ => None
  end.

(** copyFile, utils.c:2037-2113, with linuxCopyFilePermissions, utils.c:447-471: what is at the target afterwards, and the result.
    chmod takes the twelve lowest bits. *)
Definition copy_file (u : user) (m : N) (d : bytes) (dst : option node) : option node * bool :=
  if readable u m then
    match fopen_write u dst with
    | Some _ => (Some (File (N.land m 4095) d), true)
    | None => (dst, false)
    end
  else (dst, false).

(** One entry of copyDirectoryLinux, utils.c:2001-2024, with the recursive call (see copy_node of PackageModel). *)
Fixpoint copy_node (u : user) (t : node) (dst : option node) {struct t} : option node :=
  match t with
  | Link => dst
  | File m d => fst (copy_file u m d dst)
  | Dir es =>
      match (match dst with None => Some [] | Some (Dir l) => Some l | Some _ => None end) with
      | None => dst
      | Some l =>
          Some (Dir ((fix go (es : nodes) (l : nodes) : nodes :=
                        match es with
                        | [] => l
                        | (n, x) :: r =>
                            if beq n DOT_LIBRARY then go r l
                            else go r (match copy_node u x (entry l n) with Some y => enter n y l | None => l end)
                        end) es l))
      end
  end.

(** The loop of copyLVE, utils.c:525-546: the LVEs next to the program, in the order of [lve]. *)
Fixpoint copy_lves (u : user) (lves : list (bytes * (N * bytes))) (dot : nodes) : bool * nodes :=
  match lves with
  | [] => (true, dot)
  | (n, (m, d)) :: r =>
      match copy_file u m d (entry dot n) with
      | (Some x, true) => copy_lves u r (enter n x dot)
      | _ => (false, dot)
      end
  end.

(** encryptFile, utils.c:1273-1307: the directory afterwards.  If a file cannot be opened fclose gets a null pointer. *)
Definition encrypt_file (u : user) (seal : list bytes -> bytes -> bytes) (path : list bytes) (n : bytes) (m : N) (d : bytes) (es : nodes)
  : outcome nodes :=
  if readable u m then
    match fopen_write u (entry es (n ++ B "c")) with
    | Some m' => Ok (enter (n ++ B "c") (File m' (seal (path ++ [n]) d)) es)
    | None => UB NullDeref
    end
  else UB NullDeref.
(** encryptDirectoryLinux, utils.c:1009-1094: package.mo first, if it can be opened, then what readdir gives.  [seal]: the encrypted form
    of the file at a path (mlle_cr_encrypt, see CryptModel).  Simplified: a folder called package.mo is passed over. *)
Fixpoint encrypt_dir (u : user) (seal : list bytes -> bytes -> bytes) (path : list bytes) (t : node) {struct t} : outcome node :=
  match t with
  | Dir es =>
      do es1 <- match entry es PACKAGE_MO with
                | Some (File m d) => if readable u m then encrypt_file u seal path PACKAGE_MO m d es else Ok es
                | _ => Ok es
                end ;
      do es2 <- (fix go (l : nodes) (cur : nodes) : outcome nodes :=
                   match l with
                   | [] => Ok cur
                   | (n, x) :: r =>
                       do cur1 <- (if caseeq n PACKAGE_MO then Ok cur
                                   else match x with
                                        | Dir _ => do y <- encrypt_dir u seal (path ++ [n]) x ; Ok (enter n y cur)
                                        | File m d => if is_modelica n then encrypt_file u seal path n m d cur else Ok cur
                                        | Link => Ok cur
                                        end) ;
                       go r cur1
                   end) es es1 ;
      Ok (Dir es2)
  | _ => Ok t
  end.

(** doWork from copyFolderStructure to encryptFiles, packagetool.c:79-122, for an encrypted library: what is in the folder of the staged
    library when the archive is made.  [lves]: the files in LVE next to the program that are there, [extra]: the .library folder next to the
    program, [doc]: the manifest.  [None]: the tool has failed.  createManifestFile writes to a null stream if fopen fails (ManifestModel). *)
Definition stage (u : user) (seal : list bytes -> bytes -> bytes) (lib : nodes) (lves : list (bytes * (N * bytes))) (extra : option nodes)
  (doc : bytes) : outcome (option node) :=
  match copy_node u (Dir lib) (Some (Dir [])) with
  | Some (Dir l) =>
      let '(ok, dot) := copy_lves u lves [] in
      if ok then
        match (match extra with Some es => copy_node u (Dir es) (Some (Dir dot)) | None => Some (Dir dot) end) with
        | Some (Dir dot1) =>
            match fopen_write u (entry dot1 (B "manifest.xml")) with
            | Some m => do t <- encrypt_dir u seal [] (Dir (enter DOT_LIBRARY (Dir (enter (B "manifest.xml") (File m doc) dot1)) l)) ; Ok (Some t)
            | None => UB NullDeref
            end
        | _ => Ok None
        end
      else Ok None
  | _ => Ok None
  end.

(** ** Archives made on Windows *)

(** What the central directory of an archive says about a file, as far as permissions go: "version made by" and "external file
    attributes". *)
Record header := { h_made_by : N; h_attributes : N }.
(** mz_zip_writer_add_mem_ex, ThirdParty/miniz/miniz.c:4266, 4308-4312, and mz_zip_writer_create_central_dir_header, miniz.c:4177-4196 (no
    "version made by" is written after memset), as called by mz_zip_add_mem_to_archive_file_in_place in zipDirectoryWin32,
    utils.c:1476-1478. *)
Definition central_header (name : bytes) : header :=
  {| h_made_by := 0; h_attributes := match last_byte name with Some c => if Ascii.eqb c SLASH then 16 else 0 | None => 0 end |}.
(** access(exec_name, X_OK), mlle_spawn_posix.c:54, for the owner of the file: bit 0100; for the superuser any of the bits 0111. *)
Definition access_x (u : user) (m : N) : bool := if u_root u then negb (N.land m 73 =? 0)%N else N.testbit m 6.
