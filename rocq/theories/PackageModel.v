(** Model of the packaging tool: /repo/src/packagetool/packagetool.c and utils.c (Linux branch), with
    the arguments of ArgsModel, the manifest of ManifestModel and the encryption of CryptModel.
    Calls of the operating system and of the zip library are in [world]; the folder in which the
    library is staged is part of the state.  A path that does not fit its buffer gives [Blocked]: what
    happens then is not modelled.  The library is not a folder above the staging folder.  Memory does
    not run out.  What is printed on the terminal is not modelled. *)
From Verif Require Import Base ArgsModel ManifestModel CryptModel.

(** What a directory holds: regular files (DT_REG), directories (DT_DIR), anything else, such as
    links.  The entries are in the order of readdir, without "." and "..", which all loops skip. *)
Inductive tree :=
| Reg (data : bytes)
| Folder (es : list (bytes * tree))
| Other.
Notation entries := (list (bytes * tree)) (only parsing).

(** The entry of a name. *)
Fixpoint lookup (es : entries) (n : bytes) : option tree :=
  match es with
  | [] => None
  | (m, t) :: r => if beq m n then Some t else lookup r n
  end.
(** A new or changed entry (fopen for writing, mkdir). *)
Fixpoint set_entry (n : bytes) (t : tree) (es : entries) : entries :=
  match es with
  | [] => [(n, t)]
  | (m, u) :: r => if beq m n then (m, t) :: r else (m, u) :: set_entry n t r
  end.
Definition set_files (l : list (bytes * bytes)) (es : entries) : entries :=
  fold_left (fun es nd => set_entry (fst nd) (Reg (snd nd)) es) l es.

(** Where the passes over the directories differ. *)
Inductive pass := Copying | Searching | Encrypting | Zipping | Removing.

(** The operating system and the zip library. *)
Record world := {
  w_disk : bytes -> option tree;     (* what is at a path outside the staging folder, links followed *)
  w_readable : bytes -> bool;        (* fopen for reading, outside the staging folder *)
  w_opendir : pass -> bytes -> bool;
  w_mkdir : bytes -> bool;           (* mkdir, if nothing is there *)
  w_copy : bytes -> bytes -> bytes -> option bytes * bool;
                                     (* copyFile from, to, contents: what is in the new file, if it could
                                        be opened, and the result *)
  w_exe : option bytes;              (* the directory of the program, getExecutableDirectory, utils.c:327-374 *)
  w_staging : option bytes;          (* what mkdtemp returns *)
  w_tmpdir : option bytes;           (* getenv("TMPDIR") *)
  w_order : pass -> entries -> entries;  (* the staging folder in the order of readdir *)
  w_manifest : bool;                 (* fopen of the manifest *)
  w_open : bytes -> bool;            (* fopen of a file to encrypt and of its encrypted form *)
  w_iv : bytes -> bytes;             (* what RAND_bytes yields for a file: IV *)
  w_mask : bytes -> bytes;           (* and a mask: the first bytes, as many as a mask has *)
  w_encrypts : bytes -> bool;        (* reading, writing and OpenSSL calls of mlle_cr_encrypt succeed *)
  w_zip_open : bool;                 (* zip_openwitherror *)
  w_zip_add : bytes -> bool;         (* zip_entry_open, zip_entry_fwrite, zip_entry_close *)
  w_unlink : bytes -> bool;
  w_rmdir : bytes -> bool            (* rmdir of an empty directory *)
}.

(** A path in a buffer of [size] bytes. *)
Definition fit (size : nat) (p : bytes) : outcome bytes := if length p <? size then Ok p else Blocked.
(** The path of an entry of a directory, utils.c:1120-1126, 1527-1533, 1993-1999; [path] is not
    empty. *)
Definition join (path name : bytes) : bytes :=
  match last_byte path with
  | Some c => if Ascii.eqb c SLASH then path ++ name else path ++ [SLASH] ++ name
  | None => path ++ [SLASH] ++ name
  end.
Definition DOT_LIBRARY : bytes := B ".library".

(** ** The arguments and the disk *)

(** stat(), as used in utils.c:232-248, 626-636. *)
Definition stats_of (w : world) : stats := fun p =>
  match w_disk w p with
  | None => None
  | Some (Folder _) => Some true
  | Some _ => Some false
  end.
(** A file opened by copyFileInformation (manifest.c:450): a directory can be opened but has nothing
    to read. *)
Definition read_of (w : world) (p : bytes) : option bytes :=
  if w_readable w p then
    match w_disk w p with
    | Some (Reg d) => Some d
    | Some _ => Some []
    | None => None
    end
  else None.
(** lve, utils.c:60-61. *)
Definition lve_names : list bytes :=
  [B "lve_win32.exe"; B "lve_win64.exe"; B "lve_linux32"; B "lve_linux64"; B "lve_darwin64"].
(** The path of an LVE next to the program, utils.c:398, 528. *)
Definition lve_path (exe name : bytes) : bytes := exe ++ B "/LVE/" ++ name.
(** countLVE, utils.c:379-404. *)
Definition count_lve (w : world) : nat :=
  match w_exe w with
  | None => 0
  | Some exe => length (filter (fun n => file_exists (stats_of w) (lve_path exe n)) lve_names)
  end.

(** ** Copying *)

(** One entry of copyDirectoryLinux, utils.c:2001-2024, with the recursive call; copyFile,
    utils.c:2037-2113.  [dst]: what is at the target before; the result is what is there afterwards.
    Nothing can be made below a directory that is not there. *)
Fixpoint copy_node (w : world) (from to : bytes) (t : tree) (dst : option tree) {struct t} : outcome (option tree) :=
  match t with
  | Other => Ok dst
  | Reg d =>
      match dst with
      | Some (Folder _) => Ok dst
      | _ => Ok (match fst (w_copy w from to d) with Some d' => Some (Reg d') | None => dst end)
      end
  | Folder es =>
      match (match dst with
             | None => if w_mkdir w to then Some [] else None
             | Some (Folder l) => Some l
             | Some _ => None
             end) with
      | None => Ok dst
      | Some l =>
          if w_opendir w Copying from then
            do l' <- (fix go (es : entries) (l : entries) : outcome entries :=
                        match es with
                        | [] => Ok l
                        | (n, x) :: r =>
                            if beq n DOT_LIBRARY then go r l
                            else
                              do f <- fit MAX_PATH_LENGTH (join from n) ;
                              do g <- fit MAX_PATH_LENGTH (to ++ [SLASH] ++ n) ;
                              do y <- copy_node w f g x (lookup l n) ;
                              go r (match y with Some y' => set_entry n y' l | None => l end)
                        end) es l ;
            Ok (Some (Folder l'))
          else Ok (Some (Folder l))
      end
  end.
(** stageFiles, utils.c:1804-1813, copyDirectoryLinux, utils.c:1964-2035: result, and what is in the
    target directory [dst] afterwards. *)
Definition stage_files (w : world) (from to : bytes) (dst : entries) : outcome (bool * entries) :=
  do f <- fit MAX_PATH_LENGTH from ;
  match w_disk w f with
  | Some (Folder es) =>
      if w_opendir w Copying f then
        do o <- copy_node w f to (Folder es) (Some (Folder dst)) ;
        Ok (true, match o with Some (Folder l) => l | _ => dst end)
      else Ok (false, dst)
  | _ => Ok (false, dst)
  end.

(** ** The icon *)

(** extractFilename, utils.c:1162-1189. *)
Definition extract_filename (path : bytes) : bytes :=
  match rfind_byte SLASH path with Some i => skipn (S i) path | None => path end.
(** findFileLinux, utils.c:1099-1157: the result and pathToIcon.  The result of the recursive call is
    not used. *)
Fixpoint find_file (w : world) (filename path : bytes) (t : tree) (icon : option bytes) {struct t} : outcome (bool * option bytes) :=
  match t with
  | Folder es =>
      if w_opendir w Searching path then
        (fix go (es : entries) (icon : option bytes) : outcome (bool * option bytes) :=
           match es with
           | [] => Ok (false, icon)
           | (n, x) :: r =>
               do p <- fit MAX_PATH_LENGTH (join path n) ;
               match x with
               | Folder _ => do (_, icon') <- find_file w filename p x icon ; go r icon'
               | Reg _ => if beq n filename then Ok (true, match icon with None => Some p | Some _ => icon end) else go r icon
               | Other => go r icon
               end
           end) es icon
      else Ok (false, icon)
  | _ => Ok (false, icon)
  end.
(** cleanUpIconPath, utils.c:1587-1650: the new pathToIcon, None if 0 is returned. *)
Definition clean_up_icon_path (w : world) (icon : bytes) : outcome (option bytes) :=
  let n := length (match w_tmpdir w with Some d => d | None => B "/tmp" end) + 1 in
  if length icon <? n then UB OobRead
  else match skipn n icon with
       | [] => Ok None
       | ptr1 =>
           match find_byte SLASH ptr1 with
           | None => UB OobRead
           | Some i => match skipn (S i) ptr1 with [] => Ok None | ptr2 => Ok (Some ptr2) end
           end
       end.
(** prepareIconFile, utils.c:638-657, locateIconFile, utils.c:662-694: pathToIcon; the first None if 0
    is returned. *)
Definition prepare_icon (w : world) (t : slots) (path : bytes) (lib : entries) : outcome (option (option bytes)) :=
  match value_of t (B "icon") with
  | None => Ok (Some None)
  | Some v =>
      do p <- fit MAX_PATH_LENGTH path ;
      do (found, icon) <- find_file w (extract_filename v) p (Folder lib) None ;
      match found, icon with
      | true, Some i => do o <- clean_up_icon_path w i ; Ok (match o with Some q => Some (Some q) | None => None end)
      | _, _ => Ok None
      end
  end.

(** ** The .library folder *)

(** The loop of copyLVE, utils.c:525-546: result, lveList, and the .library folder ([to] is its
    path). *)
Fixpoint copy_lves (w : world) (exe to : bytes) (names : list bytes) (dot : entries) : bool * list (option bytes) * entries :=
  match names with
  | [] => (true, [], dot)
  | n :: r =>
      match w_disk w (lve_path exe n) with
      | None => let '(ok, l, dot') := copy_lves w exe to r dot in (ok, None :: l, dot')
      | Some x =>
          let '(o, ok) := w_copy w (lve_path exe n) (to ++ [SLASH] ++ n) (match x with Reg d => d | _ => [] end) in
          let dot1 := match o with Some d => set_entry n (Reg d) dot | None => dot end in
          if ok then let '(ok', l, dot') := copy_lves w exe to r dot1 in (ok', Some n :: l, dot')
          else (false, [], dot1)
      end
  end.
(** copyLVE, utils.c:501-551. *)
Definition copy_lve (w : world) (t : slots) (to : bytes) (dot : entries) : bool * list (option bytes) * entries :=
  if using_encryption t then
    match w_exe w with
    | None => (false, [], dot)
    | Some exe => copy_lves w exe to lve_names dot
    end
  else (true, [], dot).
(** copyExtraFiles, utils.c:557-599. *)
Definition copy_extra (w : world) (to : bytes) (dot : entries) : outcome (bool * entries) :=
  match w_exe w with
  | None => Ok (false, dot)
  | Some exe =>
      match w_disk w (exe ++ B "/.library") with
      | None => Ok (true, dot)
      | Some _ => stage_files w (exe ++ B "/.library") to dot
      end
  end.

(** ** Encryption *)

(** isModelicaFile, utils.c:1231-1246. *)
Definition is_modelica (name : bytes) : bool :=
  match rfind_byte DOT name with
  | Some i => beq (to_lower (skipn i name)) (B ".mo")
  | None => false
  end.
(** LONG_FILE_NAME_MAX, utils.h:27. *)
Definition LONG_FILE_NAME_MAX : nat := 4096.
(** encryptFile, utils.c:1273-1307: result, masks, and the encrypted file ([name]: the name of the file
    in its directory [es], [x]: the file).  If a file cannot be opened fclose gets a null pointer.  What
    is written when encryption fails is not modelled. *)
Definition encrypt_file (pr : primitives) (K : bytes) (w : world) (top rel name : bytes) (x : tree) (es : entries) (tbl : table)
  : outcome (bool * table * list (bytes * bytes)) :=
  do file <- fit LONG_FILE_NAME_MAX (top ++ [SLASH] ++ rel) ;
  do new <- fit LONG_FILE_NAME_MAX (file ++ B "c") ;
  if w_open w file && w_open w new && match lookup es (name ++ B "c") with Some (Folder _) => false | _ => true end then
    match x with
    | Reg d =>
        if w_encrypts w rel then
          do (tbl1, o) <- cr_encrypt pr K tbl rel (w_iv w rel) (firstn (p_len pr) (w_mask w rel)) d ;
          Ok (match o with
              | Some out => (true, tbl1, [(name ++ B "c", out)])
              | None => (false, tbl1, [])
              end)
        else Ok (false, tbl, [])
    | _ => Ok (false, tbl, [])
    end
  else UB NullDeref.
(** The relative path of an entry, utils.c:1056-1062. *)
Definition rel_join (rel : option bytes) (name : bytes) : bytes :=
  match rel with Some r => r ++ [SLASH] ++ name | None => name end.
(** encryptDirectoryLinux, utils.c:1009-1094: result, masks, and the directory afterwards.  New files
    that readdir may deliver are not encrypted, as their names end in "c". *)
Fixpoint encrypt_dir (pr : primitives) (K : bytes) (w : world) (top : bytes) (rel : option bytes) (t : tree) (tbl : table) {struct t}
  : outcome (bool * table * tree) :=
  match t with
  | Folder es =>
      do full <- fit (MAX_PATH_LENGTH + 1) (match rel with Some r => top ++ [SLASH] ++ r | None => top end) ;
      do pkg <- fit (MAX_PATH_LENGTH + 1) (full ++ B "/package.mo") ;
      do prel <- fit (MAX_PATH_LENGTH + 1) (rel_join rel PACKAGE_MO) ;
      do (ok, tbl1, new1) <-
        match lookup es PACKAGE_MO with
        | Some x => if w_open w pkg then encrypt_file pr K w top prel PACKAGE_MO x es tbl else Ok (true, tbl, [])
        | None => Ok (true, tbl, [])
        end ;
      if ok && w_opendir w Encrypting full then
        do (ok2, tbl2, es2, new2) <-
          (fix go (l : entries) (tbl : table) : outcome (bool * table * entries * list (bytes * bytes)) :=
             match l with
             | [] => Ok (true, tbl, [], [])
             | (n, x) :: r =>
                 do (ok, tbl1, x1, new1) <-
                   (if caseeq n PACKAGE_MO then Ok (true, tbl, x, [])
                    else
                      do p <- fit (MAX_PATH_LENGTH + 1) (rel_join rel n) ;
                      match x with
                      | Folder _ => do (ok, tbl1, x1) <- encrypt_dir pr K w top (Some p) x tbl ; Ok (ok, tbl1, x1, [])
                      | Reg _ => if is_modelica n then
                                   do (ok, tbl1, new) <- encrypt_file pr K w top p n x es tbl ; Ok (ok, tbl1, x, new)
                                 else Ok (true, tbl, x, [])
                      | Other => Ok (true, tbl, x, [])
                      end) ;
                 if ok then
                   do (ok2, tbl2, r2, new2) <- go r tbl1 ;
                   Ok (ok2, tbl2, (n, x1) :: r2, new1 ++ new2)
                 else Ok (false, tbl1, (n, x1) :: r, new1)
             end) es tbl1 ;
        Ok (ok2, tbl2, Folder (set_files (new1 ++ new2) es2))
      else Ok (false, tbl1, Folder (set_files new1 es))
  | _ => Ok (false, tbl, t)
  end.

(** ** The archive *)

(** removeTmpFolderName, utils.c:1656-1674; zipPath is empty before. *)
Definition zip_name (staging path : bytes) : bytes := snprintf MAX_PATH_LENGTH (skipn (length staging + 1) path).
(** zipDirectoryLinux, utils.c:1503-1582, addFileToZipArchive, utils.c:1707-1744: the result and what
    is added. *)
Fixpoint zip_dir (w : world) (staging : bytes) (encrypted : bool) (path : bytes) (t : tree) {struct t} : outcome (bool * list (bytes * bytes)) :=
  match t with
  | Folder es =>
      if w_opendir w Zipping path then
        (fix go (es : entries) : outcome (bool * list (bytes * bytes)) :=
           match es with
           | [] => Ok (true, [])
           | (n, x) :: r =>
               do p <- fit (MAX_PATH_LENGTH + 1) (join path n) ;
               do (ok, l1) <-
                 match x with
                 | Folder _ => zip_dir w staging encrypted p x
                 | Reg d => if negb encrypted || negb (is_modelica n) then
                              if w_zip_add w p then Ok (true, [(zip_name staging p, d)]) else Ok (false, [])
                            else Ok (true, [])
                 | Other => Ok (true, [])
                 end ;
               if ok then do (ok2, l2) <- go r ; Ok (ok2, l1 ++ l2) else Ok (false, l1)
           end) es
      else Ok (false, [])
  | _ => Ok (false, [])
  end.
(** createZipArchive, utils.c:1330-1374: the result and the archive, if it could be opened. *)
Definition create_zip (w : world) (t : slots) (name staging : bytes) (root : entries) : outcome (bool * option (bytes * list (bytes * bytes))) :=
  if w_zip_open w then
    do (ok, l) <- zip_dir w staging (using_encryption t) staging (Folder root) ;
    Ok (ok, Some (snprintf MAX_STRING (name ++ B ".mol"), l))
  else Ok (false, None).

(** ** Removing the staging folder *)

(** removeFolderLinux, utils.c:761-821: whether 0 is returned, and what is left.  stat of an entry
    succeeds. *)
Fixpoint remove_tree (w : world) (path : bytes) (t : tree) {struct t} : bool * option tree :=
  match t with
  | Folder es =>
      if w_opendir w Removing path then
        let '(ok, rest) :=
          (fix go (es : entries) : bool * entries :=
             match es with
             | [] => (true, [])
             | (n, x) :: r =>
                 let p := path ++ [SLASH] ++ n in
                 let '(ok, x') := match x with
                                  | Folder _ => remove_tree w p x
                                  | _ => if w_unlink w p then (true, None) else (false, Some x)
                                  end in
                 let kept := match x' with Some y => [(n, y)] | None => [] end in
                 if ok then let '(ok2, r') := go r in (ok2, kept ++ r') else (false, kept ++ r)
             end) es in
        if ok && match rest with [] => w_rmdir w path | _ => false end then (true, None) else (false, Some (Folder rest))
      else (true, Some t)
  | _ => (true, Some t)
  end.

(** ** The program *)

(** What the program leaves behind: its exit code, what is in the staging folder (None if there is no
    such folder), and the archive (its name in the working directory and its contents). *)
Record packed := {
  k_code : nat;
  k_staging : option entries;
  k_archive : option (bytes * list (bytes * bytes))
}.
Definition stop (code : nat) (staging : option entries) : outcome packed :=
  Ok {| k_code := code; k_staging := staging; k_archive := None |}.

(** getLibraryName where the name is used as a string. *)
Definition the_library_name (t : slots) : outcome (bytes * slots) :=
  do (name, t1) <- library_name t ;
  match name with Some n => Ok (n, t1) | None => UB NullDeref end.
(** The first call of getCopiedSourcePath, utils.c:202-220, getTempDirLinux, utils.c:165-176: staging
    folder, library name, and path of the staged library. *)
Definition copied_source_path (w : world) (t : slots) : outcome (bytes * bytes * bytes * slots) :=
  match w_staging w with
  | None => UB NullDeref
  | Some staging =>
      do (_, t1) <- the_library_name t ;
      do (name, t2) <- the_library_name t1 ;
      Ok (staging, name, staging ++ [SLASH] ++ name, t2)
  end.
(** A directory can be made with this name. *)
Definition new_name (n : bytes) : bool := negb (beq n [] || beq n (B ".") || beq n (B "..")).

(** doWork from encryptFiles on, packagetool.c:115-142; [lib]: the staged library. *)
Definition encrypt_and_zip (pr : primitives) (K : bytes) (w : world) (t : slots) (staging name path : bytes) (lib : entries) : outcome packed :=
  do (ok, lib1) <-
    (if using_encryption t then
       do (ok, _, lib1) <- encrypt_dir pr K w path None (Folder (w_order w Encrypting lib)) [] ;
       Ok (ok, lib1)
     else Ok (true, Folder lib)) ;
  if ok then
    do (n, t1) <- the_library_name t ;
    do (ok2, archive) <- create_zip w t1 n staging (w_order w Zipping [(name, lib1)]) ;
    if ok2 then
      Ok {| k_code := 0;
            k_staging := match remove_tree w staging (Folder (w_order w Removing [(name, lib1)])) with
                         | (_, Some (Folder es)) => Some es
                         | _ => None
                         end;
            k_archive := archive |}
    else Ok {| k_code := 9; k_staging := Some [(name, lib1)]; k_archive := archive |}
  else stop 8 (Some [(name, lib1)]).
(** doWork from createLibraryFolder to createManifestFile, packagetool.c:85-113. *)
Definition complete (pr : primitives) (K : bytes) (w : world) (t : slots) (staging name path : bytes) (lib : entries) : outcome packed :=
  let dotpath := path ++ B "/.library" in
  let left dot := Some [(name, Folder (set_entry DOT_LIBRARY (Folder dot) lib))] in
  if match lookup lib DOT_LIBRARY with None => w_mkdir w dotpath | Some _ => false end then
    do icon <- prepare_icon w t path (w_order w Searching (set_entry DOT_LIBRARY (Folder []) lib)) ;
    match icon with
    | None => stop 4 (left [])
    | Some icon =>
        let '(ok, lves, dot1) := copy_lve w t dotpath [] in
        if ok then
          do (ok, dot2) <- copy_extra w dotpath dot1 ;
          if ok then
            do _ <- fit (MAX_PATH_LENGTH + 1) (dotpath ++ B "/manifest.xml") ;
            do (t1, doc) <- create_manifest
                 (w_manifest w && match lookup dot2 (B "manifest.xml") with Some (Folder _) => false | _ => true end)
                 (read_of w) lves icon t ;
            encrypt_and_zip pr K w t1 staging name path
              (set_entry DOT_LIBRARY (Folder (set_entry (B "manifest.xml") (Reg doc) dot2)) lib)
          else stop 6 (left dot2)
        else stop 5 (left dot1)
    end
  else stop 3 (Some [(name, Folder lib)]).
(** copyFolderStructure, utils.c:1818-1850, createStagingFolder, utils.c:1758-1802, and the rest of
    doWork, packagetool.c:83-142. *)
Definition stage_and_pack (pr : primitives) (K : bytes) (w : world) (t : slots) : outcome packed :=
  do (staging, name, path, t1) <- copied_source_path w t ;
  if new_name name && w_mkdir w path then
    match value_of t1 (B "librarypath") with
    | None => stop 2 (Some [(name, Folder [])])
    | Some from =>
        do (ok, lib) <- stage_files w from path [] ;
        if ok then complete pr K w t1 staging name path lib
        else stop 2 (Some [(name, Folder lib)])
    end
  else stop 2 (Some []).
(** doWork, packagetool.c:48-143, and main, packagetool.c:146-172; [args]: argv without the program
    name. *)
Definition package (pr : primitives) (K : bytes) (w : world) (args : list bytes) : outcome packed :=
  match args with
  | [] => stop 1 None
  | _ =>
      if help_requested args then stop 0 None
      else
        do o <- validate (stats_of w) (count_lve w) args ;
        match o with
        | None => stop 1 None
        | Some t => stage_and_pack pr K w t
        end
  end.
