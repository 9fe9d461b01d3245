(** The packaging tool on Windows as a whole: /repo/src/packagetool/packagetool.c:48-172 with the Windows branches of utils.c and arguments.c;
    the passes over directories are those of WinPackModel, the rest is that of PackageModel. *)
From Verif Require Import Base ArgsModel ManifestModel CryptModel PackageModel PackCopyModel WinPackModel.

(** The operating system.  [v_sys] as in WinPackModel; its [w_staging], [w_tmpdir] and [w_zip_open] are not used; [w_exe] is what
    getExecutableDirectory (utils.c:327-344, 1195-1226) gives. *)
Record windows := {
  v_sys : world;
  v_calls : bytes -> copy_calls;      (* opening, reading and writing files in copyDirectoryWin32 and zipDirectoryWin32 *)
  v_temp_path : option bytes;         (* GetTempPathA *)
  v_mktemp : bytes -> option bytes;   (* _mktemp *)
  v_there : option (list (bytes * tree));  (* what is at the path it gives *)
  v_temp : option bytes;              (* getenv("TEMP") *)
  v_old : list (bytes * bytes);       (* an archive of the same name in the working directory *)
  v_removed : bool                    (* it can be removed *)
}.

(** getTempDirWin32, utils.c:131-162.  If the path is longer than the buffer, GetTempPathA gives the length that is needed and leaves the
    buffer alone. *)
Definition temp_dir_win (v : windows) : outcome (option bytes) :=
  match v_temp_path v with
  | None => Ok None
  | Some p =>
      if MAX_PATH_LENGTH <=? length p then UB UninitRead
      else if MAX_PATH_LENGTH <? length (p ++ B "semlaXXXXXX") then Ok None
      else Ok (v_mktemp v (p ++ B "semlaXXXXXX"))
  end.

(** getLibraryName, arguments.c:397-433: what follows the last of '/' and '\'. *)
Definition after_last (p : bytes) : bytes :=
  match rfind_byte SLASH p, rfind_byte BSLASH p with
  | Some i, Some j => skipn (S (if i <? j then j else i)) p
  | Some i, None => skipn (S i) p
  | None, Some j => skipn (S j) p
  | None, None => p
  end.
(** The path comes from the command line, arguments.c:403. *)
Definition library_name_win (t : slots) : outcome bytes :=
  match value_of t (B "librarypath") with Some p => Ok (after_last p) | None => UB NullDeref end.
(** extractFilename, utils.c:1162-1189. *)
Definition extract_filename_win (path : bytes) : bytes :=
  let name := match rfind_byte SLASH path with Some i => skipn i path | None => path end in
  match rfind_byte BSLASH name, rfind_byte SLASH path with
  | Some j, _ => skipn (S j) name
  | None, Some i => skipn (S i) path
  | None, None => path
  end.

(** stageFiles, utils.c:1804-1813, copyDirectoryWin32, utils.c:1856-1958: result, and what is in the target directory afterwards. *)
Definition stage_files_win (v : windows) (from to : bytes) (dst : entries) : outcome (bool * entries) :=
  do _ <- fit MAX_PATH_LENGTH (from ++ B "\*.*") ;
  match w_disk (v_sys v) from with
  | Some (Folder es) =>
      do (ok, o) <- copy_win (v_calls v) (v_sys v) from to (Folder es) (Some dst) ;
      Ok (ok, match o with Some l => l | None => dst end)
  | _ => Ok (false, dst)
  end.
(** copyExtraFiles, utils.c:557-599. *)
Definition copy_extra_win (v : windows) (to : bytes) (dot : entries) : outcome (bool * entries) :=
  match w_exe (v_sys v) with
  | None => Ok (false, dot)
  | Some exe =>
      match w_disk (v_sys v) (exe ++ B "/.library") with
      | None => Ok (true, dot)
      | Some _ => stage_files_win v (exe ++ B "/.library") to dot
      end
  end.

(** cleanUpIconPath, utils.c:1587-1650: the new pathToIcon, None if 0 is returned.  strlen gets a null pointer if TEMP is not set; strchr
    may give one. *)
Definition clean_up_icon_win (temp : option bytes) (icon : bytes) : outcome (option bytes) :=
  match temp with
  | None => UB NullDeref
  | Some d =>
      if length icon <? length d + 1 then UB OobRead
      else match skipn (length d + 1) icon with
           | [] => Ok None
           | ptr1 =>
               match find_byte BSLASH ptr1 with
               | None => UB NullDeref
               | Some i => match skipn (S i) ptr1 with
                           | [] => Ok None
                           | ptr2 => Ok (Some (map (fun c => if Ascii.eqb c BSLASH then SLASH else c) ptr2))
                           end
               end
           end
  end.
(** prepareIconFile, utils.c:638-657. *)
Definition prepare_icon_win (v : windows) (t : slots) (path : bytes) (lib : entries) : outcome (option (option bytes)) :=
  match value_of t (B "icon") with
  | None => Ok (Some None)
  | Some i =>
      do o <- locate_win (v_sys v) (extract_filename_win i) path lib ;
      match o with
      | Some q => do o <- clean_up_icon_win (v_temp v) q ; Ok (match o with Some q => Some (Some q) | None => None end)
      | None => Ok None
      end
  end.

(** doWork from encryptFiles on, packagetool.c:115-142; [lib]: the staged library.  There is a file for the archive when something has been
    put into it. *)
Definition encrypt_and_zip_win (pr : primitives) (K : bytes) (v : windows) (t : slots) (staging name path : bytes) (lib : entries) : outcome packed :=
  let w := v_sys v in
  do (ok, lib1) <-
    (if using_encryption t then
       do (ok, _, lib1) <- encrypt_win pr K w path None (Folder (w_order w Encrypting lib)) [] ;
       Ok (ok, lib1)
     else Ok (true, Folder lib)) ;
  if ok then
    do (ok2, l) <- create_zip_win (v_calls v) w (v_old v) (v_removed v) (using_encryption t) staging (w_order w Zipping [(name, lib1)]) ;
    let archive := match l with [] => None | _ => Some (snprintf MAX_STRING (name ++ B ".mol"), l) end in
    if ok2 then
      Ok {| k_code := 0;
            k_staging := match delete_staging_win w staging (w_order w Removing [(name, lib1)]) with
                         | (_, Some (Folder es)) => Some es
                         | _ => None
                         end;
            k_archive := archive |}
    else Ok {| k_code := 9; k_staging := Some [(name, lib1)]; k_archive := archive |}
  else stop 8 (Some [(name, lib1)]).
(** doWork from createLibraryFolder to createManifestFile, packagetool.c:85-113.  [create_manifest] takes the name of the library from the
    path by the Linux branch of getLibraryName; it is given the name itself (manifest.c:276 uses the result of getLibraryName only). *)
Definition complete_win (pr : primitives) (K : bytes) (v : windows) (t : slots) (staging name path : bytes) (lib : entries) : outcome packed :=
  let w := v_sys v in
  let dotpath := path ++ B "/.library" in
  let left dot := Some [(name, Folder (set_entry DOT_LIBRARY (Folder dot) lib))] in
  if match lookup lib DOT_LIBRARY with None => w_mkdir w dotpath | Some _ => false end then
    do icon <- prepare_icon_win v t path (w_order w Searching (set_entry DOT_LIBRARY (Folder []) lib)) ;
    match icon with
    | None => stop 4 (left [])
    | Some icon =>
        let '(ok, lves, dot1) := copy_lve w t dotpath [] in
        if ok then
          do (ok, dot2) <- copy_extra_win v dotpath dot1 ;
          if ok then
            do _ <- fit (MAX_PATH_LENGTH + 1) (dotpath ++ B "/manifest.xml") ;
            do (_, doc) <- create_manifest
                 (w_manifest w && match lookup dot2 (B "manifest.xml") with Some (Folder _) => false | _ => true end)
                 (read_of w) lves icon (set_value t (B "librarypath") name) ;
            encrypt_and_zip_win pr K v t staging name path
              (set_entry DOT_LIBRARY (Folder (set_entry (B "manifest.xml") (Reg doc) dot2)) lib)
          else stop 6 (left dot2)
        else stop 5 (left dot1)
    end
  else stop 3 (Some [(name, Folder lib)]).
(** createStagingFolder, utils.c:1758-1802: what has the name of the staging folder is removed (deleteTemporaryStagingFolder,
    utils.c:840-848); [inl]: what is there if the staging folder cannot be made. *)
Definition create_staging_win (v : windows) (staging : bytes) : option entries + unit :=
  let w := v_sys v in
  let '(ok, there) := match v_there v with
                      | None => (true, None)
                      | Some es => let '(ok, x) := delete_staging_win w staging es in (ok, match x with Some (Folder l) => Some l | _ => None end)
                      end in
  if ok && match there with None => w_mkdir w staging | Some _ => false end then inr tt else inl there.
(** copyFolderStructure, utils.c:1818-1850, getCopiedSourcePath, utils.c:202-220, and the rest of doWork, packagetool.c:83-142. *)
Definition stage_and_pack_win (pr : primitives) (K : bytes) (v : windows) (t : slots) : outcome packed :=
  do o <- temp_dir_win v ;
  match o with
  | None => stop 2 None
  | Some staging =>
      do name <- library_name_win t ;
      let path := staging ++ [BSLASH] ++ name in
      match create_staging_win v staging with
      | inl there => stop 2 there
      | inr _ =>
          if new_name name && w_mkdir (v_sys v) path then
            match value_of t (B "librarypath") with
            | None => stop 2 (Some [(name, Folder [])])
            | Some from =>
                do (ok, lib) <- stage_files_win v from path [] ;
                if ok then complete_win pr K v t staging name path lib
                else stop 2 (Some [(name, Folder lib)])
            end
          else stop 2 (Some [])
      end
  end.
(** doWork, packagetool.c:48-143, and main, packagetool.c:146-172; [args]: argv without the program name. *)
Definition package_win (pr : primitives) (K : bytes) (v : windows) (args : list bytes) : outcome packed :=
  match args with
  | [] => stop 1 None
  | _ =>
      if help_requested args then stop 0 None
      else
        do o <- validate (stats_of (v_sys v)) (count_lve (v_sys v)) args ;
        match o with
        | None => stop 1 None
        | Some t => stage_and_pack_win pr K v t
        end
  end.
