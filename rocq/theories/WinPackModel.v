(** The Windows branch of the packaging tool: /repo/src/packagetool/utils.c (functions ...Win32 and removeFolderWindows).  Trees, [world]
    and conventions are those of PackageModel: [w_opendir] is now FindFirstFile, [w_unlink] is remove, [w_rmdir] is _rmdir, [w_zip_add] is
    mz_zip_add_mem_to_archive_file_in_place.  Entries with attributes 0, which none of the loops does anything with, are [Other].
    Simplified: names in a directory are compared byte by byte, except that of a package file that is opened. *)
From Verif Require Import Base ArgsModel ManifestModel CryptModel PackageModel PackCopyModel.

(** The path of an entry, utils.c:718, 879, 1410, 1886. *)
Definition back_join (path name : bytes) : bytes := path ++ [BSLASH] ++ name.

(** ** Copying *)

(** copyDirectoryWin32, utils.c:1856-1958: the result, and what is in the target directory afterwards ([None]: there is no such
    directory).  [c]: what the calls give for a file.  Results of recursive calls, short reads and short writes are ignored; files that
    cannot be opened are used nevertheless. *)
Fixpoint copy_win (c : bytes -> copy_calls) (w : world) (from to : bytes) (t : tree) (dst : option entries) {struct t}
  : outcome (bool * option entries) :=
  match t with
  | Folder es =>
      if w_opendir w Copying from then
        (fix go (es : entries) (dst : option entries) : outcome (bool * option entries) :=
           match es with
           | [] => Ok (true, dst)
           | (n, x) :: r =>
               if beq n DOT_LIBRARY then go r dst
               else
                 do p <- fit MAX_PATH_LENGTH (back_join from n) ;
                 do q <- fit MAX_PATH_LENGTH (back_join to n) ;
                 match x with
                 | Folder _ =>
                     let sub := match dst with
                                | None => None
                                | Some l => match lookup l n with
                                            | None => if w_mkdir w q then Some [] else None
                                            | Some (Folder s) => Some s
                                            | Some _ => None
                                            end
                                end in
                     do (_, sub') <- copy_win c w p q x sub ;
                     go r (match dst, sub' with Some l, Some s => Some (set_entry n (Folder s) l) | _, _ => dst end)
                 | Reg d =>
                     if y_stat (c p) && y_calloc (c p) then
                       if y_open_read (c p) then
                         match dst with
                         | Some l =>
                             if y_open_write (c p) && match lookup l n with Some (Folder _) => false | _ => true end then
                               let data := firstn (y_read (c p)) d ++ repeat NUL (length d - y_read (c p)) in
                               go r (Some (set_entry n (Reg (firstn (y_write (c p)) data)) l))
                             else UB NullDeref
                         | None => UB NullDeref
                         end
                       else UB NullDeref
                     else Ok (false, dst)
                 | Other => go r dst
                 end
           end) es dst
      else Ok (false, dst)
  | _ => Ok (false, dst)
  end.

(** ** The icon *)

(** findFileWin32, utils.c:853-915: the result and pathToIcon.  The search ends when a folder has been searched, whatever was in it. *)
Fixpoint find_win (w : world) (filename path : bytes) (t : tree) (icon : option bytes) {struct t} : outcome (bool * option bytes) :=
  match t with
  | Folder es =>
      if w_opendir w Searching path then
        (fix go (es : entries) (icon : option bytes) : outcome (bool * option bytes) :=
           match es with
           | [] => Ok (true, icon)
           | (n, x) :: r =>
               do p <- fit (MAX_PATH_LENGTH + 1) (back_join path n) ;
               match x with
               | Folder _ => do (found, icon') <- find_win w filename p x icon ; if found then Ok (true, icon') else go r icon'
               | Reg _ => go r (if beq n filename then Some p else icon)
               | Other => go r icon
               end
           end) es icon
      else Ok (false, icon)
  | _ => Ok (false, icon)
  end.
(** locateIconFile, utils.c:662-694, for a given name: the result and pathToIcon. *)
Definition locate_win (w : world) (filename path : bytes) (lib : entries) : outcome (option bytes) :=
  do (found, icon) <- find_win w filename path (Folder lib) None ;
  Ok (if found then icon else None).

(** ** The archive *)

(** The name of a file in the archive, utils.c:1465-1473. *)
Definition zip_name_win (staging path : bytes) : bytes :=
  map (fun c => if Ascii.eqb c BSLASH then SLASH else c) (zip_name staging path).
(** zipDirectoryWin32, utils.c:1379-1501: the result and what is added. *)
Fixpoint zip_win (c : bytes -> copy_calls) (w : world) (staging : bytes) (encrypted : bool) (path : bytes) (t : tree) {struct t}
  : outcome (bool * list (bytes * bytes)) :=
  match t with
  | Folder es =>
      if w_opendir w Zipping path then
        (fix go (es : entries) (result : bool) : outcome (bool * list (bytes * bytes)) :=
           match es with
           | [] => Ok (result, [])
           | (n, x) :: r =>
               do p <- fit MAX_PATH_LENGTH (back_join path n) ;
               match x with
               | Folder _ =>
                   do (ok, l1) <- zip_win c w staging encrypted p x ;
                   if ok then do (ok2, l2) <- go r true ; Ok (ok2, l1 ++ l2) else Ok (false, l1)
               | Reg d =>
                   if negb encrypted || negb (is_modelica n) then
                     if y_stat (c p) && y_calloc (c p) then
                       if y_open_read (c p) then
                         if (length d <=? y_read (c p)) && w_zip_add w p then
                           do (ok2, l2) <- go r true ; Ok (ok2, (zip_name_win staging p, d) :: l2)
                         else Ok (false, [])
                       else UB NullDeref
                     else Ok (false, [])
                   else go r result
               | Other => go r result
               end
           end) es false
      else Ok (false, [])
  | _ => Ok (false, [])
  end.
(** createZipArchive, utils.c:1330-1374: the result and what is in the archive.  [old]: what is in an archive of that name before,
    [removed]: getCurrentDirectory and remove succeed (their results are ignored); files are added to what is there. *)
Definition create_zip_win (c : bytes -> copy_calls) (w : world) (old : list (bytes * bytes)) (removed : bool) (encrypted : bool) (staging : bytes)
  (root : entries) : outcome (bool * list (bytes * bytes)) :=
  do (ok, l) <- zip_win c w staging encrypted staging (Folder root) ;
  Ok (ok, (if removed then [] else old) ++ l).

(** ** Removing the staging folder *)

(** removeFolderWindows, utils.c:697-757: whether 0 is returned, and what is left. *)
Fixpoint remove_win (w : world) (path : bytes) (t : tree) {struct t} : bool * option tree :=
  match t with
  | Folder es =>
      if w_opendir w Removing path then
        let '(ok, rest) :=
          (fix go (es : entries) : bool * entries :=
             match es with
             | [] => (true, [])
             | (n, x) :: r =>
                 let p := back_join path n in
                 let '(ok, x') := match x with
                                  | Folder _ => remove_win w p x
                                  | Reg _ => if w_unlink w p then (true, None) else (false, Some x)
                                  | Other => (true, Some x)
                                  end in
                 let kept := match x' with Some y => [(n, y)] | None => [] end in
                 if ok then let '(ok2, r') := go r in (ok2, kept ++ r') else (false, kept ++ r)
             end) es in
        if ok && match rest with [] => w_rmdir w path | _ => false end then (true, None) else (false, Some (Folder rest))
      else (true, Some t)
  | _ => (true, Some t)
  end.
(** deleteTemporaryStagingFolder, utils.c:840-848, if the folder is there: the result, and what is left. *)
Definition delete_staging_win (w : world) (staging : bytes) (root : entries) : bool * option tree := remove_win w staging (Folder root).

(** ** Encryption *)

(** The relative path of an entry, utils.c:952-957, 969-976. *)
Definition rel_join_win (rel : option bytes) (name : bytes) : bytes :=
  match rel with Some r => r ++ [BSLASH] ++ name | None => name end.
(** The file that fopen finds (utils.c:946-948): names are compared without regard to case. *)
Definition lookup_any_case (es : entries) (n : bytes) : option tree :=
  match find (fun e => caseeq (fst e) n) es with Some (_, t) => Some t | None => None end.
(** encryptDirectoryWin32, utils.c:917-1004: result, masks, and the directory afterwards. *)
Fixpoint encrypt_win (pr : primitives) (K : bytes) (w : world) (top : bytes) (rel : option bytes) (t : tree) (tbl : table) {struct t}
  : outcome (bool * table * tree) :=
  match t with
  | Folder es =>
      do full <- fit (MAX_PATH_LENGTH + 1) (match rel with Some r => top ++ [BSLASH] ++ r | None => top end) ;
      do _ <- fit (MAX_PATH_LENGTH + 1) (full ++ B "\*.*") ;
      if w_opendir w Encrypting full then
        do pkg <- fit (MAX_PATH_LENGTH + 1) (full ++ B "\package.mo") ;
        do prel <- fit (MAX_PATH_LENGTH + 1) (rel_join_win rel PACKAGE_MO) ;
        do (ok, tbl1, new1) <-
          match lookup_any_case es PACKAGE_MO with
          | Some x => if w_open w pkg then encrypt_file pr K w top prel PACKAGE_MO x es tbl else Ok (true, tbl, [])
          | None => Ok (true, tbl, [])
          end ;
        if ok then
          do (ok2, tbl2, es2, new2) <-
            (fix go (l : entries) (tbl : table) : outcome (bool * table * entries * list (bytes * bytes)) :=
               match l with
               | [] => Ok (true, tbl, [], [])
               | (n, x) :: r =>
                   do (ok, tbl1, x1, new1) <-
                     (if caseeq n PACKAGE_MO then Ok (true, tbl, x, [])
                      else
                        do p <- fit (MAX_PATH_LENGTH + 1) (rel_join_win rel n) ;
                        match x with
                        | Folder _ => do (ok, tbl1, x1) <- encrypt_win pr K w top (Some p) x tbl ; Ok (ok, tbl1, x1, [])
                        | Reg _ => if is_modelica n then
                                     do (ok, tbl1, new) <- encrypt_file pr K w top p n x es tbl ; Ok (ok, tbl1, x, new)
                                   else Ok (true, tbl, x, [])
                        | Other => Ok (true, tbl, x, [])
                        end) ;
                   if ok then
                     do (ok2, tbl2, r2, new2) <- go r tbl1 ;
                     Ok (ok2, tbl2, (n, x1) :: r2, new1 ++ new2)
                   else Ok (false, tbl1, (n, x1) :: r, new1)
               end) es tbl1 ;
          Ok (ok2, tbl2, Folder (set_files (new1 ++ new2) es2))
        else Ok (false, tbl1, Folder (set_files new1 es))
      else Ok (false, tbl, t)
  | _ => Ok (false, tbl, t)
  end.
