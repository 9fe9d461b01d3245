(** What is in the working directory under the name of the archive after packagetool has run, given what was there before:
    createZipArchive, openZipArchive, closeZipArchive, /repo/src/packagetool/utils.c:1330-1374,1676-1705, on POSIX. *)
From Verif Require Import Base ArgsModel CryptModel PackageModel.

(** What is found there: nothing, a zip file with these entries, or a file that is not a zip file (without the directory that
    zip_close writes at the end). *)
Inductive found := Nothing | Readable (l : list (bytes * bytes)) | Unreadable.

(** After the run, utils.c:1350-1373.  [removed]: an earlier archive is removed (lines 1351-1358; getcwd and remove succeed), which
    matters only if the archive cannot be opened then (opening it with mode 'w' empties it).  [closed]: zip_close can write the
    directory of the archive; zip_close returns nothing, also an archive to which a file could not be added gets its directory
    (line 1372 is reached after all failures).  createZipArchive has been called exactly if the code is 0 or 9
    (packagetool.c:118-125) and help was not asked for; if it was called there is a [k_archive] exactly if the archive could be
    opened. *)
Definition left_behind (removed closed : bool) (old : found) (r : packed) : found :=
  match k_archive r with
  | Some (_, l) => if closed then Readable l else Unreadable
  | None => if k_code r =? 9 then if removed then Nothing else old else old
  end.
(** The program, packagetool.c:48-172: its exit code and what is found afterwards. *)
Definition rerun (pr : primitives) (K : bytes) (w : world) (removed closed : bool) (old : found) (args : list bytes) : outcome (nat * found) :=
  do r <- package pr K w args ;
  Ok (k_code r, left_behind removed closed old r).
