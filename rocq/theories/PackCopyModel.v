(** copyFile of the packaging tool, /repo/src/packagetool/utils.c:2037-2113, which PackageModel takes as given by [w_copy]. *)
From Verif Require Import Base PackageModel.

(** What the calls give for one copy.  [y_read]: how many bytes fread gets, [y_write]: how many of the bytes given to fwrite and fclose
    reach the disk. *)
Record copy_calls := {
  y_open_read : bool;   (* fopen(fromPath, "rb"), utils.c:2049 *)
  y_stat : bool;        (* stat, utils.c:2056 *)
  y_calloc : bool;      (* calloc, utils.c:2067 *)
  y_read : nat;         (* fread, utils.c:2075 *)
  y_open_write : bool;  (* fopen(toPath, "wb"), utils.c:2082 *)
  y_write : nat;        (* fwrite, utils.c:2089, and fclose, utils.c:2109 *)
  y_mode : bool         (* stat and chmod of linuxCopyFilePermissions, utils.c:447-471 *)
}.

(** copyFile, utils.c:2037-2113: what is in the new file, if it could be opened, and the result.  The buffer is filled with zeros by calloc;
    a short read or write is printed (or not) and otherwise ignored.  Simplified: the size of the file does not change while it is copied;
    permissions are left out. *)
Definition copy_file (c : copy_calls) (data : bytes) : option bytes * bool :=
  if y_open_read c && y_stat c && y_calloc c then
    let buffer := firstn (y_read c) data ++ repeat NUL (length data - y_read c) in
    if y_open_write c then (Some (firstn (y_write c) buffer), y_mode c) else (None, false)
  else (None, false).

(** The packaging tool with this copyFile: [c] says what the calls give for each pair of paths and
    contents. *)
Definition copying (c : bytes -> bytes -> bytes -> copy_calls) (w : world) : world := {|
  w_disk := w_disk w; w_readable := w_readable w; w_opendir := w_opendir w; w_mkdir := w_mkdir w;
  w_copy := fun from to data => copy_file (c from to data) data;
  w_exe := w_exe w; w_staging := w_staging w; w_tmpdir := w_tmpdir w; w_order := w_order w; w_manifest := w_manifest w; w_open := w_open w;
  w_iv := w_iv w; w_mask := w_mask w; w_encrypts := w_encrypts w; w_zip_open := w_zip_open w; w_zip_add := w_zip_add w;
  w_unlink := w_unlink w; w_rmdir := w_rmdir w |}.
