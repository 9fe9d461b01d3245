(** C91: reading files with long paths on Windows. *)
From Verif Require Import Base BaseProofs WireModel LveModel WinReadModel WinReadSpec WinReadProofs.

(** ** C91 *)

(** Whatever the path and the file system: nothing is read or written outside the buffer for the long path. *)
Theorem C91_safe : forall w path, ~ In NUL path -> exists r, read_file_win w path = Ok r.
Proof. exact safe. Qed.
Print Assumptions C91_safe.

(** Files with contents are read whatever the length of their path, up to 4092 characters, and in whatever kind of separators;
    for other paths an error is reported.  No stream stays open. *)
Theorem C91_read_partial : forall w files path, WindowsDisk w files -> ~ In NUL path -> ~ Prefixed path -> ~ Prefixed (backslashed path) ->
  (forall data, length path <= 4092 -> files (backslashed path) = Some data -> data <> [] \/ length path <= 259 ->
     read_file_win w path = Ok (inr data, false)) /\
  (4092 < length path \/ files (backslashed path) = None -> exists text, read_file_win w path = Ok (inl text, false)).
Proof. exact read_partial. Qed.
Print Assumptions C91_read_partial.

(** An empty file whose path has more than 259 characters is not read, and the stream opened for it stays open. *)
Theorem C91_empty_refuted : forall w files path, WindowsDisk w files -> ~ In NUL path -> ~ Prefixed path ->
  259 < length path <= 4092 -> files (backslashed path) = Some [] -> exists text, read_file_win w path = Ok (inl text, true).
Proof. exact empty_refuted. Qed.
Print Assumptions C91_empty_refuted.

(** A disk with two files below a long directory. *)
Definition long_dir : bytes := B "C:\" ++ repeat (ch 100) 300.
Definition two_files (p : bytes) : option bytes :=
  if beq p (long_dir ++ B "\a.mo") then Some (B "model a end a;") else if beq p (long_dir ++ B "\b.mo") then Some [] else None.
Definition windows_of (files : bytes -> option bytes) : runtime :=
  let opened o := match o with
                  | Some data => inr {| x_end := zlen data; x_avail := data; x_error := None; x_rewind := true |}
                  | None => inl (B "No such file or directory")
                  end in
  {| r_open := fun p => if beq (firstn 4 p) PREFIX then opened (if existsb (Ascii.eqb SLASH) (skipn 4 p) then None else files (skipn 4 p))
                        else opened (if length p <=? 259 then files (backslashed p) else None);
     r_stat := fun p => if beq (firstn 4 p) PREFIX then inl (B "Invalid argument")
                        else match files (backslashed p) with Some data => inr (zlen data) | None => inl (B "No such file or directory") end;
     r_alloc := fun _ => true |}.
Lemma windows_of_disk files : (forall p data, files p = Some data -> (zlen data < 2 ^ 31)%Z) -> WindowsDisk (windows_of files) files.
Proof.
  intros Small. split; [|split; [|split]].
  - intros p NP. cbn [r_open r_stat windows_of]. rewrite (not_prefixed p NP). destruct (length p <=? 259).
    + destruct (files (backslashed p)); [now split|eexists; reflexivity].
    + eexists. reflexivity.
  - intros q. change (r_open (windows_of files) (B "\\?\" ++ q)) with
      (match (if existsb (Ascii.eqb SLASH) q then None else files q) with
                  | Some data => inr {| x_end := zlen data; x_avail := data; x_error := None; x_rewind := true |}
                  | None => inl (B "No such file or directory")
                  end : bytes + stream).
    split; [|eexists; reflexivity].
    destruct (existsb (Ascii.eqb SLASH) q); [eexists; reflexivity|]. destruct (files q); [reflexivity|eexists; reflexivity].
  - reflexivity.
  - exact Small.
Qed.
Example C91_ex : WindowsDisk (windows_of two_files) two_files /\
  read_file_win (windows_of two_files) (long_dir ++ B "/a.mo") = Ok (inr (B "model a end a;"), false) /\
  (exists t, read_file_win (windows_of two_files) (long_dir ++ B "/b.mo") = Ok (inl t, true)) /\
  (exists t, read_file_win (windows_of two_files) (long_dir ++ B "/c.mo") = Ok (inl t, false)).
Proof. split.
  { apply windows_of_disk. intros p data. unfold two_files. destruct (beq _ _); [intros [= <-]; reflexivity|]. destruct (beq _ _); [intros [= <-]; reflexivity|discriminate]. }
  split; [vm_compute; reflexivity|]. split; eexists; vm_compute; reflexivity. Qed.
