(** Model of mlle_io_read_file on Windows, /repo/src/common/mlle_io.c:57-171. *)
From Verif Require Import Base WireModel LveModel.

(** What the C runtime does: fopen (the stream: ftell at its end, or what is wrong with it; what fread delivers and the error it
    ends with), or the text of the error; x_end is not positive if fseek or ftell fails; _stat (st_size, or the text of the error); whether rewind works; calloc. *)
Record stream := { x_end : Z; x_avail : bytes; x_error : option bytes; x_rewind : bool }.
Record runtime := {
  r_open : bytes -> bytes + stream;
  r_stat : bytes -> bytes + Z;
  r_alloc : Z -> bool }.

(** MAX_FILEPATH_LENGTH_SUPPORTED and the size of long_file_path, mlle_io.c:69-70. *)
Definition MAX_LONG : nat := 4096.
Definition LONG_SIZE : nat := MAX_LONG + 1.
Arguments MAX_LONG : simpl never.
Arguments LONG_SIZE : simpl never.
(** The prefix \\?\ of long paths. *)
Definition PREFIX : bytes := [BSLASH; BSLASH; ch 63; BSLASH].

(** strncpy: [n] bytes are written. *)
Definition strncpy (n : nat) (s : bytes) : bytes := firstn n (s ++ repeat NUL n).

(** Lines 86-100: the contents of long_file_path as a string.  strncpy may leave it without terminating zero. *)
Definition long_name (path : bytes) : outcome bytes :=
  let prefixed := (255 <? length path) && negb (beq (firstn 4 path) PREFIX) in
  let at0 := if prefixed then strncpy 5 PREFIX else strncpy LONG_SIZE path in
  let buf := if prefixed then firstn 4 at0 ++ strncpy (LONG_SIZE - 4) path else at0 in
  if LONG_SIZE <? length buf then UB OobWrite
  else if existsb (Ascii.eqb NUL) buf then Ok (map (fun c => if Ascii.eqb c SLASH then BSLASH else c) (cstr buf))
  else UB OobRead.

(** Lines 119-171, for an open stream: what is returned (left: the text of the error) and whether the stream is still open.
    Simplified: the text of the error of stat is that of its own errno, which fseek and ftell may have replaced. *)
Definition read_stream (w : runtime) (path : bytes) (f : stream) : (bytes + bytes) * bool :=
  let err t := inl (snprintf DEFAULT_MSG_SIZE t) in
  let size := match r_stat w path with
              | inr n => inr n
              | inl t => if (0 <? x_end f)%Z && x_rewind f then inr (x_end f) else inl t
              end in
  match size with
  | inl t => (err (B "Couldn't find file size for " ++ path ++ B ". The error message was: " ++ t), true)
  | inr size =>
      if r_alloc w (size + 1)%Z then
        let got := firstn (Z.to_nat size) (x_avail f) in
        match x_error f with
        | Some t =>
            if (zlen got <? size)%Z then (err (B "I/O error while reading file " ++ path ++ B ". The error message was: " ++ t), false)
            else (inr got, false)
        | None => (inr got, false)
        end
      else (err (B "Couldn't allocate memory to read file: " ++ path), true)
  end.

(** mlle_io_read_file.  The stream is counted as left open if it is when the function returns. *)
Definition read_file_win (w : runtime) (path : bytes) : outcome ((bytes + bytes) * bool) :=
  let err t := (inl (snprintf DEFAULT_MSG_SIZE t), false) in
  match r_open w path with
  | inr f => Ok (read_stream w path f)
  | inl _ =>
      if MAX_LONG - 4 <? length path
      then Ok (err (B "File name length is too long for " ++ path ++ B ". Cannot open file."))
      else
        do long <- long_name path ;
        match r_open w long with
        | inl t => Ok (err (if 255 <? length path then B "Cannot handle long file name for file " ++ path ++ B "."
                            else B "Couldn't open file " ++ path ++ B ". The error message was: " ++ t))
        | inr f => Ok (read_stream w long f)
        end
  end.
