(** The programs that encrypt and decrypt single files: /repo/src/encrypt_decrypt/encrypt_file.c and
    decrypt_file.c, on top of the default decryptor. *)
From Verif Require Import Base WireModel CryptModel.

(** The contents of files, by path. *)
Definition store : Type := bytes -> option bytes.
Definition write (fs : store) (p : bytes) (c : option bytes) : store := fun q => if beq q p then c else fs q.

(** What comes from outside: whether fopen(_, "wb") succeeds, the results of RAND_bytes for the IV and the
    mask, and the contents of the key array of mlle_cr_decrypt, which is not initialised when no
    data are given (mlle_cr_decrypt.c:266,282-295). *)
Record externals := { o_writable : bytes -> bool; o_iv : bytes; o_mask : bytes; o_junk : bytes }.

(** pathdest, path and encrypted are arrays of this size (encrypt_file.c:45,47, decrypt_file.c:49). *)
Definition PATH_LEN : nat := 4096.

(** Where the last component of the path starts, encrypt_file.c:87-98: the pointer goes back from the last
    character to the start or to the place after a slash. *)
Fixpoint back (s : bytes) (n : nat) : nat :=
  match n with
  | 0 => 0
  | S k => if is_slash (nth k s NUL) then n else back s k
  end.

(** The table of masks, the path of the output and the relative name used for the key,
    encrypt_file.c:72-100.  With a base directory, mlle_cr_decrypt without data looks for the masks and
    returns 0 whatever happens (mlle_cr_decrypt.c:290-295), so that exit(2) on line 82 is not reached.
    Simplified: strcpy on line 99, whose arguments overlap, copies from left to right. *)
Definition destination (pr : primitives) (K : bytes) (o : externals) (fs : store) (name : bytes) (dir : option bytes)
  : outcome (table * bytes * bytes) :=
  if PATH_LEN <=? length name then UB OobWrite
  else match dir with
  | Some d =>
      do (_, t, _) <- demask_key (2 * length name + 4) pr K fs d [] name (o_junk o) ;
      match name with
      | [] => UB OobWrite
      | _ => Ok (t, snprintf PATH_LEN (d ++ [SLASH] ++ name), removelast name)
      end
  | None =>
      match last_byte name with
      | None => UB OobRead
      | Some c =>
          let s := if Ascii.eqb c "c" then removelast name else name in
          Ok ([], s, skipn (back name (length name - 1)) s)
      end
  end.

(** main of encrypt_file, encrypt_file.c:40-130: the exit code and the files afterwards.  The output is
    opened, and so emptied, before the input is read; if both are the same file, nothing is read.  When
    encryption fails the output is removed.  Simplified: files that exist can be read, different paths are
    different files, writing to an open file does not fail. *)
Definition encrypt_file (pr : primitives) (K : bytes) (o : externals) (fs : store) (args : list bytes) : outcome (Z * store) :=
  let run clear name dir :=
    match fs clear with
    | None => Ok (1%Z, fs)
    | Some data =>
        do (t, dest, rel) <- destination pr K o fs name dir ;
        if negb (o_writable o dest) then Ok (2%Z, fs)
        else
          do (_, out) <- cr_encrypt pr K t rel (o_iv o) (o_mask o) (if beq clear dest then [] else data) ;
          Ok (match out with Some _ => 0%Z | None => 1%Z end, write fs dest out)
    end in
  match args with
  | [clear; name] => run clear name None
  | [clear; name; dir] => run clear name (Some dir)
  | _ => Ok (1%Z, fs)
  end.

(** BUF_SIZE, decrypt_file.c:38. *)
Definition BUF_SIZE : Z := (10 * 1024 * 1024)%Z.
(** fread into in_buf, decrypt_file.c:79. *)
Definition buffered (c : bytes) : bytes := if (zlen c <=? BUF_SIZE)%Z then c else firstn (Z.to_nat BUF_SIZE) c.

(** mlle_cr_decrypt on in_buf, decrypt_file.c:81: the buffer is larger than the file, so that an
    IV can be read from it even if the file is shorter; decryption fails then. *)
Definition decrypt_buffer (pr : primitives) (K : bytes) (fs : store) (dir rel c : bytes) : outcome (option bytes) :=
  if length c + 1 <? BLOCK then
    do _ <- demask_key (2 * length rel + 4) pr K fs dir [] rel K ; Ok None
  else do (_, r) <- cr_decrypt pr K fs dir [] rel c ; Ok r.

(** main of decrypt_file, decrypt_file.c:42-106.  The output is opened, and so emptied, before the
    input is read and before the package files are; without input or when decryption fails it is
    removed.  Simplified as above. *)
Definition decrypt_file (pr : primitives) (K : bytes) (o : externals) (fs : store) (args : list bytes) : outcome (Z * store) :=
  match args with
  | dir :: name :: clear :: _ =>
      let input := fs (snprintf PATH_LEN (dir ++ [SLASH] ++ name)) in
      if negb (o_writable o clear) then Ok (1%Z, fs)
      else
        match input with
        | None => Ok (1%Z, write fs clear None)
        | Some data =>
            let c := if beq clear (snprintf PATH_LEN (dir ++ [SLASH] ++ name)) then [] else buffered data in
            do r <- decrypt_buffer pr K (write fs clear (Some [])) dir name c ;
            Ok (match r with Some _ => 0%Z | None => 1%Z end, write fs clear r)
        end
  | _ => Ok (1%Z, fs)
  end.

Arguments BUF_SIZE : simpl never.
Arguments buffered : simpl never.
Arguments write : simpl never.
