(** Model of the default decryptor: /repo/src/decryptors/default/src/mlle_cr_encrypt.c
    and mlle_cr_decrypt.c.  OpenSSL's AES-256 block function and HMAC-SHA-256 are
    arguments; CBC mode, padding and the buffering of the EVP functions are modelled.
    Allocations and OpenSSL calls fail only where the data makes them fail. *)
From Verif Require Import Base WireModel.

(** AES-256 on one block (key, block) and HMAC-SHA-256 (key, data): MLLE_CR_CIPHER and
    MLLE_CR_HASH, mlle_cr_crypt.h:32,38; and MLLE_CR_KEY_LEN, the length declared with the product key in the
    header made by randomize_key (embedfile/obfuscate_utils.c:50-99), which is less than 32 if the key has bytes 13 (C44). *)
Record primitives := {
  p_enc : bytes -> bytes -> bytes;
  p_dec : bytes -> bytes -> bytes;
  p_mac : bytes -> bytes -> bytes;
  p_len : nat }.

(** The ^ operator on bytes; the loops that combine the first bytes of an array with a mask (or a block of the same size) and
    leave the others as they are, mlle_cr_encrypt.c:183-185, mlle_cr_decrypt.c:132-134, 161-163. *)
Definition bxor (a b : byte) : byte :=
  match a, b with
  | Ascii a0 a1 a2 a3 a4 a5 a6 a7, Ascii b0 b1 b2 b3 b4 b5 b6 b7 =>
      Ascii (xorb a0 b0) (xorb a1 b1) (xorb a2 b2) (xorb a3 b3) (xorb a4 b4) (xorb a5 b5) (xorb a6 b6) (xorb a7 b7)
  end.
Fixpoint xor (a b : bytes) : bytes :=
  match a, b with
  | x :: a', y :: b' => bxor x y :: xor a' b'
  | [], _ => []
  | _, [] => a
  end.

(** Block size of AES (and EVP_CIPHER_iv_length), EVP_MD_size(sha256). *)
Definition BLOCK : nat := 16.
Definition MAC_LEN : nat := 32.
(** A mask made by calloc, mlle_cr_encrypt.c:156. *)
Definition zeros (pr : primitives) : bytes := repeat NUL (p_len pr).
(** HMAC_Init_ex takes MLLE_CR_KEY_LEN bytes of the key, mlle_cr_encrypt.c:255, mlle_cr_decrypt.c:302. *)
Definition mac_of (pr : primitives) (key data : bytes) : bytes := p_mac pr (firstn (p_len pr) key) data.

(** ** EVP encryption *)

(** State of an EVP_CIPHER_CTX that encrypts: the previous ciphertext block (or the IV)
    and the plaintext bytes that do not fill a block yet. *)
Record evp := { v_chain : bytes; v_rest : bytes }.

(** CBC encryption of the first [n] blocks of [s]: next chain block, what is left,
    output. *)
Fixpoint cbc_encrypt (pr : primitives) (key : bytes) (n : nat) (chain s : bytes) : bytes * bytes * bytes :=
  match n with
  | O => (chain, s, [])
  | S n' =>
      let c := p_enc pr key (xor (firstn BLOCK s) chain) in
      let '(chain', rest, out) := cbc_encrypt pr key n' c (skipn BLOCK s) in
      (chain', rest, c ++ out)
  end.

(** EVP_EncryptUpdate (as used in mlle_cr_encrypt.c:268,281): complete blocks are
    encrypted, the rest is kept. *)
Definition evp_update (pr : primitives) (key : bytes) (v : evp) (data : bytes) : evp * bytes :=
  let s := v_rest v ++ data in
  let '(chain, rest, out) := cbc_encrypt pr key (length s / BLOCK) (v_chain v) s in
  ({| v_chain := chain; v_rest := rest |}, out).

(** EVP_EncryptFinal_ex (mlle_cr_encrypt.c:292): PKCS#7 padding. *)
Definition padding (n : nat) : bytes := let k := BLOCK - n mod BLOCK in repeat (ch k) k.
Definition evp_final (pr : primitives) (key : bytes) (v : evp) : bytes :=
  snd (evp_update pr key v (padding (length (v_rest v)))).

(** ** Encrypting a file *)

(** READ_BUF_LEN and CRYPT_BUF_LEN, mlle_cr_encrypt.c:64-65. *)
Definition READ_BUF_LEN : nat := 256.
Definition CRYPT_BUF_LEN : nat := READ_BUF_LEN + 32.

(** What the calls of fread return (mlle_cr_encrypt.c:261-265): full buffers up to a
    short one, which sets the end-of-file indicator.  [fuel] bounds the number of full
    buffers. *)
Fixpoint reads (fuel : nat) (file : bytes) : list bytes :=
  match fuel with
  | O => [file]
  | S f => if length file <? READ_BUF_LEN then [file]
           else firstn READ_BUF_LEN file :: reads f (skipn READ_BUF_LEN file)
  end.
Definition file_reads (file : bytes) : list bytes := reads (length file) file.

(** One EVP_EncryptUpdate into crypt_buf followed by fwrite. *)
Definition put_chunk (pr : primitives) (key : bytes) (v : evp) (data : bytes) : outcome (evp * bytes) :=
  let '(v', out) := evp_update pr key v data in
  if CRYPT_BUF_LEN <? length out then UB OobWrite else Ok (v', out).
(** The loop, mlle_cr_encrypt.c:261-276. *)
Fixpoint put_chunks (pr : primitives) (key : bytes) (v : evp) (datas : list bytes) : outcome (evp * bytes) :=
  match datas with
  | [] => Ok (v, [])
  | d :: r =>
      do (v1, out) <- put_chunk pr key v d ;
      do (v2, out2) <- put_chunks pr key v1 r ;
      Ok (v2, out ++ out2)
  end.

(** mlle_cr_encrypt after the key is known, mlle_cr_encrypt.c:250-304: what is written to
    the output.  [mask]: store_mask if store_mask_flag is set. *)
Definition encrypt_with (pr : primitives) (key iv : bytes) (file : bytes) (mask : option bytes) : outcome bytes :=
  do (v1, out1) <- put_chunks pr key {| v_chain := iv; v_rest := [] |} (file_reads file) ;
  do (v2, out2) <- match mask with
                   | Some m => put_chunk pr key v1 m
                   | None => Ok (v1, [])
                   end ;
  let out3 := evp_final pr key v2 in
  let mac := mac_of pr key (iv ++ concat (file_reads file) ++ match mask with Some m => m | None => [] end) in
  Ok (iv ++ out1 ++ out2 ++ out3 ++ mac).

(** ** Paths and mask tables *)

(** MLLE_LONG_FILE_NAME_MAX, common/mlle_error.h:24. *)
Definition NAME_MAX : nat := 4096.
Definition is_slash (c : byte) : bool := Ascii.eqb c SLASH || Ascii.eqb c BSLASH.
(** last_slash_index, mlle_cr_encrypt.c:96-103, mlle_cr_decrypt.c:90-97: 0 if there
    is none (or if it is the first character). *)
Fixpoint last_slash (s : bytes) : nat :=
  match s with
  | [] => 0
  | _ :: r => match last_slash r with
              | O => match r with y :: _ => if is_slash y then 1 else 0 | [] => 0 end
              | S i => S (S i)
              end
  end.
(** Directory (None at the top) and file name. *)
Definition split_path (rel : bytes) : option bytes * bytes :=
  match last_slash (firstn NAME_MAX rel) with
  | O => (None, rel)
  | S i => (Some (firstn (S i) rel), skipn (S (S i)) rel)
  end.

(** keymask_map: uthash table from directories to masks. *)
Definition table := list (bytes * bytes).
(** HASH_FIND_STR. *)
Fixpoint find_mask (t : table) (p : bytes) : option bytes :=
  match t with
  | [] => None
  | (q, m) :: r => if beq q p then Some m else find_mask r p
  end.
(** HASH_ADD_KEYPTR with the local head pointer [local] (read before the recursive call
    that produced [t]), and storing that head in the context: if the head was NULL a new
    table is made and what the recursive call added is lost. *)
Definition add_mask (local t : table) (p m : bytes) : table :=
  match local with
  | [] => [(p, m)]
  | _ => t ++ [(p, m)]
  end.

Definition PACKAGE_MO : bytes := B "package.mo".
Definition PACKAGE_MOC : bytes := B "package.moc".
Definition at_root (p : bytes) : bool := match p with c :: _ => Ascii.eqb c SLASH | [] => false end.

(** mlle_mask_key, mlle_cr_encrypt.c:77-191: return value, table, key.  [rnd] is what
    RAND_bytes writes to store_mask.  [fuel] bounds the recursion. *)
Fixpoint mask_key (pr : primitives) (fuel : nat) (t : table) (rel key rnd : bytes) : outcome (Z * table * bytes) :=
  match fuel with
  | O => Blocked
  | S f =>
      let '(dir, base) := split_path rel in
      let path := match dir with Some d => d | None => [SLASH] end in
      if caseeq base PACKAGE_MO then
        match find_mask t path with
        | Some _ => Ok ((-1)%Z, t, key)
        | None =>
            do (ret, t1, key1) <- (if at_root path then Ok (0%Z, t, key) else mask_key pr f t path key rnd) ;
            if (ret =? 0)%Z then Ok (1%Z, add_mask t t1 path rnd, key1) else Ok ((-1)%Z, t1, key1)
        end
      else
        match find_mask t path with
        | Some m => Ok (0%Z, t, xor key m)
        | None =>
            do (ret, t1, m) <- (if at_root path then Ok (0%Z, t, zeros pr) else mask_key pr f t path (zeros pr) rnd) ;
            if (ret =? 0)%Z then Ok (0%Z, add_mask t t1 path m, xor key m) else Ok ((-1)%Z, t1, key)
        end
  end.

(** mlle_cr_encrypt, mlle_cr_encrypt.c:199-315: the new table and what was written if the
    call succeeds. *)
Definition cr_encrypt (pr : primitives) (product_key : bytes) (t : table) (rel : bytes)
  (iv rnd file : bytes) : outcome (table * option bytes) :=
  do (flag, t1, key) <- mask_key pr (S (length rel)) t rel product_key rnd ;
  if (flag <? 0)%Z then Ok (t1, None)
  else
    do out <- encrypt_with pr key iv file (if (flag =? 0)%Z then None else Some rnd) ;
    Ok (t1, Some out).

(** ** EVP decryption *)

(** CBC decryption of the first [n] blocks. *)
Fixpoint cbc_decrypt (pr : primitives) (key : bytes) (n : nat) (chain s : bytes) : bytes :=
  match n with
  | O => []
  | S n' => xor (p_dec pr key (firstn BLOCK s)) chain ++ cbc_decrypt pr key n' (firstn BLOCK s) (skipn BLOCK s)
  end.
(** Padding check of EVP_DecryptFinal_ex. *)
Definition unpad (s : bytes) : option bytes :=
  match last_byte s with
  | None => None
  | Some c =>
      let k := nat_of_ascii c in
      if (1 <=? k) && (k <=? BLOCK) && beq (skipn (length s - k) s) (repeat c k)
      then Some (firstn (length s - k) s) else None
  end.
(** EVP_DecryptUpdate with all data and EVP_DecryptFinal_ex, mlle_cr_decrypt.c:308-313;
    [None]: the final call fails. *)
Definition evp_decrypt (pr : primitives) (key iv data : bytes) : option bytes :=
  if (length data =? 0) || negb (length data mod BLOCK =? 0) then None
  else unpad (cbc_decrypt pr key (length data / BLOCK) iv data).

(** ** Decrypting a file *)

(** Conversion to int, mlle_cr_decrypt.c:285. *)
Definition to_int (z : Z) : Z := ((z + 2^31) mod 2^32 - 2^31)%Z.

(** mlle_store_keymask, mlle_cr_decrypt.c:189-227. *)
Definition store_mask (t : table) (rel mask : bytes) : outcome table :=
  let n := zlen rel in
  let plen := (if (n =? 11)%Z then 0 else n - 12)%Z in
  if (plen <? 0)%Z then UB OobWrite
  else if (Z.of_nat NAME_MAX <=? plen)%Z then UB OobWrite
  else
    let p := if (plen =? 0)%Z then [SLASH] else firstn (Z.to_nat plen) rel in
    match find_mask t p with
    | Some _ => Ok t
    | None => Ok (t ++ [(p, mask)])
    end.

(** mlle_cr_decrypt, mlle_cr_decrypt.c:241-342, with mlle_demask_key as [dm]: table, result,
    output buffer.  [file] is in a buffer with one more byte, which is 0
    (common/mlle_io.c:128,166).  EVP_DecryptUpdate fails for a negative length. *)
Definition decrypt_with (pr : primitives) (product_key : bytes)
  (dm : table -> bytes -> bytes -> outcome (Z * table * bytes))
  (t : table) (rel file : bytes) : outcome (table * Z * bytes) :=
  do (flag, t1, key) <- dm t rel product_key ;
  if length file + 1 <? BLOCK then UB OobRead
  else
    let iv := firstn BLOCK (file ++ [NUL]) in
    let enc_len := to_int (zlen file - Z.of_nat BLOCK - Z.of_nat MAC_LEN) in
    if (enc_len <? 0)%Z then Ok (t1, (-1)%Z, [])
    else
      match evp_decrypt pr key iv (firstn (Z.to_nat enc_len) (skipn BLOCK file)) with
      | None => Ok (t1, (-1)%Z, [])
      | Some out =>
          if beq (mac_of pr key (iv ++ out)) (skipn (length file - MAC_LEN) file) then
            if (flag =? 0)%Z then Ok (t1, zlen out, out)
            else
              let n := (zlen out - Z.of_nat (p_len pr))%Z in
              if (n <? 0)%Z then UB OobRead
              else
                do t2 <- store_mask t1 rel (firstn (p_len pr) (skipn (Z.to_nat n) out)) ;
                Ok (t2, n, out)
          else Ok (t1, (-1)%Z, [])
      end.

(** mlle_demask_key, mlle_cr_decrypt.c:70-186: return value, table, key.  [fs]: what
    mlle_io_read_file delivers; [basedir]: context->basedir.  [fuel] bounds the recursion. *)
Fixpoint demask_key (fuel : nat) (pr : primitives) (product_key : bytes) (fs : bytes -> option bytes)
  (basedir : bytes) (t : table) (rel key : bytes) : outcome (Z * table * bytes) :=
  match fuel with
  | O => Blocked
  | S f =>
      let dm := demask_key f pr product_key fs basedir in
      let '(dir, base) := split_path rel in
      if caseeq base PACKAGE_MOC then
        match dir with
        | None => Ok (1%Z, t, key)
        | Some d =>
            do (ret, t1, key1) <- dm t d key ;
            Ok ((if (ret <? 0)%Z then (-1)%Z else 1%Z), t1, key1)
        end
      else
        match find_mask t (match dir with Some d => d | None => [SLASH] end) with
        | Some m => Ok (0%Z, t, xor key m)
        | None =>
            if NAME_MAX <? match dir with Some d => length d + 13 | None => 12 end then UB OobWrite
            else
              let pkg := match dir with Some d => d ++ B "/package.moc" | None => PACKAGE_MOC end in
              match fs (snprintf NAME_MAX (basedir ++ [SLASH] ++ pkg)) with
              | None => dm t pkg key
              | Some content =>
                  do (t1, res, out) <- decrypt_with pr product_key dm t pkg content ;
                  if (0 <? res)%Z
                  then Ok (0%Z, t1, xor key (firstn (p_len pr) (skipn (Z.to_nat res) out)))
                  else Ok ((-1)%Z, t1, key)
              end
        end
  end.

(** mlle_cr_decrypt in a context made by mlle_cr_create: the plaintext, or None if -1 is
    returned (lve/mlle_lve_file.c:86). *)
Definition cr_decrypt (pr : primitives) (product_key : bytes) (fs : bytes -> option bytes)
  (basedir : bytes) (t : table) (rel file : bytes) : outcome (table * option bytes) :=
  do (t1, res, out) <- decrypt_with pr product_key
                         (demask_key (2 * length rel + 4) pr product_key fs basedir) t rel file ;
  Ok (t1, if (res <? 0)%Z then None else Some (firstn (Z.to_nat res) out)).

(** ** Runs *)

(** One file given to mlle_cr_encrypt: relative path, contents, and what RAND_bytes yields
    for the IV and the mask. *)
Record source := { f_rel : bytes; f_data : bytes; f_iv : bytes; f_mask : bytes }.
(** Encrypting files one after the other in one context, stopping at a failure
    (packagetool/utils.c:1009-1094,1273-1307). *)
Fixpoint encrypt_all (pr : primitives) (product_key : bytes) (t : table) (fs : list source)
  : outcome (option (list bytes)) :=
  match fs with
  | [] => Ok (Some [])
  | f :: r =>
      do (t1, o) <- cr_encrypt pr product_key t (f_rel f) (f_iv f) (f_mask f) (f_data f) ;
      match o with
      | None => Ok None
      | Some out =>
          do rest <- encrypt_all pr product_key t1 r ;
          Ok (match rest with Some outs => Some (out :: outs) | None => None end)
      end
  end.
(** Decrypting files one after the other in one context (FILE commands of one session,
    lve/mlle_lve_file.c:85): relative path and contents of each. *)
Fixpoint decrypt_all (pr : primitives) (product_key : bytes) (fs : bytes -> option bytes) (basedir : bytes)
  (t : table) (reqs : list (bytes * bytes)) : outcome (list (option bytes)) :=
  match reqs with
  | [] => Ok []
  | (rel, file) :: r =>
      do (t1, o) <- cr_decrypt pr product_key fs basedir t rel file ;
      do rest <- decrypt_all pr product_key fs basedir t1 r ;
      Ok (o :: rest)
  end.
