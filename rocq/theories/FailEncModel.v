(** Model of the encryptor when calls fail: /repo/src/decryptors/default/src/mlle_cr_encrypt.c as in CryptModel, with its blocks (as
    in MemModel) and with failures of every call that may fail. *)
From Verif Require Import Base WireModel CryptModel MemModel FailModel.

(** RAND_bytes, mlle_cr_encrypt.c:131,239: if it fails the buffer is left as it was ([old]); its result is not looked at. *)
Definition rand (ok : oracle) (fresh old : bytes) : T bytes := take r <- call ok ; tret (if r then fresh else old).

(** HASH_ADD_KEYPTR with the local head pointer, as [add_mask]: with an empty [local] the items of [t] are lost. *)
Definition f_add (local t : cached) (p m : bytes) (b : res) : cached :=
  match local with
  | [] => [(p, m, b)]
  | _ => t ++ [(p, m, b)]
  end.

(** mlle_mask_key, mlle_cr_encrypt.c:77-191: return value, table, key, store_mask.  [store]: what is in store_mask. *)
Fixpoint f_maskkey (fuel : nat) (ok : oracle) (pr : primitives) (t : cached) (rel key rnd store : bytes)
  : F (Z * cached * bytes * bytes) :=
  match fuel with
  | O => tret Blocked
  | S f =>
      let '(dir, base) := split_path rel in
      let path := match dir with Some d => d | None => [SLASH] end in
      if caseeq base PACKAGE_MO then
        match find_item t path with
        | Some (_, b) => take _ <- touch (Some b) ; fret ((-1)%Z, t, key, store)
        | None =>
            go (ret, t1, key1, store1) <- (if at_root path then fret (0%Z, t, key, store) else f_maskkey f ok pr t path key rnd store) ;
            if (ret =? 0)%Z then
              take m <- rand ok rnd store1 ;
              take b <- obtain ok ;
              match b with
              | None => fret ((-1)%Z, t1, key1, m)
              | Some r => take _ <- touch b ; fret (1%Z, f_add t t1 path m r, key1, m)
              end
            else fret ((-1)%Z, t1, key1, store1)
        end
      else
        match find_item t path with
        | Some (m, b) => take _ <- touch (Some b) ; fret (0%Z, t, xor key m, store)
        | None =>
            take b <- obtain ok ;
            match b with
            | None => fret ((-1)%Z, t, key, store)
            | Some r =>
                take _ <- touch b ;
                go (ret, t1, m, store1) <- (if at_root path then fret (0%Z, t, zeros pr, store)
                                            else f_maskkey f ok pr t path (zeros pr) rnd store) ;
                if (ret =? 0)%Z then
                  take _ <- touch b ;
                  fret (0%Z, f_add t t1 path m r, xor key m, store1)
                else
                  take _ <- release b ;
                  fret ((-1)%Z, t1, key, store1)
            end
        end
  end.

(** One call of EVP_EncryptUpdate, fwrite and HMAC_Update, mlle_cr_encrypt.c:268-275,281-286: None if one fails. *)
Definition f_put (ok : oracle) (pr : primitives) (cc hc : res) (key : bytes) (v : evp) (data : bytes) : F (option (evp * bytes)) :=
  take _ <- touch (Some cc) ;
  take o1 <- call ok ;
  if o1 then
    match put_chunk pr key v data with
    | UB k => tret (UB k)
    | Blocked => tret Blocked
    | Ok (v', out) =>
        take o2 <- call ok ;
        if o2 then
          take _ <- touch (Some hc) ;
          take o3 <- call ok ;
          fret (if o3 then Some (v', out) else None)
        else fret None
    end
  else fret None.
(** The loop, mlle_cr_encrypt.c:261-276, for what the calls of fread return. *)
Fixpoint f_puts (ok : oracle) (pr : primitives) (cc hc : res) (key : bytes) (v : evp) (datas : list bytes) : F (option (evp * bytes)) :=
  match datas with
  | [] => fret (Some (v, []))
  | d :: r =>
      take o1 <- call ok ;
      if o1 then
        go p <- f_put ok pr cc hc key v d ;
        match p with
        | None => fret None
        | Some (v1, out) =>
            go q <- f_puts ok pr cc hc key v1 r ;
            fret (match q with Some (v2, out2) => Some (v2, out ++ out2) | None => None end)
        end
      else fret None
  end.

(** From EVP_EncryptInit_ex to the label error, mlle_cr_encrypt.c:250-304: what follows the IV in the output, if all goes well, and
    the block mac.  [hc] may be NULL. *)
Definition f_seal (ok : oracle) (pr : primitives) (cc : res) (hc : option res) (ivb : res) (key iv file : bytes) (mask : option bytes)
  : F (option bytes * option res) :=
  take _ <- touch (Some cc) ;
  take _ <- touch (Some ivb) ;
  take o1 <- call ok ;
  if o1 then
    take mac <- obtain ok ;
    match mac with
    | None => fret (None, None)
    | Some _ =>
        match hc with
        | None => tret (UB NullDeref)
        | Some h =>
            take _ <- touch hc ;
            take o2 <- call ok ;
            if o2 then
              take _ <- touch (Some ivb) ;
              take o3 <- call ok ;
              if o3 then
                go a <- f_puts ok pr cc h key {| v_chain := iv; v_rest := [] |} (file_reads file) ;
                match a with
                | None => fret (None, mac)
                | Some (v1, out1) =>
                    go b <- match mask with Some m => f_put ok pr cc h key v1 m | None => fret (Some (v1, [])) end ;
                    match b with
                    | None => fret (None, mac)
                    | Some (v2, out2) =>
                        take _ <- touch (Some cc) ;
                        take o4 <- call ok ;
                        if o4 then
                          take o5 <- call ok ;
                          if o5 then
                            take _ <- touch hc ;
                            take _ <- touch mac ;
                            take o6 <- call ok ;
                            if o6 then
                              take o7 <- call ok ;
                              let data := concat (file_reads file) ++ match mask with Some m => m | None => [] end in
                              fret (if o7 then Some (out1 ++ out2 ++ evp_final pr key v2 ++ mac_of pr key (iv ++ data)) else None, mac)
                            else fret (None, mac)
                          else fret (None, mac)
                        else fret (None, mac)
                    end
                end
              else fret (None, mac)
            else fret (None, mac)
        end
    end
  else fret (None, None).

(** One file and what is in the memory used for its IV and mask before RAND_bytes is called. *)
Record raw := { w_source : source; w_iv : bytes; w_mask : bytes }.

(** mlle_cr_encrypt, mlle_cr_encrypt.c:199-315, on Linux (nothing to seed): the table and the complete output if 1 is returned.
    Simplified: what was written before a failure is left out.  EVP_CIPHER_CTX_init and RAND_bytes use the block they are given
    without looking whether there is one. *)
Definition f_encrypt (ok : oracle) (pr : primitives) (product_key : bytes) (t : cached) (w : raw) : F (cached * option bytes) :=
  let s := w_source w in
  take c <- obtain ok ;
  take h <- obtain ok ;
  match c with
  | None => tret (UB NullDeref)
  | Some cc =>
      take _ <- touch c ;
      take i <- obtain ok ;
      match i with
      | None => tret (UB NullDeref)
      | Some ivb =>
          take iv <- rand ok (f_iv s) (w_iv w) ;
          take _ <- touch i ;
          take o1 <- call ok ;
          go (t1, out, mac) <-
            (if o1 then
               go (flag, t1, key, store) <- f_maskkey (S (length (f_rel s))) ok pr t (f_rel s) product_key (f_mask s) (w_mask w) ;
               if (flag <? 0)%Z then fret (t1, None, None)
               else
                 go (out, mac) <- f_seal ok pr cc h ivb key iv (f_data s) (if (flag =? 0)%Z then None else Some store) ;
                 fret (t1, match out with Some o => Some (iv ++ o) | None => None end, mac)
             else fret (t, None, None)) ;
          take _ <- release c ;
          take _ <- release h ;
          take _ <- release mac ;
          take _ <- release i ;
          fret (t1, out)
      end
  end.

(** Encrypting files one after the other in one context, stopping at a failure, as [encrypt_all]. *)
Fixpoint f_encrypt_all (ok : oracle) (pr : primitives) (product_key : bytes) (t : cached) (ws : list raw) : F (cached * option (list bytes)) :=
  match ws with
  | [] => fret (t, Some [])
  | w :: r =>
      go (t1, o) <- f_encrypt ok pr product_key t w ;
      match o with
      | None => fret (t1, None)
      | Some out =>
          go (t2, rest) <- f_encrypt_all ok pr product_key t1 r ;
          fret (t2, match rest with Some outs => Some (out :: outs) | None => None end)
      end
  end.
(** mlle_cr_create, the files, mlle_cr_free (mlle_cr_decrypt.c:35-45). *)
Definition f_encrypt_run (ok : oracle) (pr : primitives) (product_key : bytes) (ws : list raw) : F (cached * option (list bytes)) :=
  take c <- malloc true ;
  take _ <- touch c ;
  go r <- f_encrypt_all ok pr product_key [] ws ;
  take _ <- release c ;
  fret r.
