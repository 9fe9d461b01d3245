(** Model of the default decryptor when calls fail: /repo/src/decryptors/default/src/mlle_cr_decrypt.c as in CryptModel, with the
    blocks and streams it holds (as in MemModel) and with failures of every call that may fail. *)
From Verif Require Import Base WireModel CryptModel MemModel.

(** [ok n] says whether the [n]-th call succeeds; every call takes a number, which is also that of the block it delivers. *)
Definition oracle := nat -> bool.
(** A call that reports failure by its return value. *)
Definition call (ok : oracle) : T bool := fun n => ([], ok n, S n).
(** malloc, calloc and the functions of OpenSSL that make an object. *)
Definition obtain (ok : oracle) : T (option res) := fun n =>
  if ok n then ([Get (Block n)], Some (Block n), S n) else ([], None, S n).

(** Functions that may crash: nothing happens after a crash. *)
Definition F (A : Type) : Type := T (outcome A).
Definition fret {A} (a : A) : F A := tret (Ok a).
Definition fbind {A C} (m : F A) (f : A -> F C) : F C :=
  tbind m (fun o => match o with Ok a => f a | UB k => tret (UB k) | Blocked => tret Blocked end).
Notation "'go' x <- o ; f" := (fbind o (fun x => f))
  (at level 200, x pattern, o at level 100, f at level 200).

(** ** Reading a package file *)

(** mlle_error_new_valist, common/mlle_error.c:62-88: the object and its text. *)
Definition f_error_new (ok : oracle) : T (option (res * option res)) :=
  take e <- obtain ok ;
  match e with
  | None => tret None
  | Some o =>
      take _ <- touch (Some o) ;
      take t <- obtain ok ;
      take _ <- touch t ;
      tret (Some (o, t))
  end.
(** mlle_error_free, common/mlle_error.c:143-157, for an object without cause. *)
Definition f_error_free (e : option (res * option res)) : T unit :=
  match e with
  | None => tret tt
  | Some (o, t) =>
      take _ <- touch (Some o) ;
      take _ <- release t ;
      release (Some o)
  end.

(** mlle_io_read_file, common/mlle_io.c:58-171, Linux branch: the buffer with the contents, and the error object.  [file]: what is
    on the disk.  The stream is not closed if stat or calloc fails. *)
Definition f_read (ok : oracle) (file : option bytes) : T (option (res * bytes) * option (res * option res)) :=
  let fail := take e <- f_error_new ok ; tret (None, e) in
  match file with
  | None => fail
  | Some content =>
      take opened <- call ok ;
      if opened then
        take f <- fopen ;
        take statted <- call ok ;
        if statted then
          take b <- obtain ok ;
          match b with
          | None => fail
          | Some _ =>
              take _ <- touch b ;
              take _ <- touch (Some f) ;
              take read <- call ok ;
              if read then
                take _ <- release (Some f) ;
                tret (match b with Some p => Some (p, content) | None => None end, None)
              else
                take e <- f_error_new ok ;
                take _ <- release b ;
                take _ <- release (Some f) ;
                tret (None, e)
          end
        else fail
      else fail
  end.

(** ** The table of masks *)

(** The items of keymask_map with their blocks.  Simplified: the blocks uthash makes for itself are not counted. *)
Definition cached := list (bytes * bytes * res).
Definition plain (t : cached) : table := map fst t.
Definition items (t : cached) : list res := map snd t.
Fixpoint find_item (t : cached) (p : bytes) : option (bytes * res) :=
  match t with
  | [] => None
  | (q, m, b) :: r => if beq q p then Some (m, b) else find_item r p
  end.

(** mlle_store_keymask, mlle_cr_decrypt.c:189-227; the table is None if calloc fails. *)
Definition f_store (ok : oracle) (t : cached) (rel mask : bytes) : F (option cached) :=
  let n := zlen rel in
  let plen := (if (n =? 11)%Z then 0 else n - 12)%Z in
  if (plen <? 0)%Z then tret (UB OobWrite)
  else if (Z.of_nat NAME_MAX <=? plen)%Z then tret (UB OobWrite)
  else
    let p := if (plen =? 0)%Z then [SLASH] else firstn (Z.to_nat plen) rel in
    match find_item t p with
    | Some (_, b) => take _ <- touch (Some b) ; fret (Some t)
    | None =>
        take b <- obtain ok ;
        match b with
        | None => fret None
        | Some r => take _ <- touch b ; fret (Some (t ++ [(p, mask, r)]))
        end
    end.

(** ** Decryption *)

(** From EVP_DecryptInit_ex to the label error, mlle_cr_decrypt.c:297-332: the result and what is in the output buffer.
    The OpenSSL functions fail if [ok] says so or if the data makes them fail. *)
Definition f_open (ok : oracle) (pr : primitives) (cc hc : res) (flag : Z) (t : cached) (rel key : bytes)
  (inp : res * bytes) (outp : res) : F (cached * Z * bytes * option res) :=
  let '(ip, file) := inp in
  let fail (mac : option res) := fret (t, (-1)%Z, [] : bytes, mac) in
  if length file + 1 <? BLOCK then tret (UB OobRead)
  else
    take _ <- touch (Some ip) ;
    take _ <- touch (Some cc) ;
    take o1 <- call ok ;
    if o1 then
      take mac <- obtain ok ;
      match mac with
      | None => fail None
      | Some _ =>
          take _ <- touch (Some hc) ;
          take o2 <- call ok ;
          if o2 then
            take o3 <- call ok ;
            if o3 then
              let iv := firstn BLOCK (file ++ [NUL]) in
              let enc_len := to_int (zlen file - Z.of_nat BLOCK - Z.of_nat MAC_LEN) in
              take _ <- touch (Some cc) ;
              take _ <- touch (Some ip) ;
              take _ <- touch (Some outp) ;
              take o4 <- call ok ;
              if o4 && (0 <=? enc_len)%Z then
                take o5 <- call ok ;
                match evp_decrypt pr key iv (firstn (Z.to_nat enc_len) (skipn BLOCK file)) with
                | Some out =>
                    if o5 then
                      take _ <- touch (Some hc) ;
                      take _ <- touch (Some outp) ;
                      take o6 <- call ok ;
                      if o6 then
                        take o7 <- call ok ;
                        take _ <- touch mac ;
                        if o7 && beq (mac_of pr key (iv ++ out)) (skipn (length file - MAC_LEN) file) then
                          if (flag =? 0)%Z then fret (t, zlen out, out, mac)
                          else
                            let n := (zlen out - Z.of_nat (p_len pr))%Z in
                            if (n <? 0)%Z then tret (UB OobRead)
                            else
                              take _ <- touch (Some outp) ;
                              go stored <- f_store ok t rel (firstn (p_len pr) (skipn (Z.to_nat n) out)) ;
                              match stored with
                              | Some t2 => fret (t2, n, out, mac)
                              | None => fail mac
                              end
                        else fail mac
                      else fail mac
                    else fail mac
                | None => fail mac
                end
              else fail mac
            else fail mac
          else fail mac
      end
    else fail None.

(** mlle_cr_decrypt, mlle_cr_decrypt.c:241-342, with mlle_demask_key as [dm].  [inp] is None for the call from
    encrypt_decrypt/encrypt_file.c:80, which returns before the contexts are freed (line 295).  A NULL context is taken for a crash
    (HMAC_CTX_init and EVP_DecryptInit_ex use it). *)
Definition f_decrypt (ok : oracle) (pr : primitives) (product_key : bytes)
  (dm : cached -> bytes -> bytes -> F (Z * cached * bytes))
  (t : cached) (rel : bytes) (inp : option (res * bytes)) (outp : res) : F (cached * Z * bytes) :=
  take c <- obtain ok ;
  take h <- obtain ok ;
  match c, h with
  | Some cc, Some hc =>
      take _ <- touch c ;
      take _ <- touch h ;
      go (flag, t1, key) <- dm t rel product_key ;
      match inp with
      | None => fret (t1, 0%Z, [] : bytes)
      | Some i =>
          go (t2, r, out, mac) <- f_open ok pr cc hc flag t1 rel key i outp ;
          take _ <- touch c ;
          take _ <- release c ;
          take _ <- release h ;
          take _ <- release mac ;
          fret (t2, r, out)
      end
  | _, _ => tret (UB NullDeref)
  end.

(** mlle_demask_key, mlle_cr_decrypt.c:70-186.  [fuel] bounds the recursion. *)
Fixpoint f_demask (fuel : nat) (ok : oracle) (pr : primitives) (product_key : bytes) (fs : bytes -> option bytes)
  (basedir : bytes) (t : cached) (rel key : bytes) : F (Z * cached * bytes) :=
  match fuel with
  | O => tret Blocked
  | S f =>
      let dm := f_demask f ok pr product_key fs basedir in
      let '(dir, base) := split_path rel in
      if caseeq base PACKAGE_MOC then
        match dir with
        | None => fret (1%Z, t, key)
        | Some d =>
            go (ret, t1, key1) <- dm t d key ;
            fret ((if (ret <? 0)%Z then (-1)%Z else 1%Z), t1, key1)
        end
      else
        match find_item t (match dir with Some d => d | None => [SLASH] end) with
        | Some (m, b) => take _ <- touch (Some b) ; fret (0%Z, t, xor key m)
        | None =>
            if NAME_MAX <? match dir with Some d => length d + 13 | None => 12 end then tret (UB OobWrite)
            else
              let pkg := match dir with Some d => d ++ B "/package.moc" | None => PACKAGE_MOC end in
              take (buf, err) <- f_read ok (fs (snprintf NAME_MAX (basedir ++ [SLASH] ++ pkg))) ;
              match err with
              | Some _ =>
                  go r <- dm t pkg key ;
                  take _ <- f_error_free err ;
                  fret r
              | None =>
                  take out <- obtain ok ;
                  match buf, out with
                  | Some (fb, content), Some o =>
                      go (t1, res, text) <- f_decrypt ok pr product_key dm t pkg (Some (fb, content)) o ;
                      take _ <- touch out ;
                      take _ <- release (Some fb) ;
                      take _ <- release out ;
                      if (0 <? res)%Z
                      then fret (0%Z, t1, xor key (firstn (p_len pr) (skipn (Z.to_nat res) text)))
                      else fret ((-1)%Z, t1, key)
                  | _, _ =>
                      take _ <- release (match buf with Some (fb, _) => Some fb | None => None end) ;
                      take _ <- release out ;
                      fret ((-1)%Z, t, key)
                  end
              end
        end
  end.

(** ** Sessions *)

(** A call as in lve/mlle_lve_file.c:70-120: the caller has read the file into a buffer, has one for the result, and frees both. *)
Definition f_request (ok : oracle) (pr : primitives) (product_key : bytes) (fs : bytes -> option bytes) (basedir : bytes)
  (t : cached) (rel file : bytes) : F (cached * option bytes) :=
  take ip <- malloc true ;
  take op <- malloc true ;
  match ip, op with
  | Some i, Some o =>
      go (t1, r, out) <- f_decrypt ok pr product_key (f_demask (2 * length rel + 4) ok pr product_key fs basedir) t rel
                           (Some (i, file)) o ;
      take _ <- touch op ;
      take _ <- release ip ;
      take _ <- release op ;
      fret (t1, if (r <? 0)%Z then None else Some (firstn (Z.to_nat r) out))
  | _, _ => tret Blocked
  end.
(** Requests one after the other in one context: the table afterwards and the answers. *)
Fixpoint f_requests (ok : oracle) (pr : primitives) (product_key : bytes) (fs : bytes -> option bytes) (basedir : bytes)
  (t : cached) (reqs : list (bytes * bytes)) : F (cached * list (option bytes)) :=
  match reqs with
  | [] => fret (t, [])
  | (rel, file) :: r =>
      go (t1, a) <- f_request ok pr product_key fs basedir t rel file ;
      go (t2, answers) <- f_requests ok pr product_key fs basedir t1 r ;
      fret (t2, a :: answers)
  end.
(** mlle_cr_create, requests, mlle_cr_free (mlle_cr_decrypt.c:35-45): the items of the table are not freed. *)
Definition f_session (ok : oracle) (pr : primitives) (product_key : bytes) (fs : bytes -> option bytes) (basedir : bytes)
  (reqs : list (bytes * bytes)) : F (cached * list (option bytes)) :=
  take c <- malloc true ;
  take _ <- touch c ;
  go r <- f_requests ok pr product_key fs basedir [] reqs ;
  take _ <- release c ;
  fret r.
