(** Model of the debug output: mlle_log, common/mlle_io.c:41-57, and what is written to it in
    /repo/src/decryptors/default/src/mlle_cr_encrypt.c and mlle_cr_decrypt.c.  The functions are those of
    CryptModel with their output; LogProofs shows that the results are the same.  Output that is not flushed
    when a process is killed is not modelled. *)
From Verif Require Import Base WireModel CryptModel.

(** mlle_log is NULL; it is set; it is set in a program compiled with DEBUG or _DEBUG
    (mlle_cr_decrypt.c:47,66). *)
Inductive logging := Off | Release | Debug.

(** mlle_log_open, common/mlle_io.c:43-57, as called in lve/lve.c:285 with SEMLA_LVE_LOG_FILE: [file] is the value of
    the variable, [opens] whether fopen succeeds, [time] what ctime returns.  In the packaging tool
    (packagetool/packagetool.c:79) and in encrypt_file and decrypt_file (encrypt_file.c:50, decrypt_file.c:51) mlle_log is stderr. *)
Definition log_open (debug : bool) (file : option bytes) (opens : bytes -> bool) (time : bytes) : logging * list bytes :=
  match file with
  | None => (Off, [])
  | Some f => if opens f then (if debug then Debug else Release, [B "Opening logfile at: " ++ time ++ [LF]]) else (Off, [])
  end.

(** What was written, call by call of fprintf, and the result. *)
Definition logged (A : Type) : Type := (list bytes * outcome A)%type.
(** Sequencing, as [bind]. *)
Definition lbind {A C} (m : logged A) (f : A -> logged C) : logged C :=
  match snd m with
  | Ok a => (fst m ++ fst (f a), snd (f a))
  | UB r => (fst m, UB r)
  | Blocked => (fst m, Blocked)
  end.
(** fprintf calls before the rest. *)
Definition tell {A} (l : list bytes) (m : logged A) : logged A := (l ++ fst m, snd m).
(** if (mlle_log) { fprintf(mlle_log, ...) }, e.g. mlle_cr_decrypt.c:85-86. *)
Definition say (g : logging) (line : bytes) : list bytes := match g with Off => [] | _ => [line ++ [LF]] end.

(** %02X. *)
Definition hex_digit (n : nat) : byte := ch (if n <? 10 then 48 + n else 55 + n).
Definition hex_byte (c : byte) : bytes := [hex_digit (nat_of_ascii c / 16); hex_digit (nat_of_ascii c mod 16)].
(** The loop of mlle_debug_log_key, mlle_cr_decrypt.c:53-60: bytes with colons between them. *)
Fixpoint hex_key (key : bytes) : bytes :=
  match key with
  | [] => []
  | [c] => hex_byte c
  | c :: r => hex_byte c ++ [ch 58] ++ hex_key r
  end.
(** mlle_debug_log_key, mlle_cr_decrypt.c:47-68; it is called only if mlle_log is set. *)
Definition log_key (g : logging) (pr : primitives) (key : bytes) : list bytes :=
  match g with
  | Debug => [B "key: " ++ hex_key (firstn (p_len pr) key) ++ [LF]]
  | _ => []
  end.

(** mlle_mask_key, mlle_cr_encrypt.c:77-191, with what it writes to mlle_log and stderr (which are the same in the programs that
    encrypt). *)
Fixpoint mask_log (g : logging) (pr : primitives) (fuel : nat) (t : table) (rel key rnd : bytes) : logged (Z * table * bytes) :=
  match fuel with
  | O => ([], Blocked)
  | S f =>
      tell (say g (B "mlle_mask_key: got key for " ++ rel ++ B " ") ++ log_key g pr key)
      (let '(dir, base) := split_path rel in
       let path := match dir with Some d => d | None => [SLASH] end in
       if caseeq base PACKAGE_MO then
         match find_mask t path with
         | Some _ => (say Release (B "Found key mask in the table while working on " ++ rel ++ B "; package.mo must be encrypted first"), Ok ((-1)%Z, t, key))
         | None =>
             lbind (if at_root path then ([], Ok (0%Z, t, key)) else mask_log g pr f t path key rnd) (fun '(ret, t1, key1) =>
             if (ret =? 0)%Z
             then (say g (B "mlle_mask_key: generated and stored mask for " ++ path ++ B " ") ++ log_key g pr rnd, Ok (1%Z, add_mask t t1 path rnd, key1))
             else (say Release (B "Unexpected key mask output when processing " ++ path), Ok ((-1)%Z, t1, key1)))
         end
       else
         match find_mask t path with
         | Some m => (say g (B "mlle_mask_key: applied key mask for " ++ rel ++ B " ") ++ log_key g pr (xor key m), Ok (0%Z, t, xor key m))
         | None =>
             lbind (if at_root path then ([], Ok (0%Z, t, zeros pr)) else mask_log g pr f t path (zeros pr) rnd) (fun '(ret, t1, m) =>
             if (ret =? 0)%Z
             then (say g (B "mlle_mask_key: storing mask based on parent for " ++ path ++ B " ") ++ log_key g pr m
                   ++ say g (B "mlle_mask_key: applied key mask for " ++ rel ++ B " ") ++ log_key g pr (xor key m), Ok (0%Z, add_mask t t1 path m, xor key m))
             else (say Release (B "Unexpected key mask output when processing " ++ path), Ok ((-1)%Z, t1, key)))
         end)
  end.
(** mlle_cr_encrypt, mlle_cr_encrypt.c:199-315. *)
Definition cr_encrypt_log (g : logging) (pr : primitives) (product_key : bytes) (t : table) (rel : bytes)
  (iv rnd file : bytes) : logged (table * option bytes) :=
  lbind (mask_log g pr (S (length rel)) t rel product_key rnd) (fun '(flag, t1, key) =>
  ([], if (flag <? 0)%Z then Ok (t1, None)
       else
         do out <- encrypt_with pr key iv file (if (flag =? 0)%Z then None else Some rnd) ;
         Ok (t1, Some out))).
(** Encrypting files one after the other, packagetool/utils.c:1009-1094,1273-1307. *)
Fixpoint encrypt_all_log (g : logging) (pr : primitives) (product_key : bytes) (t : table) (fs : list source) : logged (option (list bytes)) :=
  match fs with
  | [] => ([], Ok (Some []))
  | f :: r =>
      lbind (cr_encrypt_log g pr product_key t (f_rel f) (f_iv f) (f_mask f) (f_data f)) (fun '(t1, o) =>
      match o with
      | None => ([], Ok None)
      | Some out =>
          lbind (encrypt_all_log g pr product_key t1 r) (fun rest =>
          ([], Ok (match rest with Some outs => Some (out :: outs) | None => None end)))
      end)
  end.

(** mlle_store_keymask, mlle_cr_decrypt.c:189-227. *)
Definition store_log (g : logging) (pr : primitives) (t : table) (rel mask : bytes) : logged table :=
  (match store_mask t rel mask with
   | Ok t' => if length t =? length t' then []      (* lines 206-208: it is there already *)
              else say g (B "mlle_store_keymask: stored key_mask for " ++ rel ++ B " ") ++ log_key g pr mask
   | _ => []
   end, store_mask t rel mask).
(** mlle_cr_decrypt, mlle_cr_decrypt.c:241-342. *)
Definition decrypt_log (g : logging) (pr : primitives) (product_key : bytes)
  (dm : table -> bytes -> bytes -> logged (Z * table * bytes))
  (t : table) (rel file : bytes) : logged (table * Z * bytes) :=
  lbind (dm t rel product_key) (fun '(flag, t1, key) =>
  if length file + 1 <? BLOCK then ([], UB OobRead)
  else
    let iv := firstn BLOCK (file ++ [NUL]) in
    let enc_len := to_int (zlen file - Z.of_nat BLOCK - Z.of_nat MAC_LEN) in
    if (enc_len <? 0)%Z then ([], Ok (t1, (-1)%Z, []))
    else
      match evp_decrypt pr key iv (firstn (Z.to_nat enc_len) (skipn BLOCK file)) with
      | None => ([], Ok (t1, (-1)%Z, []))
      | Some out =>
          if beq (mac_of pr key (iv ++ out)) (skipn (length file - MAC_LEN) file) then
            if (flag =? 0)%Z then ([], Ok (t1, zlen out, out))
            else
              let n := (zlen out - Z.of_nat (p_len pr))%Z in
              if (n <? 0)%Z then ([], UB OobRead)
              else
                lbind (store_log g pr t1 rel (firstn (p_len pr) (skipn (Z.to_nat n) out))) (fun t2 => ([], Ok (t2, n, out)))
          else ([], Ok (t1, (-1)%Z, []))
      end).
(** mlle_demask_key, mlle_cr_decrypt.c:70-186. *)
Fixpoint demask_log (g : logging) (fuel : nat) (pr : primitives) (product_key : bytes) (fs : bytes -> option bytes)
  (basedir : bytes) (t : table) (rel key : bytes) : logged (Z * table * bytes) :=
  match fuel with
  | O => ([], Blocked)
  | S f =>
      let dm := demask_log g f pr product_key fs basedir in
      let applied k := say g (B "mlle_demask_key: applied mask for " ++ rel) ++ log_key g pr k in
      tell (say g (B "mlle_demask_key: " ++ rel) ++ log_key g pr key)
      (let '(dir, base) := split_path rel in
       if caseeq base PACKAGE_MOC then
         match dir with
         | None => ([], Ok (1%Z, t, key))
         | Some d => lbind (dm t d key) (fun '(ret, t1, key1) => ([], Ok ((if (ret <? 0)%Z then (-1)%Z else 1%Z), t1, key1)))
         end
       else
         match find_mask t (match dir with Some d => d | None => [SLASH] end) with
         | Some m => (applied (xor key m), Ok (0%Z, t, xor key m))
         | None =>
             if NAME_MAX <? match dir with Some d => length d + 13 | None => 12 end then ([], UB OobWrite)
             else
               let pkg := match dir with Some d => d ++ B "/package.moc" | None => PACKAGE_MOC end in
               match fs (snprintf NAME_MAX (basedir ++ [SLASH] ++ pkg)) with
               | None => dm t pkg key
               | Some content =>
                   lbind (decrypt_log g pr product_key dm t pkg content) (fun '(t1, res, out) =>
                   if (0 <? res)%Z
                   then let k := xor key (firstn (p_len pr) (skipn (Z.to_nat res) out)) in (applied k, Ok (0%Z, t1, k))
                   else ([], Ok ((-1)%Z, t1, key)))
               end
         end)
  end.
(** One request, lve/mlle_lve_file.c:85-86. *)
Definition cr_decrypt_log (g : logging) (pr : primitives) (product_key : bytes) (fs : bytes -> option bytes)
  (basedir : bytes) (t : table) (rel file : bytes) : logged (table * option bytes) :=
  lbind (decrypt_log g pr product_key (demask_log g (2 * length rel + 4) pr product_key fs basedir) t rel file) (fun '(t1, res, out) =>
  ([], Ok (t1, if (res <? 0)%Z then None else Some (firstn (Z.to_nat res) out)))).
(** The requests of a session, lve/mlle_lve_file.c:85. *)
Fixpoint decrypt_all_log (g : logging) (pr : primitives) (product_key : bytes) (fs : bytes -> option bytes) (basedir : bytes)
  (t : table) (reqs : list (bytes * bytes)) : logged (list (option bytes)) :=
  match reqs with
  | [] => ([], Ok [])
  | (rel, file) :: r =>
      lbind (cr_decrypt_log g pr product_key fs basedir t rel file) (fun '(t1, o) =>
      lbind (decrypt_all_log g pr product_key fs basedir t1 r) (fun rest => ([], Ok (o :: rest))))
  end.
