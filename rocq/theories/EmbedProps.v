(** Embedded keys: properties C42-C44 and C56.  The generated headers are read with the small reader of
    EmbedSpec.v; [mem] is what an array contains when it is declared. *)
From Verif Require Import Base WireModel LveModel LveProps EmbedModel EmbedSpec EmbedProofs EmbedKeys.

(** ** C42 *)

(** The array starts with the bytes of the file without carriage returns and a NUL, whatever was in the
    array before, and the declared length is the number of those bytes. *)
Theorem C42_exact : forall d out file name type data,
  Identifier name -> In type [B "TOOL_PUBLIC"; B "TOOL_PRIVATE"; B "LVE_PRIVATE"] ->
  dk_file d file = Some data -> data <> [] -> dk_readable d file = true -> dk_writable d out = true ->
  exists h m, obfuscate d [out; file; name; type] = Ok (0%Z, Some (out, h)) /\ read_header name h = Some m /\
    m_length m = Z.of_nat (length (unix data)) /\
    exists rest, forall mem, Declared m mem -> initialize m mem = Some (unix data ++ [NUL] ++ rest).
Proof.
  intros d out file name type data I T F N R W. exists (header name data), (meaning data).
  split; [now apply obfuscate_runs|]. split; [now apply header_reads|]. split; [reflexivity|].
  destruct (kept_start data) as (rest & E). exists rest. intros mem D. rewrite <- E. now apply header_initializes.
Qed.
Print Assumptions C42_exact.

(** A key file with line ends of Windows gives the same key as the one with those of Unix. *)
Theorem C42_line_ends : forall d1 d2 out1 out2 file1 file2 name type data h1 h2,
  Identifier name -> ~ In CR data -> dk_file d1 file1 = Some data -> dk_file d2 file2 = Some (dos data) ->
  obfuscate d1 [out1; file1; name; type] = Ok (0%Z, Some (out1, h1)) ->
  obfuscate d2 [out2; file2; name; type] = Ok (0%Z, Some (out2, h2)) ->
  exists m1 m2, read_header name h1 = Some m1 /\ read_header name h2 = Some m2 /\
    m_length m1 = Z.of_nat (length data) /\ m_length m2 = Z.of_nat (length data) /\
    exists r1 r2, (forall mem, Declared m1 mem -> initialize m1 mem = Some (data ++ [NUL] ++ r1)) /\
                  (forall mem, Declared m2 mem -> initialize m2 mem = Some (data ++ [NUL] ++ r2)).
Proof.
  assert (Out : forall d out file name type data h, dk_file d file = Some data ->
     obfuscate d [out; file; name; type] = Ok (0%Z, Some (out, h)) -> h = header name data).
  { intros d out file name type data h F. unfold obfuscate, read_file, create_header_file. rewrite F.
    destruct (_ || _); [|discriminate]. destruct (dk_readable d file); [|discriminate].
    destruct data as [|c data]; [discriminate|]. cbn [bind]. destruct (dk_writable d out); [|discriminate].
    intros E. injection E as E. symmetry. exact E. }
  intros d1 d2 out1 out2 file1 file2 name type data h1 h2 I C F1 F2 O1 O2.
  apply (Out _ _ _ _ _ _ _ F1) in O1 as ->. apply (Out _ _ _ _ _ _ _ F2) in O2 as ->.
  exists (meaning data), (meaning (dos data)). split; [now apply header_reads|]. split; [now apply header_reads|].
  cbn [meaning m_length]. rewrite unix_dos, (unix_id data C). split; [reflexivity|]. split; [reflexivity|].
  destruct (kept_start data) as (r1 & E1). destruct (kept_start (dos data)) as (r2 & E2).
  rewrite unix_dos in E2. rewrite (unix_id data C) in E1, E2. exists r1, r2. split; intros mem D.
  - rewrite <- E1. now apply header_initializes.
  - rewrite <- E2. now apply header_initializes.
Qed.
Print Assumptions C42_line_ends.

(** An LVE built with these key files approves exactly the tools whose public key is the text of one of
    the files (without carriage returns). *)
Theorem C42_approved : forall D d dir files datas built cfg k,
  Forall2 (fun f data => dk_file d (dir ++ B "/" ++ f) = Some data /\ dk_readable d (dir ++ B "/" ++ f) = true /\
                         data <> [] /\ ~ In NUL data) files datas ->
  (forall p, dk_writable d p = true) ->
  (forall out h, In (Ok (0%Z, Some (out, h))) (key_headers d dir 0 files) -> built out = Some h) ->
  exists keys, InitializedKeys built (tool_header (length files)) keys /\
    (cfg_keys cfg = map cstr keys ->
     exists s : lve D, validate_pubkey cfg (Some k) fresh = ([], Ok s) /\
       (s_approved s = true <-> exists data, In data datas /\ k = unix data)).
Proof.
  intros D d dir files datas built cfg k F W Bt. exists (map (fun d => kept d ++ [NUL]) datas).
  assert (L : length files = length datas) by (clear -F; induction F; cbn; congruence). split.
  - rewrite L. apply initialized_keys.
    assert (K : forall i0 i data, nth_error datas i = Some data ->
       In (Ok (0%Z, Some (key_file (i0 + i), header (key_name (i0 + i)) data))) (key_headers d dir i0 files)).
    { clear -F W. induction F as [|f x files datas (H1 & H2 & H3 & H4) F IH]; intros i0 i data N; [now destruct i|].
      cbn [key_headers]. rewrite (obfuscate_runs d (key_file i0) (dir ++ B "/" ++ f) (key_name i0) (B "TOOL_PUBLIC") x (or_introl eq_refl) H1 H3 H2 (W _)).
      destruct i as [|i].
      - left. cbn in N. injection N as ->. now rewrite Nat.add_0_r.
      - right. replace (i0 + S i) with (S i0 + i) by lia. now apply IH. }
    intros i data N. exact (Bt _ _ (K 0 i data N)).
  - intros C. destruct (C12_approved_iff_listed_partial D cfg k) as (s & V & A). exists s. split; [exact V|].
    rewrite A, C, map_map. rewrite in_map_iff.
    assert (T : forall x, In x datas -> cstr (kept x ++ [NUL]) = unix x).
    { intros x Hx. apply key_text. clear -F Hx. induction F as [|f y fs ys (_ & _ & _ & H) _ IH]; [now elim Hx|].
      destruct Hx as [->|Hx]; [exact H|now apply IH]. }
    split; intros (x & H1 & H2).
    + exists x. split; [exact H2|]. rewrite <- H1. now apply T.
    + exists x. split; [|exact H1]. rewrite H2. now apply T.
Qed.
Print Assumptions C42_approved.

(** A key of three lines, with line ends of Unix and of Windows. *)
Definition pem : bytes := B "-----BEGIN" ++ [LF] ++ B "AB" ++ [LF] ++ B "-----END" ++ [LF].
Definition build_disk : disk :=
  {| dk_file := fun p => if beq p (B "keys/a.pem") then Some pem else if beq p (B "keys/b.pem") then Some (dos pem) else None;
     dk_readable := fun _ => true; dk_writable := fun _ => true |}.
Example C42_ex :
  Identifier (B "PRIVATE_KEY_TOOL") /\ ~ In CR pem /\ dk_file build_disk (B "keys/b.pem") = Some (dos pem) /\ dos pem <> pem /\
  exists h, obfuscate build_disk [B "k.h"; B "keys/b.pem"; B "PRIVATE_KEY_TOOL"; B "TOOL_PRIVATE"] = Ok (0%Z, Some (B "k.h", h)) /\
    eat (B "#define DECLARE_PRIVATE_KEY_TOOL() unsigned char PRIVATE_KEY_TOOL[27]" ++ [LF] ++
         B "#define PRIVATE_KEY_TOOL_LEN (23)" ++ [LF] ++
         B "#define INITIALIZE_PRIVATE_KEY_TOOL() do { PRIVATE_KEY_TOOL[0] = '\x2d'; PRIVATE_KEY_TOOL[1] = '\x2d'; ") h <> None.
Proof.
  split; [split; [discriminate|]; split; [reflexivity|]|].
  { intros c r E. apply (f_equal (hd NUL)) in E. cbn [hd] in E. rewrite <- E. reflexivity. }
  split. { apply BaseProofs.has_byte_false. vm_compute. reflexivity. }
  split; [vm_compute; reflexivity|]. split; [vm_compute; discriminate|].
  eexists. split; [vm_compute; reflexivity|]. vm_compute. discriminate.
Qed.
Example C42_approved_ex :
  Forall2 (fun f data => dk_file build_disk (B "keys" ++ B "/" ++ f) = Some data /\ dk_readable build_disk (B "keys" ++ B "/" ++ f) = true /\
                         data <> [] /\ ~ In NUL data) [B "a.pem"; B "b.pem"] [pem; dos pem] /\
  length (key_headers build_disk (B "keys") 0 [B "a.pem"; B "b.pem"]) = 2 /\ key_file 0 <> key_file 1.
Proof.
  split; [|split; [reflexivity|vm_compute; discriminate]].
  constructor; [|constructor; [|constructor]]; (split; [vm_compute; reflexivity|]; split; [reflexivity|]; split; [discriminate|]);
    apply BaseProofs.has_byte_false; vm_compute; reflexivity.
Qed.

(** ** C43 *)

(** With at most one carriage return in the file nothing is left. *)
Theorem C43_cleared_partial : forall d out file name type data h m mem used,
  Identifier name -> dk_file d file = Some data -> length data <= length (unix data) + 1 ->
  obfuscate d [out; file; name; type] = Ok (0%Z, Some (out, h)) -> read_header name h = Some m ->
  Declared m mem -> initialize m mem = Some used ->
  exists after, clear m used = Some after /\ Forall (eq NUL) after.
Proof.
  intros d out file name type data h m mem used I F L O Rd D U.
  assert (h = header name data).
  { revert O. unfold obfuscate, read_file, create_header_file. rewrite F.
    destruct (_ || _); [|discriminate]. destruct (dk_readable d file); [|discriminate].
    destruct data as [|c data]; [discriminate|]. cbn [bind]. destruct (dk_writable d out); [|discriminate].
    intros E. injection E as E. symmetry. exact E. }
  subst h. rewrite header_reads in Rd by exact I. assert (m = meaning data) by congruence. subst m. clear Rd.
  rewrite header_initializes in U by exact D. assert (used = kept data ++ [NUL]) by congruence. subst used.
  eexists. split; [apply header_clears|]. rewrite cleared_rest. apply Forall_app. split.
  - apply Forall_forall. intros x Hx. symmetry. now apply repeat_spec in Hx.
  - destruct (Nat.ltb_spec (length (unix data)) (length data)) as [K|K].
    + rewrite skipn_all2 by lia. apply Forall_cons; [reflexivity|]. apply Forall_cons; [reflexivity|apply Forall_nil].
    + apply Forall_cons; [reflexivity|apply Forall_nil].
Qed.
Print Assumptions C43_cleared_partial.

(** Otherwise the end of the file is left in the array: one byte less than there are carriage returns. *)
Theorem C43_left_refuted : forall d out file name type data h m mem used front last,
  Identifier name -> dk_file d file = Some data -> data = front ++ last -> length data = length (unix data) + 1 + length last ->
  obfuscate d [out; file; name; type] = Ok (0%Z, Some (out, h)) -> read_header name h = Some m ->
  Declared m mem -> initialize m mem = Some used ->
  exists zeros, clear m used = Some (zeros ++ last ++ [NUL]).
Proof.
  intros d out file name type data h m mem used front last I F S0 L O Rd D U.
  assert (h = header name data).
  { revert O. unfold obfuscate, read_file, create_header_file. rewrite F.
    destruct (_ || _); [|discriminate]. destruct (dk_readable d file); [|discriminate].
    destruct data as [|c data]; [discriminate|]. cbn [bind]. destruct (dk_writable d out); [|discriminate].
    intros E. injection E as E. symmetry. exact E. }
  subst h. rewrite header_reads in Rd by exact I. assert (m = meaning data) by congruence. subst m. clear Rd.
  rewrite header_initializes in U by exact D. assert (used = kept data ++ [NUL]) by congruence. subst used.
  exists (repeat NUL (length (unix data)) ++ [NUL]). rewrite header_clears, cleared_rest.
  destruct (Nat.ltb_spec (length (unix data)) (length data)) as [K|K]; [|lia].
  rewrite <- app_assoc. cbn [app]. do 3 f_equal. f_equal.
  assert (Lf : S (length (unix data)) = length front) by (apply (f_equal (@length _)) in S0; rewrite app_length in S0; lia).
  rewrite Lf. rewrite S0 at 1. rewrite skipn_app, skipn_all, Nat.sub_diag. reflexivity.
Qed.
Print Assumptions C43_left_refuted.

(** A private key with line ends of Windows and a long last line. *)
Definition secret : bytes := dos (B "1" ++ [LF] ++ B "2" ++ [LF] ++ B "3" ++ [LF] ++ B "4" ++ [LF] ++ B "SECRET" ++ [LF]).
Definition secret_disk : disk := {| dk_file := fun p => if beq p (B "key.pem") then Some secret else None;
                                    dk_readable := fun _ => true; dk_writable := fun _ => true |}.
Example C43_ex : exists h m used,
  obfuscate secret_disk [B "k.h"; B "key.pem"; B "K"; B "TOOL_PRIVATE"] = Ok (0%Z, Some (B "k.h", h)) /\ read_header (B "K") h = Some m /\
  initialize m (repeat "?"%char 21) = Some used /\
  secret = B "1" ++ [CR; LF] ++ B "2" ++ [CR; LF] ++ B "3" ++ [CR; LF] ++ B "4" ++ [CR; LF] ++ B "SECR" ++ B "ET" ++ [CR; LF] /\
  length secret = length (unix secret) + 1 + length (B "ET" ++ [CR; LF]) /\
  clear m used = Some (repeat NUL 16 ++ B "ET" ++ [CR; LF; NUL]).
Proof.
  eexists. eexists. eexists. split; [vm_compute; reflexivity|]. split; [vm_compute; reflexivity|]. split; [vm_compute; reflexivity|].
  split; [vm_compute; reflexivity|]. split; [vm_compute; reflexivity|]. vm_compute. reflexivity.
Qed.
Example C43_clean_ex : length pem <= length (unix pem) + 1 /\ length (pem ++ [CR]) <= length (unix (pem ++ [CR])) + 1.
Proof. split; apply Nat.leb_le; vm_compute; reflexivity. Qed.

(** ** C44 *)

(** If no random byte is 13, the key is the 32 bytes drawn, and its length is declared as 32. *)
Theorem C44_drawn_partial : forall d draw out name key,
  Identifier name -> draw 32 = Some key -> length key = 32 -> ~ In CR key -> dk_writable d out = true ->
  exists h m, randomize_key d draw [out; name] = Ok (0%Z, Some (out, h)) /\ read_header name h = Some m /\
    m_length m = 32%Z /\ forall mem, Declared m mem -> initialize m mem = Some (key ++ [NUL]).
Proof.
  intros d draw out name key I R L N W. exists (header name key), (meaning key).
  split; [|split; [now apply header_reads|]].
  - unfold randomize_key, create_header_file. change KEY_LENGTH with 32. now rewrite R, W.
  - cbn [meaning m_length]. rewrite (unix_id key N), L. split; [reflexivity|]. intros mem D.
    rewrite header_initializes by exact D. rewrite kept_eq, (unix_id key N), Nat.ltb_irrefl. reflexivity.
Qed.
Print Assumptions C44_drawn_partial.

(** If some random byte is 13, the declared length is less than 32. *)
Theorem C44_short_refuted : forall d draw out name key,
  Identifier name -> draw 32 = Some key -> length key = 32 -> In CR key -> dk_writable d out = true ->
  exists h m, randomize_key d draw [out; name] = Ok (0%Z, Some (out, h)) /\ read_header name h = Some m /\
    (m_length m < 32)%Z.
Proof.
  intros d draw out name key I R L N W. exists (header name key), (meaning key).
  split; [|split; [now apply header_reads|]].
  - unfold randomize_key, create_header_file. change KEY_LENGTH with 32. now rewrite R, W.
  - cbn [meaning m_length]. pose proof (unix_shorter key N). lia.
Qed.
Print Assumptions C44_short_refuted.

(** In any case the array has 33 bytes, all of them initialized, so that the cipher can read 32. *)
Theorem C44_defined : forall d draw out name key,
  Identifier name -> draw 32 = Some key -> length key = 32 -> dk_writable d out = true ->
  exists h m, randomize_key d draw [out; name] = Ok (0%Z, Some (out, h)) /\ read_header name h = Some m /\
    exists k, length k = 33 /\ forall mem, Declared m mem -> initialize m mem = Some k.
Proof.
  intros d draw out name key I R L W. exists (header name key), (meaning key).
  split; [|split; [now apply header_reads|]].
  - unfold randomize_key, create_header_file. change KEY_LENGTH with 32. now rewrite R, W.
  - exists (kept key ++ [NUL]). split; [rewrite app_length, kept_length, L; reflexivity|].
    intros mem D. now apply header_initializes.
Qed.
Print Assumptions C44_defined.

(** Two draws, one of them with a byte 13. *)
Example C44_ex : length (repeat "k"%char 32) = 32 /\ ~ In CR (repeat "k"%char 32) /\
  length (repeat "k"%char 31 ++ [CR]) = 32 /\ In CR (repeat "k"%char 31 ++ [CR]) /\
  exists m, read_header (B "K") (header (B "K") (repeat "k"%char 31 ++ [CR])) = Some m /\ m_length m = 31%Z.
Proof.
  split; [reflexivity|]. split; [apply BaseProofs.has_byte_false; vm_compute; reflexivity|]. split; [reflexivity|].
  split; [apply in_or_app; right; now left|]. eexists. split; vm_compute; reflexivity.
Qed.

(** ** C56 *)

(** Failures are reported with the exit code 1 and nothing is written, if the key file exists. *)
Theorem C56_refuses_partial : forall d args,
  (forall out file name type, args = [out; file; name; type] ->
     ~ In type [B "TOOL_PUBLIC"; B "TOOL_PRIVATE"; B "LVE_PRIVATE"] \/
     (exists data, dk_file d file = Some data /\ (data = [] \/ dk_readable d file = false \/ dk_writable d out = false))) ->
  obfuscate d args = Ok (1%Z, None).
Proof.
  intros d args H. unfold obfuscate. destruct args as [|out [|file [|name [|type [|]]]]]; try reflexivity.
  destruct (_ || _) eqn:T; [|reflexivity].
  destruct (H _ _ _ _ eq_refl) as [K|(data & F & K)].
  - elim K. apply orb_true_iff in T as [T|T]; [apply orb_true_iff in T as [T|T]|]; apply BaseProofs.beq_true in T as ->.
    + now left.
    + right. now left.
    + right. right. now left.
  - unfold read_file. rewrite F. destruct (dk_readable d file) eqn:Rd.
    + destruct data as [|c data]; [reflexivity|]. cbn [bind]. unfold create_header_file.
      destruct K as [K|[K|K]]; [discriminate|discriminate|]. now rewrite K.
    + reflexivity.
Qed.
Print Assumptions C56_refuses_partial.

(** The message for a key file that does not exist is printed with a character where a string is
    expected. *)
Theorem C56_missing_refuted : forall d out file name type,
  In type [B "TOOL_PUBLIC"; B "TOOL_PRIVATE"; B "LVE_PRIVATE"] -> file <> [] -> dk_file d file = None ->
  obfuscate d [out; file; name; type] = UB OobRead.
Proof.
  intros d out file name type T N F. unfold obfuscate.
  assert (E : beq type (B "TOOL_PUBLIC") || beq type (B "TOOL_PRIVATE") || beq type (B "LVE_PRIVATE") = true).
  { destruct T as [<-|[<-|[<-|[]]]]; reflexivity. }
  rewrite E. unfold read_file. rewrite F. destruct file as [|c f]; [now elim N|]. reflexivity.
Qed.
Print Assumptions C56_missing_refuted.

Example C56_ex : dk_file build_disk (B "keys/c.pem") = None /\
  obfuscate build_disk [B "k.h"; B "keys/a.pem"; B "K"; B "PUBLIC"] = Ok (1%Z, None).
Proof. split; vm_compute; reflexivity. Qed.

(** ** C83 *)

(** randomize_key ends with exit code 0 if and only if it has two arguments, random bytes were drawn and the header can be written; the key
    in the header is then the one that was drawn.  Otherwise the exit code is 1 and nothing is written. *)
Theorem C83_clean : forall d draw args, exists code w, randomize_key d draw args = Ok (code, w) /\
  (code = 0%Z <-> exists out name key, args = [out; name] /\ draw 32 = Some key /\ dk_writable d out = true) /\
  (code <> 0%Z -> code = 1%Z /\ w = None) /\
  (forall out name key, args = [out; name] -> draw 32 = Some key -> Identifier name -> length key = 32 -> code = 0%Z ->
     exists h m, w = Some (out, h) /\ read_header name h = Some m /\
       forall mem, Declared m mem -> exists k, initialize m mem = Some k /\ (~ In CR key -> k = key ++ [NUL])).
Proof.
  intros d draw args.
  assert (F : (forall out name key, args = [out; name] -> draw 32 = Some key -> dk_writable d out = true -> False) -> randomize_key d draw args = Ok (1%Z, None)).
  { intros H. unfold randomize_key. destruct args as [|out [|name [|]]]; try reflexivity. change KEY_LENGTH with 32. destruct (draw 32) as [key|] eqn:E; [|reflexivity].
    unfold create_header_file. destruct (dk_writable d out) eqn:W; [|reflexivity]. now destruct (H out name key eq_refl eq_refl W). }
  assert (N : (forall out name key, args = [out; name] -> draw 32 = Some key -> dk_writable d out = true -> False) ->
    exists code w, randomize_key d draw args = Ok (code, w) /\
      (code = 0%Z <-> exists out name key, args = [out; name] /\ draw 32 = Some key /\ dk_writable d out = true) /\
      (code <> 0%Z -> code = 1%Z /\ w = None) /\
      (forall out name key, args = [out; name] -> draw 32 = Some key -> Identifier name -> length key = 32 -> code = 0%Z ->
         exists h m, w = Some (out, h) /\ read_header name h = Some m /\
           forall mem, Declared m mem -> exists k, initialize m mem = Some k /\ (~ In CR key -> k = key ++ [NUL]))).
  { intros H. exists 1%Z, None. split; [now apply F|]. split; [|split; [now intros _|discriminate]]. split; [discriminate|].
    intros (out & name & key & A & D & W). now destruct (H out name key A D W). }
  destruct args as [|out [|name [|]]]; try (apply N; discriminate).
  destruct (draw 32) as [key|] eqn:E; [|apply N; discriminate]. destruct (dk_writable d out) eqn:W.
  - exists 0%Z, (Some (out, header name key)). split; [|split; [|split]].
    + unfold randomize_key, create_header_file. change KEY_LENGTH with 32. now rewrite E, W.
    + split; [|reflexivity]. intros _. now exists out, name, key.
    + intros H. now destruct H.
    + intros out' name' key' [= <- <-] [= <-] I L _. exists (header name key), (meaning key). split; [reflexivity|]. split; [now apply header_reads|].
      intros mem D. rewrite header_initializes by exact D. eexists. split; [reflexivity|]. intros NC.
      rewrite kept_eq, (unix_id key NC), Nat.ltb_irrefl. reflexivity.
  - apply N. intros out' name' key' [= <- _] _ W'. congruence.
Qed.
Print Assumptions C83_clean.
Example C83_ex : randomize_key build_disk (fun _ => None) [B "k.h"; B "K"] = Ok (1%Z, None) /\ randomize_key build_disk (fun n => Some (repeat (ch 7) n)) [B "k.h"] = Ok (1%Z, None) /\
  match randomize_key build_disk (fun n => Some (repeat (ch 7) n)) [B "k.h"; B "K"] with Ok (code, Some _) => code = 0%Z | _ => False end.
Proof. vm_compute. now repeat split. Qed.
