(** C99: what the debug output shows. *)
From Verif Require Import Base BaseProofs WireModel CryptModel CryptSpec CbcProofs MaskProofs DemaskProofs CryptProofs CryptProps LogModel LogSpec LogProofs LogSameProofs.

(** Answers and encrypted files are the same whatever is written to the log. *)
Theorem C99_results : forall g pr K, (forall disk basedir t reqs, snd (decrypt_all_log g pr K disk basedir t reqs) = decrypt_all pr K disk basedir t reqs) /\
  (forall t fs, snd (encrypt_all_log g pr K t fs) = encrypt_all pr K t fs).
Proof. intros g pr K. split; intros; [apply decrypt_all_erase|apply encrypt_all_erase]. Qed.
Print Assumptions C99_results.

(** A program that was not compiled for debugging writes, for every library, damaged or not, only
    lines with one of three fixed texts and paths that go back to the requested one; nothing if no
    log was opened.  Missing from the full statement: programs compiled for debugging. *)
Theorem C99_lines_partial : forall file opens time pr K disk basedir t reqs,
  Forall (fun l => exists rel enc, In (rel, enc) reqs /\ Line rel l) (fst (decrypt_all_log (fst (log_open false file opens time)) pr K disk basedir t reqs)) /\
  (file = None -> fst (decrypt_all_log (fst (log_open false file opens time)) pr K disk basedir t reqs) = []).
Proof.
  intros file opens time pr K disk basedir t reqs. split; [|intros ->; apply session_off]. destruct file as [f|]; cbn [log_open fst]; [destruct (opens f); cbn [fst]; [apply session_lines|]|]; rewrite session_off; constructor.
Qed.
Print Assumptions C99_lines_partial.

(** In libraries with files of the same names the same requests give the same log: neither keys, nor
    masks, nor contents of files, nor where the library is can be told from it. *)
Theorem C99_same_partial : forall file opens time pr1 pr2 K1 K2 fs1 fs2 basedir1 basedir2 disk1 disk2 moc1 moc2 reqs1 reqs2,
  GoodPrimitives pr1 -> GoodPrimitives pr2 -> length K1 = 32 -> length K2 = 32 -> GoodLibrary pr1 fs1 -> GoodLibrary pr2 fs2 ->
  Installed pr1 K1 fs1 basedir1 disk1 moc1 -> Installed pr2 K2 fs2 basedir2 disk2 moc2 ->
  map (fun f => (n_dir f, n_name f)) fs1 = map (fun f => (n_dir f, n_name f)) fs2 -> map (fun f => (n_dir f, n_name f)) reqs1 = map (fun f => (n_dir f, n_name f)) reqs2 ->
  (forall f, In f reqs1 -> In f fs1 /\ Readable fs1 f) -> (forall f, In f reqs2 -> In f fs2 /\ Readable fs2 f) ->
  let g := fst (log_open false file opens time) in
  fst (decrypt_all_log g pr1 K1 disk1 basedir1 [] (map (fun f => (moc_path f, moc1 f)) reqs1)) =
  fst (decrypt_all_log g pr2 K2 disk2 basedir2 [] (map (fun f => (moc_path f, moc2 f)) reqs2)).
Proof.
  intros file opens time pr1 pr2 K1 K2 fs1 fs2 basedir1 basedir2 disk1 disk2 moc1 moc2 reqs1 reqs2 G1 G2 L1 L2 GL1 GL2 I1 I2 En Er R1 R2. cbv zeta.
  destruct file as [f|]; cbn [log_open fst]; [destruct (opens f); cbn [fst]|]; [|now rewrite !session_off..]. exact (sessions_alike pr1 pr2 K1 K2 fs1 fs2 basedir1 basedir2 disk1 disk2 moc1 moc2 reqs1 reqs2 G1 G2 L1 L2 GL1 GL2 I1 I2 En Er R1 R2).
Qed.
Print Assumptions C99_same_partial.

(** The same for encryption, for every list of files: also for those that cannot be encrypted. *)
Theorem C99_packaging_partial : forall pr1 pr2 K1 K2 fs1 fs2, GoodPrimitives pr1 -> GoodPrimitives pr2 -> length K1 = 32 -> length K2 = 32 -> map f_rel fs1 = map f_rel fs2 ->
  Forall (fun f => length (f_iv f) = 16 /\ length (f_mask f) = p_len pr1) fs1 -> Forall (fun f => length (f_iv f) = 16 /\ length (f_mask f) = p_len pr2) fs2 ->
  fst (encrypt_all_log Release pr1 K1 [] fs1) = fst (encrypt_all_log Release pr2 K2 [] fs2).
Proof. intros pr1 pr2 K1 K2 fs1 fs2 G1 G2 L1 L2 E F1 F2. now apply packaging_alike. Qed.
Print Assumptions C99_packaging_partial.

(** Two libraries with the same names. *)
Definition other_key : bytes := repeat (ch 200) 32.
Definition other_library : list entry := [file [] (B "package.mo") (B "secret") 21; file [] (B "M.mo") [] 22; file [B "Sub"] (B "package.mo") (B "x") 23; file [B "Sub"] (B "N.mo") (B "y") 24;
  file [B "Sub"; B "Deep"] (B "package.mo") (B "z") 25; file [B "Sub"; B "Deep"] (B "O.mo") (B "zz") 26].
Lemma other_good : GoodLibrary toy other_library.
Proof.
  split.
  - repeat (apply Forall_cons; [apply good_file; try reflexivity; try (apply name_check; reflexivity); repeat (apply Forall_cons; [apply name_check; reflexivity|]); apply Forall_nil|]). apply Forall_nil.
  - cbn [map other_library n_dir n_name file].
    repeat constructor; cbn [In]; intros H; repeat destruct H as [H|H]; try discriminate H; exact H.
Qed.
Definition other_outs : list bytes := match encrypt_all toy other_key [] (map source_of other_library) with Ok (Some o) => o | _ => [] end.
Lemma other_installed : exists moc, Installed toy other_key other_library (B "/home/u/lib") (disk_of (B "/home/u/lib") other_library other_outs) moc /\
  forall f out, In (f, out) (combine other_library other_outs) -> moc f = out.
Proof.
  apply disk_of_installed; [exact toy_good|reflexivity|exact other_good|intros pre f post E P g Ig; exact (package_first_ok other_library [] eq_refl pre f post E P g Ig)|vm_compute; reflexivity|].
  intros f If. cbn [other_library In] in If. repeat destruct If as [<-|If]; [..|contradiction]; apply Nat.leb_le; reflexivity.
Qed.
Lemma readable_all lib f : (forall p, In p lib -> IsPackage p -> n_data p <> []) /\ (exists p, In p lib /\ IsPackage p /\ n_dir p = n_dir f) -> Readable lib f.
Proof. intros [H (p & Ip & P & E)]. split; [exists (n_mask p), p; auto|]. intros q Iq Q _. right. now apply H. Qed.
Example C99_ex : GoodLibrary toy toy_library /\ GoodLibrary toy other_library /\ (exists moc, Installed toy toy_key toy_library (B "/lib") (disk_of (B "/lib") toy_library toy_outs) moc) /\
  (exists moc, Installed toy other_key other_library (B "/home/u/lib") (disk_of (B "/home/u/lib") other_library other_outs) moc) /\
  map (fun f => (n_dir f, n_name f)) toy_library = map (fun f => (n_dir f, n_name f)) other_library /\
  (forall f, In f toy_library -> Readable toy_library f) /\ (forall f, In f other_library -> Readable other_library f) /\
  Forall (fun f => length (f_iv f) = 16 /\ length (f_mask f) = p_len toy) (map source_of toy_library) /\ Forall (fun f => length (f_iv f) = 16 /\ length (f_mask f) = p_len toy) (map source_of other_library) /\
  concat (fst (decrypt_all_log (fst (log_open false (Some (B "/tmp/log")) (fun _ => true) (B "now"))) toy toy_key (disk_of (B "/lib") toy_library toy_outs) (B "/lib") [] [(moc_path sub_model, nth 3 toy_outs [])])) =
    B "mlle_demask_key: Sub/N.moc" ++ [LF] ++ B "mlle_demask_key: Sub/package.moc" ++ [LF] ++ B "mlle_demask_key: Sub" ++ [LF] ++ B "mlle_demask_key: package.moc" ++ [LF] ++
    B "mlle_store_keymask: stored key_mask for package.moc " ++ [LF] ++ B "mlle_demask_key: applied mask for Sub" ++ [LF] ++ B "mlle_store_keymask: stored key_mask for Sub/package.moc " ++ [LF] ++
    B "mlle_demask_key: applied mask for Sub/N.moc" ++ [LF].
Proof.
  split; [exact toy_library_good|]. split; [exact other_good|]. split; [destruct toy_installed as (moc & I & _); now exists moc|]. split; [destruct other_installed as (moc & I & _); now exists moc|].
  split; [reflexivity|]. split; [|split; [|split; [|split; [|vm_compute; reflexivity]]]].
  - intros f If. apply readable_all. split.
    + intros p Ip P. cbn [toy_library In] in Ip. repeat destruct Ip as [<-|Ip]; try contradiction; try discriminate P; discriminate.
    + cbn [toy_library In] in If. repeat destruct If as [<-|If]; try contradiction; [exists top_package|exists top_package|exists sub_package|exists sub_package|exists deep_package|exists deep_package];
        (split; [cbn [toy_library In]; tauto|split; reflexivity]).
  - intros f If. apply readable_all. split.
    + intros p Ip P. cbn [other_library In] in Ip. repeat destruct Ip as [<-|Ip]; try contradiction; try discriminate P; discriminate.
    + cbn [other_library In] in If.
      repeat destruct If as [<-|If]; try contradiction; [exists (nth 0 other_library top_package)|exists (nth 0 other_library top_package)|exists (nth 2 other_library top_package)|exists (nth 2 other_library top_package)|exists (nth 4 other_library top_package)|exists (nth 4 other_library top_package)];
        (split; [cbn [other_library In nth]; tauto|split; reflexivity]).
  - repeat (apply Forall_cons; [split; reflexivity|]). apply Forall_nil.
  - repeat (apply Forall_cons; [split; reflexivity|]). apply Forall_nil.
Qed.

(** ** Programs compiled for debugging *)

(** An LVE compiled for debugging writes the product key into the file that the user names in the
    environment, at the first request, whatever is requested and before anything is checked. *)
Theorem C99_debug_refuted : forall file opens time pr K disk basedir t rel enc reqs, opens file = true -> 0 < p_len pr -> p_len pr <= length K ->
  exists line, In line (fst (decrypt_all_log (fst (log_open true (Some file) opens time)) pr K disk basedir t ((rel, enc) :: reqs))) /\ read_key line = Some (firstn (p_len pr) K).
Proof.
  intros file opens time pr K disk basedir t rel enc reqs Ho P L. cbn [log_open]. rewrite Ho. cbn [fst]. destruct (decrypt_shows pr K disk basedir t rel enc P L) as (line & I & R). exists line. split; [|exact R].
  cbn [decrypt_all_log]. unfold lbind at 1. destruct (snd (cr_decrypt_log _ _ _ _ _ _ _ _)); cbn [fst]; [|exact I..]. apply in_app_iff. now left.
Qed.
Print Assumptions C99_debug_refuted.
(** The programs that encrypt write it to stderr. *)
Theorem C99_debug_packaging_refuted : forall pr K t f fs, 0 < p_len pr -> p_len pr <= length K ->
  exists line, In line (fst (encrypt_all_log Debug pr K t (f :: fs))) /\ read_key line = Some (firstn (p_len pr) K).
Proof.
  intros pr K t f fs P L. destruct (encrypt_shows pr K t (f_rel f) (f_iv f) (f_mask f) (f_data f) P L) as (line & I & R). exists line. split; [|exact R].
  cbn [encrypt_all_log]. unfold lbind at 1. destruct (snd (cr_encrypt_log _ _ _ _ _ _ _ _)); cbn [fst]; [|exact I..]. apply in_app_iff. now left.
Qed.
Print Assumptions C99_debug_packaging_refuted.
(** A file that is not there: the answer is a failure, the log has the key. *)
Example C99_debug_ex : let key := B "0123456789abcdefghijklmnopqrstuv" in
  0 < p_len toy /\ p_len toy <= length key /\
  nth 1 (fst (decrypt_all_log Debug toy key (fun _ => None) (B "/lib") [] [(B "x.moc", B "this is not an encrypted file but long enough")])) [] =
    B "key: 30:31:32:33:34:35:36:37:38:39:61:62:63:64:65:66:67:68:69:6A:6B:6C:6D:6E:6F:70:71:72:73:74" ++ [LF] /\
  snd (decrypt_all_log Debug toy key (fun _ => None) (B "/lib") [] [(B "x.moc", B "this is not an encrypted file but long enough")]) = Ok [None].
Proof. cbv zeta. split; [cbn; lia|]. split; [cbn; lia|]. split; vm_compute; reflexivity. Qed.
