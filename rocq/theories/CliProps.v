(** C57-C61: the programs that encrypt and decrypt single files. *)
From Verif Require Import Base BaseProofs WireModel CryptModel CryptSpec CbcProofs MaskProofs DemaskProofs CryptProofs CryptProps CliModel CliSpec CliMasks CliProofs CliPrograms CliDecrypt.

(** ** C57 *)

(** Encrypting a library file by file, package files first, each file in a process of its own: all runs
    succeed, the results are those of encrypting the whole library at once, and nothing else on the disk
    changes.  Not covered: package files without contents above other files (as C31); a package file that
    cannot be read (below). *)
Theorem C57_file_by_file_partial : forall pr K fs basedir src o disk,
  GoodPrimitives pr -> length K = 32 -> GoodLibrary pr fs -> PackageFirst fs -> FilledAbove fs ->
  (forall f, In f fs -> length basedir + length (path_of (n_dir f) (n_name f)) <= 4000) ->
  (forall f, In f fs -> disk (src f) = Some (n_data f)) ->
  (forall f g, In f fs -> In g fs -> src f <> under basedir g) ->
  (forall f, In f fs -> RunOf (o f) basedir f) ->
  (forall d, Forall Name d -> disk (basedir ++ [SLASH] ++ path_of d (B "package.moc")) = None) ->
  exists disk' outs, Runs pr K disk (map (fun f => (o f, [src f; moc_path f; basedir])) fs) disk' /\
    encrypt_all pr K [] (map source_of fs) = Ok (Some outs) /\ length outs = length fs /\
    (forall f out, In (f, out) (combine fs outs) -> disk' (under basedir f) = Some out) /\
    (forall q, (forall f, In f fs -> q <> under basedir f) -> disk' q = disk q) /\
    exists moc, Installed pr K fs basedir disk' moc.
Proof. exact file_by_file. Qed.
Print Assumptions C57_file_by_file_partial.

(** The disk with the cleartext of the toy library, and the runs. *)
Definition src_of (f : entry) : bytes := B "/src/" ++ path_of (n_dir f) (n_name f).
Definition clear_disk (p : bytes) : option bytes :=
  match find (fun f => beq (src_of f) p) toy_library with Some f => Some (n_data f) | None => None end.
Definition run_of (f : entry) : externals :=
  {| o_writable := fun _ => true; o_iv := n_iv f; o_mask := n_mask f; o_junk := repeat (ch 9) 32 |}.
Example C57_ex :
  GoodLibrary toy toy_library /\ PackageFirst toy_library /\ FilledAbove toy_library /\
  (forall f, In f toy_library -> clear_disk (src_of f) = Some (n_data f)) /\
  (forall f g, In f toy_library -> In g toy_library -> src_of f <> under (B "/lib") g) /\
  (forall f, In f toy_library -> RunOf (run_of f) (B "/lib") f) /\
  (forall d, Forall Name d -> clear_disk (B "/lib" ++ [SLASH] ++ path_of d (B "package.moc")) = None).
Proof.
  split; [exact toy_library_good|]. split; [exact toy_library_order|]. split.
  { intros p g Ip P Ig N A. cbn [toy_library In] in Ip. destruct Ip as [<-|[<-|[<-|[<-|[<-|[<-|[]]]]]]]; discriminate. }
  split. { intros f I. cbn [toy_library In] in I. destruct I as [<-|[<-|[<-|[<-|[<-|[<-|[]]]]]]]; reflexivity. }
  split. { intros f g _ _ E. apply (f_equal (fun l => nth 1 l NUL)) in E. discriminate. }
  split. { intros f I. split; [reflexivity|]. split; [reflexivity|]. split; reflexivity. }
  intros d _. unfold clear_disk. destruct (find _ _) as [f|] eqn:F; [exfalso|reflexivity].
  apply find_some in F. destruct F as [_ E]. apply beq_true in E. apply (f_equal (fun l => nth 1 l NUL)) in E. discriminate.
Qed.

(** If the package file of the directory is damaged, the next file is encrypted all the same, as if there were no package
    file, and the program exits with 0. *)
Theorem C57_damaged_refuted : forall pr K o f basedir disk clear c,
  GoodPrimitives pr -> length K = 32 -> GoodEntry pr f -> n_dir f = [] -> ~ IsPackage f -> length basedir + length (n_name f) <= 4000 ->
  disk (basedir ++ B "/package.moc") = Some c -> 15 <= length c -> (forall data, ~ Authentic pr K c data) ->
  RunOf o basedir f -> disk clear = Some (n_data f) -> clear <> under basedir f ->
  exists out, encrypt_file pr K o disk [clear; moc_path f; basedir] = Ok (0%Z, write disk (under basedir f) (Some out)) /\
    EncryptedAs pr K [f] f out.
Proof. exact damaged. Qed.
Print Assumptions C57_damaged_refuted.

Example C57_damaged_ex : (* forty zeros instead of the package file *)
  let disk := write (write clear_disk (B "/lib/package.moc") (Some (repeat NUL 40))) (B "/m.mo") (Some (n_data top_model)) in
  (forall data, ~ Authentic toy toy_key (repeat NUL 40) data) /\
  exists out, encrypt_file toy toy_key (run_of top_model) disk [B "/m.mo"; B "M.moc"; B "/lib"] = Ok (0%Z, write disk (B "/lib/M.moc") (Some out)).
Proof.
  split.
  - intros data (iv & ct & L & E). pose proof (proj1 (proj2 toy_good) (firstn (p_len toy) toy_key) (iv ++ data)) as Lm; fold (Mac toy toy_key (iv ++ data)) in Lm.
    apply (f_equal (@length _)) in E. rewrite !app_length, repeat_length in E. lia.
  - eexists. vm_compute. reflexivity.
Qed.

(** ** C58 *)

(** Only the output changes; unless the exit code is 0, there is no output afterwards or nothing has changed.  Without base
    directory the output is the given name without a final "c". *)
Theorem C58_only_output_partial : forall pr K o disk clear name r code disk',
  encrypt_file pr K o disk (clear :: name :: r) = Ok (code, disk') ->
  exists dest, (dest = match r with [d] => snprintf 4096 (d ++ [SLASH] ++ name) | _ => if Ascii.eqb (last name NUL) "c" then removelast name else name end) /\
  (forall q, q <> dest -> disk' q = disk q) /\
  (code = 0%Z \/ disk' dest = None \/ disk' = disk).
Proof. exact encrypt_frame. Qed.
Print Assumptions C58_only_output_partial.

(** Without base directory, a file whose new name does not end in "c" is encrypted under this name, as a
    library of its own. *)
Theorem C58_plain_name_partial : forall pr K o f name clear disk,
  GoodPrimitives pr -> length K = 32 -> GoodEntry pr f -> n_dir f = [] ->
  LastPart name (n_name f) -> last_byte name <> Some "c"%char -> length name < 4096 ->
  o_iv o = n_iv f -> o_mask o = n_mask f -> o_writable o name = true -> disk clear = Some (n_data f) -> clear <> name ->
  exists out, encrypt_file pr K o disk [clear; name] = Ok (0%Z, write disk name (Some out)) /\ EncryptedAs pr K [f] f out.
Proof. exact alone_plain. Qed.
Print Assumptions C58_plain_name_partial.

(** The usual name for the result, that of the cleartext with "c" added: the cleartext is replaced by something that does not
    depend on it, the file with the given name is not written, and the program exits with 0. *)
Theorem C58_overwritten_refuted : forall pr K o p,
  GoodPrimitives pr -> length K = 32 -> length (o_iv o) = 16 -> length (o_mask o) = p_len pr -> length p + 1 < 4096 -> o_writable o p = true ->
  exists out rest, Sealed pr K (o_iv o) rest out /\ (rest = [] \/ rest = o_mask o) /\
  forall disk data, disk p = Some data -> encrypt_file pr K o disk [p; p ++ B "c"] = Ok (0%Z, write disk p (Some out)).
Proof. exact overwritten. Qed.
Print Assumptions C58_overwritten_refuted.

Example C58_ex :
  (exists out, encrypt_file toy toy_key (run_of top_model) clear_disk [B "/src/M.mo"; B "/out/M.enc"] = Ok (0%Z, write clear_disk (B "/out/M.en") (Some out))) /\
  (exists out, encrypt_file toy toy_key (run_of top_model) clear_disk [B "/src/M.mo"; B "/out/M.bin"] = Ok (0%Z, write clear_disk (B "/out/M.bin") (Some out))) /\
  (exists out, encrypt_file toy toy_key (run_of top_model) clear_disk [B "/src/M.mo"; B "/src/M.moc"] = Ok (0%Z, write clear_disk (B "/src/M.mo") (Some out))) /\
  LastPart (B "/out/M.bin") (B "M.bin").
Proof.
  split; [eexists; vm_compute; reflexivity|]. split; [eexists; vm_compute; reflexivity|]. split; [eexists; vm_compute; reflexivity|].
  exists (B "/out/"). split; [reflexivity|]. split; [apply name_check; reflexivity|]. right. exists (B "/out"), SLASH. split; [reflexivity|now left].
Qed.

(** ** C59 *)

(** Only the output changes; it is there exactly if the exit code is 0, unless it could not be opened and nothing has changed. *)
Theorem C59_all_or_nothing : forall pr K o disk dir name clear r code disk',
  decrypt_file pr K o disk (dir :: name :: clear :: r) = Ok (code, disk') ->
  (forall q, q <> clear -> disk' q = disk q) /\
  ((code = 0%Z /\ exists data, disk' clear = Some data) \/ (code = 1%Z /\ (disk' clear = None \/ disk' = disk))).
Proof. exact decrypt_frame. Qed.
Print Assumptions C59_all_or_nothing.

(** A file of a package, whatever it contains: what is written is authentic under the file's key, or the program fails. *)
Theorem C59_authentic : forall pr K o fs basedir disk moc f clear file,
  GoodPrimitives pr -> length K = 32 -> GoodLibrary pr fs -> Installed pr K fs basedir disk moc ->
  GoodEntry pr f -> ~ IsPackage f -> InPackage fs f ->
  (forall p, In p fs -> IsPackage p -> Above (n_dir p) (n_dir f) -> n_data p <> []) ->
  length basedir + length (path_of (n_dir f) (n_name f)) <= 4000 ->
  Elsewhere fs basedir clear -> clear <> under basedir f -> o_writable o clear = true ->
  disk (under basedir f) = Some file -> (zlen file <= 10 * 1024 * 1024)%Z ->
  exists key, FileKey pr fs K f key /\
  (decrypt_file pr K o disk [basedir; moc_path f; clear] = Ok (1%Z, write disk clear None) \/
   exists data, Authentic pr key file data /\
     decrypt_file pr K o disk [basedir; moc_path f; clear] = Ok (0%Z, write disk clear (Some data))).
Proof.
  intros pr K o fs basedir disk moc f clear file G LK GL Ins Ge P InP Fi Fit El Nu Wr D Sz.
  pose proof (decrypt_file_any pr K o fs basedir disk moc f clear file G LK GL Ins Ge P InP Fi Fit El Nu Wr D) as X.
  rewrite (buffered_id file Sz) in X. exact X.
Qed.
Print Assumptions C59_authentic.

Definition lib_disk : store := disk_of (B "/lib") toy_library toy_outs.
Definition any_run : externals := {| o_writable := fun _ => true; o_iv := []; o_mask := []; o_junk := [] |}.
Lemma toy_elsewhere : Elsewhere toy_library (B "/lib") (B "/M.mo").
Proof.
  split.
  - intros g _ E. apply (f_equal (fun l => nth 1 l NUL)) in E. discriminate.
  - intros d _ E. apply (f_equal (fun l => nth 1 l NUL)) in E. discriminate.
Qed.
Example C59_ex :
  (exists moc, Installed toy toy_key toy_library (B "/lib") lib_disk moc) /\ Elsewhere toy_library (B "/lib") (B "/M.mo") /\
  InPackage toy_library top_model /\
  decrypt_file toy toy_key any_run lib_disk [B "/lib"; B "M.moc"; B "/M.mo"] = Ok (0%Z, write lib_disk (B "/M.mo") (Some (n_data top_model))) /\
  (let cut := write lib_disk (B "/lib/M.moc") (Some (B "short")) in
   decrypt_file toy toy_key any_run cut [B "/lib"; B "M.moc"; B "/M.mo"] = Ok (1%Z, write cut (B "/M.mo") None)).
Proof.
  split; [destruct toy_installed as (moc & H & _); now exists moc|]. split; [exact toy_elsewhere|].
  split; [exists (n_mask top_package); apply (has_mask toy_library top_package); [cbn; tauto|reflexivity]|].
  split; vm_compute; reflexivity.
Qed.

(** ** C60 *)

(** Files of an installed library are read back with decrypt_file, if they are small enough. *)
Theorem C60_round_trip_partial : forall pr K o fs basedir disk moc f clear,
  GoodPrimitives pr -> length K = 32 -> GoodLibrary pr fs -> Installed pr K fs basedir disk moc -> In f fs -> Readable fs f ->
  Elsewhere fs basedir clear -> o_writable o clear = true -> (zlen (n_data f) + 96 <= 10 * 1024 * 1024)%Z ->
  decrypt_file pr K o disk [basedir; moc_path f; clear] = Ok (0%Z, write disk clear (Some (n_data f))).
Proof. exact decrypt_file_installed. Qed.
Print Assumptions C60_round_trip_partial.

(** An encrypted file of more than 10 MiB is cut at this size; it cannot be decrypted. *)
Theorem C60_large_refuted : forall pr K o fs basedir disk moc f clear key,
  GoodPrimitives pr -> length K = 32 -> GoodLibrary pr fs -> Installed pr K fs basedir disk moc -> In f fs -> ~ IsPackage f -> Readable fs f ->
  Elsewhere fs basedir clear -> o_writable o clear = true ->
  (10 * 1024 * 1024 < zlen (moc f))%Z -> FileKey pr fs K f key ->
  (forall data, ~ Authentic pr key (firstn (Z.to_nat (10 * 1024 * 1024)) (moc f)) data) ->
  decrypt_file pr K o disk [basedir; moc_path f; clear] = Ok (1%Z, write disk clear None).
Proof.
  intros pr K o fs basedir disk moc f clear key G LK GL Ins If P [InP Rd] El Wr Sz FK No.
  assert (Ge : GoodEntry pr f) by (pose proof (proj1 GL) as GF; rewrite Forall_forall in GF; now apply GF).
  destruct (decrypt_file_any pr K o fs basedir disk moc f clear (moc f) G LK GL Ins Ge P InP) as (key' & FK' & [E|(data & A & _)]).
  - intros p Ip Pp Ap. destruct (Rd p Ip Pp Ap) as [->|N]; [contradiction|exact N].
  - exact (proj1 Ins f If).
  - exact El.
  - exact (proj1 El f If).
  - exact Wr.
  - exact (proj2 (proj1 (proj2 Ins) f If)).
  - exact E.
  - exfalso. rewrite (filekey_unique fs K f key' key GL FK' FK), buffered_large in A by exact Sz. exact (No data A).
Qed.
Print Assumptions C60_large_refuted.

(** A library with a file of 10 MiB, for primitives whose MAC never occurs in the ciphertext of this file. *)
Definition flat : primitives := {|
  p_enc := fun k b => xor b (firstn 16 k);
  p_dec := fun k b => xor b (firstn 16 k);
  p_mac := fun _ _ => repeat "A"%char 32;
  p_len := 32 |}.
Lemma flat_good : GoodPrimitives flat.
Proof. split; [exact (proj1 toy_good)|]. split; [intros k d; apply repeat_length|apply Nat.leb_le; reflexivity]. Qed.
Definition flat_package := {| n_dir := []; n_name := B "package.mo"; n_data := B "package P end P;"; n_iv := repeat (ch 1) 16; n_mask := repeat (ch 2) 32 |}.
Definition big (n : nat) := {| n_dir := []; n_name := B "Big.mo"; n_data := repeat NUL n; n_iv := repeat (ch 1) 16; n_mask := repeat (ch 3) 32 |}.
Definition big_library (n : nat) := [flat_package; big n].

Definition low (c : byte) : Prop := match c with Ascii _ _ _ _ _ _ b _ => b = false end.
Lemma low_xor a b : Forall low a -> Forall low b -> Forall low (xor a b).
Proof.
  revert b. induction a as [|x a IH]; intros [|y b] Fa Fb; cbn [xor]; try apply Forall_nil; [exact Fa|].
  apply Forall_cons_iff in Fa. apply Forall_cons_iff in Fb. destruct Fa as [Lx Fa], Fb as [Ly Fb]. apply Forall_cons; [|now apply IH].
  destruct x, y. cbn [low bxor] in *. subst. reflexivity.
Qed.
Lemma low_repeat c n : low c -> Forall low (repeat c n).
Proof. intros L. induction n; [apply Forall_nil|]. now apply Forall_cons. Qed.
Lemma low_check l : forallb (fun c => match c with Ascii _ _ _ _ _ _ b _ => negb b end) l = true -> Forall low l.
Proof.
  intros H. rewrite forallb_forall in H. apply Forall_forall. intros c Ic. specialize (H c Ic). destruct c as [? ? ? ? ? ? [] ?]; [discriminate H|reflexivity].
Qed.
Lemma low_firstn n l : Forall low l -> Forall low (firstn n l).
Proof. revert n. induction l as [|x l IH]; intros [|n] F; cbn [firstn]; try apply Forall_nil. apply Forall_cons_iff in F. apply Forall_cons; [tauto|apply IH; tauto]. Qed.
Lemma low_skipn n l : Forall low l -> Forall low (skipn n l).
Proof. revert n. induction l as [|x l IH]; intros [|n] F; cbn [skipn]; auto. apply Forall_cons_iff in F. apply IH. tauto. Qed.
Lemma low_cbc key chain bs cs : Cbc flat key chain bs cs -> Forall low key -> Forall low chain -> Forall low (concat bs) -> Forall low (concat cs).
Proof.
  intros C. induction C as [chain|chain b bs cs C IH]; intros Fk Fc Fb; [apply Forall_nil|].
  cbn [concat] in *. apply Forall_app in Fb. destruct Fb as [Fb Fbs].
  assert (L : Forall low (p_enc flat key (xor b chain))) by (cbn [flat p_enc]; apply low_xor; [now apply low_xor|now apply low_firstn]).
  apply Forall_app. split; [exact L|]. now apply IH.
Qed.
Lemma low_pad k : k <= 16 -> low (ch k).
Proof. intros L. do 17 (destruct k as [|k]; [reflexivity|]). lia. Qed.

Lemma big_good n : (Z.of_nat n <= 10 * 1024 * 1024)%Z -> GoodLibrary flat (big_library n).
Proof.
  intros Ln. split.
  - apply Forall_cons; [|apply Forall_cons; [|apply Forall_nil]].
    + split; [apply Forall_nil|]. split; [apply name_check; reflexivity|]. split; [apply Forall_nil|]. split; [reflexivity|].
      split; [apply Nat.leb_le; reflexivity|]. split; [reflexivity|]. split; reflexivity.
    + split; [apply Forall_nil|]. split; [apply name_check; reflexivity|]. split; [apply Forall_nil|]. split; [discriminate|].
      split; [apply Nat.leb_le; reflexivity|]. split; [reflexivity|]. split; [reflexivity|]. cbn [n_data big]. unfold zlen. rewrite repeat_length. lia.
  - cbn [big_library map n_dir n_name flat_package big]. constructor; [intros [E|[]]; discriminate|]. constructor; [intros []|constructor].
Qed.
Lemma big_order n : PackageFirst (big_library n).
Proof.
  intros pre f post E P g Ig. destruct pre as [|a pre]; [contradiction|]. exfalso.
  unfold big_library in E. apply (f_equal (@tl _)) in E. cbn [tl app] in E.
  destruct pre as [|b pre].
  - apply (f_equal (fun l => hd flat_package l)) in E. cbn [hd app] in E. subst f. discriminate.
  - apply (f_equal (@tl _)) in E. cbn [tl app] in E. destruct pre; discriminate.
Qed.
Lemma big_cut n : (Z.of_nat n <= 10 * 1024 * 1024)%Z -> exists disk moc key,
  GoodPrimitives flat /\ GoodLibrary flat (big_library n) /\ Installed flat toy_key (big_library n) (B "/lib") disk moc /\
  Readable (big_library n) (big n) /\ (Z.of_nat n < zlen (moc (big n)))%Z /\ FileKey flat (big_library n) toy_key (big n) key /\
  (forall data, ~ Authentic flat key (firstn n (moc (big n))) data).
Proof.
  intros Ln. pose proof (big_good n Ln) as BG. pose proof (big_order n) as BO.
  destruct (encrypt_library flat toy_key (big_library n) flat_good eq_refl BG BO) as (outs & E & _).
  destruct (disk_of_installed flat toy_key (B "/lib") (big_library n) outs flat_good eq_refl BG BO E) as (moc & Ins & _).
  { intros f [<-|[<-|[]]]; apply Nat.leb_le; reflexivity. }
  assert (Np : ~ IsPackage (big n)) by discriminate.
  destruct (proj1 (proj2 Ins) (big n) (or_intror (or_introl eq_refl))) as [(key & data & FK & Pay & Se) _].
  assert (Ed : data = repeat NUL n) by (destruct Pay as [_|P]; [reflexivity|contradiction]). subst data.
  assert (Ek : key = xor toy_key (repeat (ch 2) 32)).
  { apply (filekey_unique (pr := flat) (big_library n) toy_key (big n)); [exact BG|exact FK|]. apply (K_ordinary (pr := flat) (big_library n) toy_key (big n) (repeat (ch 2) 32) Np).
    apply Near_here. exists flat_package. split; [now left|]. split; [reflexivity|]. now split. }
  assert (Lk : Forall low key) by (rewrite Ek; apply low_xor; apply low_check; reflexivity).
  assert (Lk32 : length key = 32) by (rewrite Ek; reflexivity).
  exists (disk_of (B "/lib") (big_library n) outs), moc, key.
  split; [exact flat_good|]. split; [exact BG|]. split; [exact Ins|]. split.
  { split; [exists (repeat (ch 2) 32); exists flat_package; split; [now left|]; split; [reflexivity|]; now split|].
    intros p [<-|[<-|[]]] P _; [right; discriminate|contradiction]. }
  destruct (sealed_parts flat key (n_iv (big n)) (repeat NUL n) (moc (big n)) flat_good Lk32 eq_refl Se) as (ct & Em & _ & Lc).
  rewrite repeat_length in Lc.
  assert (Lct : Forall low (n_iv (big n) ++ ct)).
  { destruct Se as (bs & cs & (k & Hk & Eb & _) & C & Eo).
    assert (ct = concat cs) as ->.
    { rewrite Em in Eo. apply app_inv_head in Eo. now apply app_inv_tail in Eo. }
    apply Forall_app. split; [apply low_repeat; reflexivity|].
    apply (low_cbc key (n_iv (big n)) bs cs C Lk); [apply low_repeat; reflexivity|]. rewrite Eb. apply Forall_app.
    split; [apply low_repeat; reflexivity|apply low_repeat, low_pad; lia]. }
  split.
  { rewrite Em. unfold zlen. rewrite !app_length. cbn [n_iv big]. rewrite repeat_length. lia. }
  split; [exact FK|]. intros data A.
  apply (authentic_mac flat key _ data flat_good) in A. unfold Mac in A. cbn [p_mac flat] in A.
  assert (Fl : Forall low (firstn n (moc (big n)))).
  { rewrite Em, app_assoc, firstn_app. apply Forall_app. split; [now apply low_firstn|].
    replace (n - length (n_iv (big n) ++ ct)) with 0 by (rewrite app_length; lia). apply Forall_nil. }
  apply (low_skipn (length (firstn n (moc (big n))) - 32)) in Fl. rewrite <- A in Fl.
  change (repeat "A"%char 32) with ("A"%char :: repeat "A"%char 31) in Fl. apply Forall_cons_iff in Fl. destruct Fl as [X _]. discriminate X.
Qed.
Example C60_ex : exists n disk moc key,
  GoodPrimitives flat /\ GoodLibrary flat (big_library n) /\ Installed flat toy_key (big_library n) (B "/lib") disk moc /\
  Readable (big_library n) (big n) /\ (10 * 1024 * 1024 < zlen (moc (big n)))%Z /\ FileKey flat (big_library n) toy_key (big n) key /\
  (forall data, ~ Authentic flat key (firstn (Z.to_nat (10 * 1024 * 1024)) (moc (big n))) data).
Proof.
  destruct (Z_of_nat_complete (10 * 1024 * 1024)) as [n En]; [discriminate|]. exists n. rewrite En, Nat2Z.id.
  apply big_cut. rewrite En. apply Z.le_refl.
Qed.

(** ** C61 *)

(** Encrypting a file that is not a package file again, with other contents, keeps the library installed; the other files are as
    before. *)
Theorem C61_again_partial : forall pr K o pre f f' post basedir disk moc clear,
  GoodPrimitives pr -> length K = 32 -> GoodLibrary pr (pre ++ f :: post) -> Installed pr K (pre ++ f :: post) basedir disk moc ->
  ~ IsPackage f -> GoodEntry pr f' -> n_dir f' = n_dir f -> n_name f' = n_name f ->
  (forall p, In p (pre ++ f :: post) -> IsPackage p -> Above (n_dir p) (n_dir f) -> n_data p <> []) ->
  RunOf o basedir f' -> disk clear = Some (n_data f') -> clear <> under basedir f' ->
  exists out moc', encrypt_file pr K o disk [clear; moc_path f'; basedir] = Ok (0%Z, write disk (under basedir f') (Some out)) /\
    Installed pr K (pre ++ f' :: post) basedir (write disk (under basedir f') (Some out)) moc'.
Proof.
  intros pr K o pre f f' post basedir disk moc clear G LK GL Ins P Ge Ed En Fi (Iv & Mk & Lj & Wr) D Nc.
  assert (GL' : GoodLibrary pr (pre ++ f' :: post)).
  { destruct GL as [F N]. split.
    - apply Forall_app in F. destruct F as [F1 F2]. apply Forall_cons_iff in F2. apply Forall_app. split; [exact F1|]. apply Forall_cons; tauto.
    - rewrite map_app in N |- *. cbn [map] in N |- *. now rewrite Ed, En. }
  destruct (encrypt_one pr K o (pre ++ f :: post) (pre ++ f' :: post) basedir disk moc f' clear G LK GL GL' Ins
              (updated_replace pre f f' post P Ed En)) as (out & moc' & E & _ & I); try assumption.
  - rewrite Ed, En. apply (proj1 Ins). apply in_app_iff. right. now left.
  - intros p Ip Pp A. rewrite Ed in A. exact (Fi p Ip Pp A).
  - now exists out, moc'.
Qed.
Print Assumptions C61_again_partial.

(** Encrypting the package file at the top again succeeds, and the files next to it can no longer be decrypted. *)
Theorem C61_package_refuted : forall pr K o fs basedir disk moc p p' clear g o2 clear2,
  GoodPrimitives pr -> length K = 32 -> GoodLibrary pr fs -> Installed pr K fs basedir disk moc ->
  In p fs -> IsPackage p -> n_dir p = [] -> GoodEntry pr p' -> IsPackage p' -> n_dir p' = [] -> n_data p' <> [] ->
  RunOf o basedir p' -> disk clear = Some (n_data p') -> clear <> under basedir p' ->
  In g fs -> ~ IsPackage g -> n_dir g = [] -> (zlen (moc g) <= 10 * 1024 * 1024)%Z ->
  (forall data, ~ Authentic pr (xor K (n_mask p')) (moc g) data) ->
  o_writable o2 clear2 = true -> Elsewhere fs basedir clear2 ->
  exists disk', encrypt_file pr K o disk [clear; moc_path p'; basedir] = Ok (0%Z, disk') /\
    disk' (under basedir g) = Some (moc g) /\
    decrypt_file pr K o2 disk' [basedir; moc_path g; clear2] = Ok (1%Z, write disk' clear2 None).
Proof. exact package_again. Qed.
Print Assumptions C61_package_refuted.

Definition new_package := file [] (B "package.mo") (B "package P end P;") 50.
Definition new_model := file [] (B "M.mo") (B "within P; model M Real x; end M;") 60.
Definition new_disk : store := write (write lib_disk (B "/new/package.mo") (Some (n_data new_package))) (B "/new/M.mo") (Some (n_data new_model)).
Example C61_ex :
  toy_library = [top_package] ++ top_model :: tl (tl toy_library) /\ ~ IsPackage top_model /\
  RunOf (run_of new_model) (B "/lib") new_model /\ (exists moc, Installed toy toy_key toy_library (B "/lib") lib_disk moc) /\
  (* a model encrypted again: the new contents are read back, and other files *)
  match encrypt_file toy toy_key (run_of new_model) new_disk [B "/new/M.mo"; B "M.moc"; B "/lib"] with
  | Ok (0%Z, d) =>
      match decrypt_file toy toy_key any_run d [B "/lib"; B "M.moc"; B "/M.mo"] with
      | Ok (0%Z, d') => d' (B "/M.mo") = Some (n_data new_model)
      | _ => False
      end
  | _ => False
  end /\
  (* the package file encrypted again: its neighbour is lost *)
  match encrypt_file toy toy_key (run_of new_package) new_disk [B "/new/package.mo"; B "package.moc"; B "/lib"] with
  | Ok (0%Z, d) =>
      d (B "/lib/M.moc") = lib_disk (B "/lib/M.moc") /\
      match decrypt_file toy toy_key any_run d [B "/lib"; B "M.moc"; B "/M.mo"] with
      | Ok (1%Z, d') => d' (B "/M.mo") = None
      | _ => False
      end
  | _ => False
  end.
Proof.
  split; [reflexivity|]. split; [discriminate|]. split; [split; [reflexivity|]; split; [reflexivity|]; split; reflexivity|].
  split; [destruct toy_installed as (moc & H & _); now exists moc|]. split; [vm_compute; reflexivity|]. vm_compute. split; reflexivity.
Qed.
