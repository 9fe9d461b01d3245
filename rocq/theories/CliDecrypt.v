(** Proofs about decrypt_file, damaged files and files encrypted again. *)
From Verif Require Import Base BaseProofs WireModel CryptModel CryptSpec CbcProofs MaskProofs DemaskProofs CryptProofs CliModel CliSpec CliMasks CliProofs CliPrograms.

Lemma decrypt_fails pr K dm t rel file flag t1 key : GoodPrimitives pr -> dm t rel K = Ok (flag, t1, key) -> 15 <= length file ->
  (forall data, ~ Authentic pr key file data) -> decrypt_with pr K dm t rel file = Ok (t1, (-1)%Z, []).
Proof.
  intros G E L No. pose proof (decrypt_authentic pr K dm t rel file flag t1 key) as A. pose proof (decrypt_with_ub pr K dm t rel file flag t1 key) as U.
  pose proof (decrypt_with_blocked pr K dm t rel file) as Bl.
  destruct (decrypt_with pr K dm t rel file) as [[[t2 n] out]|k|] eqn:D.
  - destruct (A t2 n out G E eq_refl) as [Neg|[Au _]]; [|exfalso; exact (No out Au)]. clear A U Bl.
    unfold decrypt_with in D. rewrite E in D. cbn [bind] in D.
    destruct (Nat.ltb_spec (length file + 1) BLOCK) as [X|_]; [unfold BLOCK in X; lia|].
    destruct (to_int _ <? 0)%Z; [exact (eq_sym D)|]. destruct (evp_decrypt pr key _ _) as [o|]; [|exact (eq_sym D)].
    destruct (beq _ _); [|exact (eq_sym D)]. exfalso.
    destruct (flag =? 0)%Z; [injection D as _ <- _; unfold zlen in Neg; lia|].
    destruct (Z.ltb_spec (zlen o - Z.of_nat (p_len pr)) 0); [discriminate|].
    destruct (store_mask t1 rel _) as [t3| |]; cbn [bind] in D; [|discriminate..]. injection D as _ <- _. lia.
  - exfalso. destruct (U k G E eq_refl) as [X|(_ & data & Au & _)]; [lia|exact (No data Au)].
  - exfalso. rewrite (Bl eq_refl) in E. discriminate.
Qed.

(** A damaged package file, and a file next to it. *)
Lemma damaged pr K o f basedir disk clear c : GoodPrimitives pr -> length K = 32 -> GoodEntry pr f -> n_dir f = [] -> ~ IsPackage f ->
  length basedir + length (n_name f) <= 4000 -> disk (basedir ++ B "/package.moc") = Some c -> 15 <= length c ->
  (forall data, ~ Authentic pr K c data) -> RunOf o basedir f -> disk clear = Some (n_data f) -> clear <> under basedir f ->
  exists out, encrypt_file pr K o disk [clear; moc_path f; basedir] = Ok (0%Z, write disk (under basedir f) (Some out)) /\
    EncryptedAs pr K [f] f out.
Proof.
  intros G LK Ge Ed P Fit Dp Lc No (Iv & Mk & Lj & Wr) D Nc. pose proof Ge as (Fd & Nn & _ & Case & Len & Li & Lm & Ld).
  assert (Cf : caseeq (n_name f) PACKAGE_MO = false) by (destruct (caseeq (n_name f) PACKAGE_MO) eqn:Q; [exfalso; auto|reflexivity]).
  assert (Em : moc_path f = n_name f ++ B "c") by (unfold moc_path; now rewrite Ed).
  assert (Ll : length (moc_path f) = length (n_name f) + 1) by (rewrite Em, app_length; reflexivity).
  destruct (encrypt_alone pr K (n_name f) (n_iv f) (n_mask f) (n_data f) G LK (name_noslash _ Nn) Li Lm) as (t & out & E & S0).
  exists out. split.
  - unfold encrypt_file. rewrite D. unfold destination.
    destruct (Nat.leb_spec PATH_LEN (length (moc_path f))) as [X|_]; [unfold PATH_LEN in X; lia|].
    assert (De : demask_key (2 * length (moc_path f) + 4) pr K disk basedir [] (moc_path f) (o_junk o) = Ok ((-1)%Z, [], o_junk o)).
    { replace (2 * length (moc_path f) + 4) with (S (S (2 * length (moc_path f) + 2))) by lia. rewrite Em.
      change (n_name f ++ B "c") with (path_of [] (n_name f ++ B "c")) at 2.
      rewrite demask_other; [|constructor|now apply noslash_moc, name_noslash|now rewrite caseeq_moc|cbn [path_of]; rewrite app_length; cbn [length B String.list_ascii_of_string]; lia].
      cbn [find_mask path_of]. change (NAME_MAX <? 12) with false. cbn iota.
      rewrite snprintf_fits by (rewrite !app_length; cbn [length]; change (length PACKAGE_MOC) with 11; unfold NAME_MAX; lia).
      change (basedir ++ [SLASH] ++ PACKAGE_MOC) with (basedir ++ B "/package.moc"). rewrite Dp.
      rewrite (decrypt_fails pr K _ [] PACKAGE_MOC c 1%Z [] K G); [reflexivity| |exact Lc|exact No].
      rewrite demask_S, (split_top _ noslash_package). reflexivity. }
    rewrite De. cbn [bind]. destruct (moc_path f) as [|x r] eqn:Q; [cbn in Ll; lia|]. rewrite <- Q. cbn [bind].
    rewrite snprintf_fits by (rewrite !app_length, Q, Ll; cbn [length]; unfold PATH_LEN; lia).
    fold (under basedir f). rewrite Wr. cbn [negb]. rewrite (proj2 (beq_false _ _) Nc). rewrite <- Q in Em. rewrite Em.
    change (B "c") with ["c"%char]. rewrite removelast_last, Iv, Mk, E. reflexivity.
  - rewrite Cf, app_nil_r in S0. exists K, (n_data f). split; [|split; [now apply P_ordinary|exact S0]].
    pose proof (K_ordinary (pr := pr) [f] K f (repeat NUL (p_len pr)) P) as X. rewrite (xor_zeros K (p_len pr)) in X. apply X. rewrite Ed. apply Near_top.
    intros m (g & [<-|[]] & Pg & _). contradiction.
Qed.

(** ** decrypt_file *)

Lemma installed_elsewhere pr K fs basedir disk moc clear c : Installed pr K fs basedir disk moc -> Elsewhere fs basedir clear ->
  Installed pr K fs basedir (write disk clear c) moc.
Proof.
  intros (Fits & Here & Gone) [E1 E2]. split; [exact Fits|]. split.
  - intros f I. destruct (Here f I) as [A D]. split; [exact A|]. rewrite write_other; [exact D|]. intros X. apply (E1 f I). now rewrite <- X.
  - intros d F N. rewrite write_other; [now apply Gone|]. intros X. apply (E2 d F). now rewrite <- X.
Qed.

Lemma buffered_id c : (zlen c <= BUF_SIZE)%Z -> buffered c = c.
Proof. intros L. unfold buffered. destruct (Z.leb_spec (zlen c) BUF_SIZE); [reflexivity|lia]. Qed.

Lemma decrypt_buffer_long pr K fs dir rel c : 15 <= length c ->
  decrypt_buffer pr K fs dir rel c = (do (_, r) <- cr_decrypt pr K fs dir [] rel c ; Ok r).
Proof. intros L. unfold decrypt_buffer. destruct (Nat.ltb_spec (length c + 1) BLOCK) as [X|_]; [unfold BLOCK in X; lia|reflexivity]. Qed.

(** The key of an ordinary file, whatever its contents. *)
Lemma key_for pr K fs basedir disk moc f :
  GoodPrimitives pr -> length K = 32 -> GoodLibrary pr fs -> Installed pr K fs basedir disk moc ->
  GoodEntry pr f -> ~ IsPackage f -> InPackage fs f -> Filled fs (n_dir f) ->
  exists t key, demask_key (2 * length (moc_path f) + 4) pr K disk basedir [] (moc_path f) K = Ok (0%Z, t, key) /\ FileKey pr fs K f key.
Proof.
  intros G LK GL Ins Ge P InP Fi. pose proof (gooddir_entry f Ge) as Gd. destruct Ge as (Fd & Nn & _ & Case & Len & Li & Lm & Ld).
  destruct InP as (m0 & H0).
  assert (Fit : PkgFits basedir (n_dir f)).
  { destruct H0 as (p & Ip & Pp & Dp & _). pose proof (proj1 Ins p Ip) as L. rewrite Pp, Dp in L.
    unfold PkgFits. change PACKAGE_MOC with (B "package.mo" ++ B "c"). rewrite path_moc_length. lia. }
  destruct (demask_dirs pr K fs basedir disk moc G LK GL Ins (n_dir f) Gd Fit) as [_ Db].
  assert (Lmoc : length (moc_path f) = length (path_of (n_dir f) (n_name f)) + 1) by apply path_moc_length.
  pose proof (path_length (n_dir f) (n_name f)) as Lp.
  assert (Cf : caseeq (n_name f ++ B "c") PACKAGE_MOC = false).
  { rewrite caseeq_moc. destruct (caseeq (n_name f) PACKAGE_MO) eqn:Q; [exfalso; auto|reflexivity]. }
  destruct (Db (2 * length (moc_path f) + 4) [] K (n_name f ++ B "c")) as (flag & t1 & m & E & _ & Ne & _ & F0 & _);
    [lia|exact Fi|intros a m _ E; discriminate|exact LK|apply noslash_moc; now apply name_noslash|exact Cf| |].
  { rewrite path_moc_length. lia. }
  rewrite (F0 m0 H0) in E. exists t1, (xor K m). split; [exact E|]. now apply K_ordinary.
Qed.

Lemma buffered_length_small c : length (buffered c) < 15 -> buffered c = c.
Proof.
  unfold buffered. destruct (zlen c <=? BUF_SIZE)%Z eqn:E; [reflexivity|]. apply Z.leb_gt in E. intros L. exfalso.
  rewrite firstn_length in L. unfold zlen in E. unfold BUF_SIZE in *.
  assert (15 <= Z.to_nat (10 * 1024 * 1024)) by (apply Nat2Z.inj_le; rewrite Z2Nat.id; lia).
  assert (15 <= length c) by (apply Nat2Z.inj_le; lia). lia.
Qed.

Lemma decrypt_file_any pr K o fs basedir disk moc f clear file :
  GoodPrimitives pr -> length K = 32 -> GoodLibrary pr fs -> Installed pr K fs basedir disk moc ->
  GoodEntry pr f -> ~ IsPackage f -> InPackage fs f -> Filled fs (n_dir f) ->
  length basedir + length (path_of (n_dir f) (n_name f)) <= 4000 ->
  Elsewhere fs basedir clear -> clear <> under basedir f -> o_writable o clear = true -> disk (under basedir f) = Some file ->
  exists key, FileKey pr fs K f key /\
  (decrypt_file pr K o disk [basedir; moc_path f; clear] = Ok (1%Z, write disk clear None) \/
   exists data, Authentic pr key (buffered file) data /\
     decrypt_file pr K o disk [basedir; moc_path f; clear] = Ok (0%Z, write disk clear (Some data))).
Proof.
  intros G LK GL Ins Ge P InP Fi Fit El Nu Wr D.
  pose proof (installed_elsewhere pr K fs basedir disk moc clear (Some []) Ins El) as Ins'.
  destruct (key_for pr K fs basedir _ moc f G LK GL Ins' Ge P InP Fi) as (t & key & E & FK).
  exists key. split; [exact FK|].
  assert (Lmoc : length (moc_path f) = length (path_of (n_dir f) (n_name f)) + 1) by apply path_moc_length.
  assert (Sp : snprintf PATH_LEN (basedir ++ [SLASH] ++ moc_path f) = under basedir f).
  { rewrite snprintf_fits; [reflexivity|]. rewrite !app_length, Lmoc. cbn [length]. unfold PATH_LEN. lia. }
  assert (Run : decrypt_file pr K o disk [basedir; moc_path f; clear] =
    (do r <- decrypt_buffer pr K (write disk clear (Some [])) basedir (moc_path f) (buffered file) ;
     Ok (match r with Some _ => 0%Z | None => 1%Z end, write disk clear r))).
  { unfold decrypt_file. rewrite Sp, D, Wr. cbn [negb]. rewrite (proj2 (beq_false _ _) Nu). reflexivity. }
  rewrite Run. set (c := buffered file) in *.
  destruct (Nat.lt_ge_cases (length c) 15) as [Lt|Ge15].
  - left. unfold decrypt_buffer. destruct (Nat.ltb_spec (length c + 1) BLOCK) as [_|X]; [|unfold BLOCK in X; lia].
    rewrite E. reflexivity.
  - rewrite decrypt_buffer_long by exact Ge15. unfold cr_decrypt.
    destruct (decrypt_with pr K (demask_key (2 * length (moc_path f) + 4) pr K (write disk clear (Some [])) basedir) [] (moc_path f) c) as [[[t2 n] out]|k|] eqn:De.
    + destruct (decrypt_authentic pr K _ _ _ c 0%Z t key t2 n out G E De) as [Neg|[Au En]].
      * left. cbn [bind]. destruct (Z.ltb_spec n 0) as [_|]; [reflexivity|lia].
      * right. exists out. split; [exact Au|]. cbn [Z.eqb] in En. subst n. cbn [bind].
        destruct (Z.ltb_spec (zlen out) 0) as [X|_]; [unfold zlen in X; lia|]. cbn [bind].
        unfold zlen. rewrite Nat2Z.id, firstn_all. reflexivity.
    + exfalso. destruct (decrypt_with_ub pr K _ _ _ c 0%Z t key k G E De) as [X|[X _]]; [lia|congruence].
    + exfalso. apply decrypt_with_blocked in De. rewrite E in De. discriminate.
Qed.

Lemma buffered_large file : (BUF_SIZE < zlen file)%Z -> buffered file = firstn (Z.to_nat BUF_SIZE) file.
Proof. intros L. unfold buffered. destruct (Z.leb_spec (zlen file) BUF_SIZE); [lia|reflexivity]. Qed.

(** Decryption of files of an installed library. *)
Lemma decrypt_file_installed pr K o fs basedir disk moc f clear :
  GoodPrimitives pr -> length K = 32 -> GoodLibrary pr fs -> Installed pr K fs basedir disk moc -> In f fs -> Readable fs f ->
  Elsewhere fs basedir clear -> o_writable o clear = true -> (zlen (n_data f) + 96 <= BUF_SIZE)%Z ->
  decrypt_file pr K o disk [basedir; moc_path f; clear] = Ok (0%Z, write disk clear (Some (n_data f))).
Proof.
  intros G LK GL Ins If Rd El Wr Sz.
  pose proof (installed_elsewhere pr K fs basedir disk moc clear (Some []) Ins El) as Ins'.
  destruct (decrypt_entry pr K fs basedir _ moc f [] G LK GL Ins' If Rd) as (t' & E & _); [intros a m _ Q; discriminate|].
  destruct (proj1 (proj2 Ins) f If) as [(key & data & FK & Pay & Se) D].
  assert (Ge : GoodEntry pr f) by (destruct GL as [GF _]; rewrite Forall_forall in GF; now apply GF).
  destruct Ge as (_ & _ & _ & _ & Len & Li & Lm & _).
  pose proof (filekey_len fs K _ key (good_mask_len fs (proj1 GL)) LK FK) as Lk.
  destruct (sealed_parts pr key (n_iv f) data (moc f) G Lk Li Se) as (ct & Em & _ & Lc).
  pose proof (proj1 (proj2 G) (firstn (p_len pr) key) (n_iv f ++ data)) as Lma. fold (Mac pr key (n_iv f ++ data)) in Lma.
  assert (Lmoc : length (moc f) = 48 + length ct) by (rewrite Em, !app_length; lia).
  assert (Ldata : length data <= length (n_data f) + 32) by (destruct Pay; [lia|rewrite app_length; pose proof (proj2 (proj2 G)); lia]).
  assert (Lp : length (moc_path f) = length (path_of (n_dir f) (n_name f)) + 1) by apply path_moc_length.
  pose proof (proj1 Ins f If) as Fit.
  unfold decrypt_file.
  assert (Sp : snprintf PATH_LEN (basedir ++ [SLASH] ++ moc_path f) = under basedir f).
  { rewrite snprintf_fits; [reflexivity|]. rewrite !app_length, Lp. cbn [length]. unfold PATH_LEN. lia. }
  rewrite Sp. fold (under basedir f) in D. rewrite D, Wr. cbn [negb]. rewrite (proj2 (beq_false _ _) (proj1 El f If)).
  rewrite buffered_id by (unfold zlen in *; lia). rewrite decrypt_buffer_long by lia. rewrite E. reflexivity.
Qed.

Lemma decrypt_frame pr K o disk dir name clear r code disk' : decrypt_file pr K o disk (dir :: name :: clear :: r) = Ok (code, disk') ->
  (forall q, q <> clear -> disk' q = disk q) /\
  ((code = 0%Z /\ exists data, disk' clear = Some data) \/ (code = 1%Z /\ (disk' clear = None \/ disk' = disk))).
Proof.
  unfold decrypt_file. destruct (negb (o_writable o clear)).
  { intros Q. injection Q as <- <-. split; [reflexivity|]. right. auto. }
  destruct (disk _) as [data|].
  - destruct (decrypt_buffer _ _ _ _ _ _) as [x| |]; cbn [bind]; [|discriminate..]. intros Q. injection Q as <- <-.
    split; [intros q N; now apply write_other|]. rewrite write_here. destruct x as [x|]; [left; split; [reflexivity|now exists x]|right; auto].
  - intros Q. injection Q as <- <-. split; [intros q N; now apply write_other|]. rewrite write_here. right. auto.
Qed.

(** ** Files encrypted again *)

Lemma updated_replace pre f f' post : ~ IsPackage f -> n_dir f' = n_dir f -> n_name f' = n_name f ->
  Updated (pre ++ f :: post) (pre ++ f' :: post) f'.
Proof.
  intros P Ed En. split; [apply in_app_iff; right; now left|]. split; [|split].
  - intros g I. apply in_app_iff in I. destruct I as [I|[<-|I]]; [right; apply in_app_iff; now left|now left|].
    right. apply in_app_iff. right. now right.
  - intros g I Pg. apply in_app_iff in I. destruct I as [I|[<-|I]]; [apply in_app_iff; now left|contradiction|].
    apply in_app_iff. right. now right.
  - intros P'. exfalso. apply P. unfold IsPackage in *. congruence.
Qed.

(** The package file at the top encrypted again, with another mask. *)
Lemma package_again pr K o fs basedir disk moc p p' clear g o2 clear2 :
  GoodPrimitives pr -> length K = 32 -> GoodLibrary pr fs -> Installed pr K fs basedir disk moc ->
  In p fs -> IsPackage p -> n_dir p = [] -> GoodEntry pr p' -> IsPackage p' -> n_dir p' = [] -> n_data p' <> [] ->
  RunOf o basedir p' -> disk clear = Some (n_data p') -> clear <> under basedir p' ->
  In g fs -> ~ IsPackage g -> n_dir g = [] -> (zlen (moc g) <= BUF_SIZE)%Z ->
  (forall data, ~ Authentic pr (xor K (n_mask p')) (moc g) data) ->
  o_writable o2 clear2 = true -> Elsewhere fs basedir clear2 ->
  exists disk', encrypt_file pr K o disk [clear; moc_path p'; basedir] = Ok (0%Z, disk') /\
    disk' (under basedir g) = Some (moc g) /\
    decrypt_file pr K o2 disk' [basedir; moc_path g; clear2] = Ok (1%Z, write disk' clear2 None).
Proof.
  intros G LK GL Ins Ip P Ed Ge' P' Ed' Nd (Iv & Mk & Lj & Wr) D Nc Ig Pg Eg Sz No Wr2 El.
  pose proof Ge' as (Fd & Nn & _ & Case & Len & Li & Lm & Ld).
  assert (Em : moc_path p' = PACKAGE_MOC) by (unfold moc_path; now rewrite Ed', P').
  assert (Ln : n_name p' = PACKAGE_MO) by exact P'.
  destruct (encrypt_alone pr K PACKAGE_MO (n_iv p') (n_mask p') (n_data p') G LK) as (t & out & E & S0); [|exact Li|exact Lm|].
  { rewrite <- Ln. now apply name_noslash. }
  change (caseeq PACKAGE_MO PACKAGE_MO) with true in S0. cbn iota in S0.
  assert (Fp : length basedir <= 3990).
  { pose proof (proj1 Ins p Ip) as L. rewrite P, Ed in L. cbn [path_of length B String.list_ascii_of_string] in L. lia. }
  exists (write disk (under basedir p') (Some out)).
  assert (Enc : EncryptedAs pr K [p'] p' out).
  { exists K, (n_data p' ++ n_mask p'). split; [now apply K_top|]. split; [now apply P_package|exact S0]. }
  assert (Run : encrypt_file pr K o disk [clear; moc_path p'; basedir] = Ok (0%Z, write disk (under basedir p') (Some out))).
  { unfold encrypt_file. rewrite D. unfold destination. rewrite Em. change (PATH_LEN <=? length PACKAGE_MOC) with false. cbn iota.
    change (2 * length PACKAGE_MOC + 4) with (S 25). rewrite demask_S, (split_top _ noslash_package). cbn iota beta.
    change (caseeq PACKAGE_MOC PACKAGE_MOC) with true. cbn [bind].
    cbn [bind]. rewrite snprintf_fits by (rewrite !app_length; cbn [length]; change (length PACKAGE_MOC) with 11; unfold PATH_LEN; lia).
    assert (Eu : basedir ++ [SLASH] ++ PACKAGE_MOC = under basedir p') by (unfold under; now rewrite Em). rewrite Eu.
    change PACKAGE_MOC with ("p"%char :: B "ackage.moc") at 1. cbn iota. change (removelast PACKAGE_MOC) with PACKAGE_MO.
    cbn [bind]. rewrite Wr. cbn [negb]. rewrite (proj2 (beq_false _ _) Nc), Iv, Mk, E. reflexivity. }
  split; [exact Run|]. destruct (proj1 (proj2 Ins) g Ig) as [Encg Dg]. fold (under basedir g) in Dg.
  assert (Gg : GoodEntry pr g) by (destruct GL as [GF _]; rewrite Forall_forall in GF; now apply GF).
  destruct Gg as (_ & Nng & _ & Caseg & Leng & _ & _ & _).
  assert (Emg : moc_path g = n_name g ++ B "c") by (unfold moc_path; now rewrite Eg).
  assert (Fg : length basedir + length (n_name g) <= 4000).
  { pose proof (proj1 Ins g Ig) as L. rewrite Eg in L. exact L. }
  assert (Nu : under basedir g <> under basedir p').
  { intros X. apply output_inj in X. rewrite Em, Emg in X. change PACKAGE_MOC with (B "package.mo" ++ B "c") in X. apply app_inv_tail in X. contradiction. }
  assert (Dg' : write disk (under basedir p') (Some out) (under basedir g) = Some (moc g)) by (now rewrite write_other).
  split; [exact Dg'|].
  set (disk' := write disk (under basedir p') (Some out)) in *.
  assert (Sp : snprintf PATH_LEN (basedir ++ [SLASH] ++ moc_path g) = under basedir g).
  { rewrite snprintf_fits; [reflexivity|]. rewrite Emg, !app_length. cbn [length B String.list_ascii_of_string]. unfold PATH_LEN. lia. }
  unfold decrypt_file. rewrite Sp, Dg', Wr2. cbn [negb]. rewrite (proj2 (beq_false _ _) (proj1 El g Ig)), buffered_id by exact Sz.
  (* the length of the file *)
  assert (Lg : 15 <= length (moc g)).
  { destruct Encg as (key & data & FK & _ & (bs & cs & _ & _ & Eq)). pose proof (proj1 (proj2 G) (firstn (p_len pr) key) (n_iv g ++ data)) as Lma; fold (Mac pr key (n_iv g ++ data)) in Lma.
    rewrite Eq, !app_length, Lma. lia. }
  rewrite decrypt_buffer_long by exact Lg. unfold cr_decrypt.
  set (d2 := write disk' clear2 (Some [])).
  assert (Dp : d2 (basedir ++ [SLASH] ++ PACKAGE_MOC) = Some out).
  { unfold d2. rewrite write_other; [|intros X; apply (proj2 El [] (Forall_nil _)); now rewrite <- X].
    unfold disk', under. rewrite Em. apply write_here. }
  assert (De : exists t2, demask_key (2 * length (moc_path g) + 4) pr K d2 basedir [] (moc_path g) K = Ok (0%Z, t2, xor K (n_mask p'))).
  { replace (2 * length (moc_path g) + 4) with (S (S (2 * length (moc_path g) + 2))) by lia. rewrite Emg.
    change (n_name g ++ B "c") with (path_of [] (n_name g ++ B "c")) at 2.
    assert (Cg : caseeq (n_name g) PACKAGE_MO = false) by (destruct (caseeq (n_name g) PACKAGE_MO) eqn:Q; [exfalso; auto|reflexivity]).
    rewrite demask_other; [|constructor|now apply noslash_moc, name_noslash|now rewrite caseeq_moc|cbn [path_of]; rewrite app_length; cbn [length B String.list_ascii_of_string]; lia].
    cbn [find_mask]. change (NAME_MAX <? 12) with false. cbn iota. cbn [path_of].
    rewrite snprintf_fits by (rewrite !app_length; cbn [length]; change (length PACKAGE_MOC) with 11; unfold NAME_MAX; lia).
    rewrite Dp.
    assert (GL1 : GoodLibrary pr [p']).
    { split; [apply Forall_cons; [exact Ge'|apply Forall_nil]|]. constructor; [intros []|constructor]. }
    assert (Dm : demask_key (S (2 * length (n_name g ++ B "c") + 2)) pr K d2 basedir [] (path_of (n_dir p') PACKAGE_MOC) K = Ok (1%Z, [], K)).
    { rewrite Ed'. cbn [path_of]. rewrite demask_S, (split_top _ noslash_package). reflexivity. }
    pose proof (decrypt_package pr K [p'] _ [] p' out K 1%Z [] G LK GL1 (or_introl eq_refl) P' Enc (K_top [p'] K p' P' Ed') Dm ltac:(discriminate)) as Q.
    rewrite Ed' in Q. cbn [path_of] in Q. rewrite Q. cbn [bind].
    destruct (Z.ltb_spec 0 (zlen (n_data p'))) as [_|X]; [|unfold zlen in X; destruct (n_data p'); [congruence|cbn [length] in X; lia]].
    unfold zlen. rewrite Nat2Z.id, skipn_app, skipn_all, Nat.sub_diag. cbn [skipn app].
    rewrite firstn_all2 by (rewrite Lm;  lia). eexists. reflexivity. }
  destruct De as (t2 & De). rewrite (decrypt_fails pr K _ [] (moc_path g) (moc g) 0%Z t2 (xor K (n_mask p')) G De Lg No).
  reflexivity.
Qed.

(** The encrypted form of a file is determined by the library. *)
Lemma encrypted_unique pr K fs f out out' : GoodLibrary pr fs -> EncryptedAs pr K fs f out -> EncryptedAs pr K fs f out' -> out = out'.
Proof.
  intros GL (k & d & FK & P & S0) (k' & d' & FK' & P' & S1).
  rewrite (filekey_unique fs K f k k' GL FK FK') in S0.
  assert (d = d') as -> by (destruct P, P'; [reflexivity|contradiction|contradiction|reflexivity]).
  now apply (sealed_unique pr k' (n_iv f) d').
Qed.

Lemma file_by_file pr K fs basedir src o disk :
  GoodPrimitives pr -> length K = 32 -> GoodLibrary pr fs -> PackageFirst fs -> FilledAbove fs ->
  (forall f, In f fs -> length basedir + length (path_of (n_dir f) (n_name f)) <= 4000) ->
  (forall f, In f fs -> disk (src f) = Some (n_data f)) ->
  (forall f g, In f fs -> In g fs -> src f <> under basedir g) ->
  (forall f, In f fs -> RunOf (o f) basedir f) ->
  (forall d, Forall Name d -> disk (basedir ++ [SLASH] ++ path_of d (B "package.moc")) = None) ->
  exists disk' outs, Runs pr K disk (map (fun f => (o f, [src f; moc_path f; basedir])) fs) disk' /\
    encrypt_all pr K [] (map source_of fs) = Ok (Some outs) /\ length outs = length fs /\
    (forall f out, In (f, out) (combine fs outs) -> disk' (under basedir f) = Some out) /\
    (forall q, (forall f, In f fs -> q <> under basedir f) -> disk' q = disk q) /\
    exists moc, Installed pr K fs basedir disk' moc.
Proof.
  intros G LK GL PF Fill Fits Src Apart Ext Gone.
  destruct (runs_library pr K fs basedir src o disk G LK GL PF Fill Fits Src Apart Ext fs [] disk (fun _ => []) eq_refl) as (disk' & moc & R & Ins & Frame).
  { now apply installed_empty. } { reflexivity. }
  destruct (encrypt_library pr K fs G LK GL PF) as (outs & E & F2).
  exists disk', outs. split; [exact R|]. split; [exact E|]. split; [clear - F2; induction F2; cbn [length]; congruence|]. split; [|split; [exact Frame|now exists moc]].
  intros f out I. pose proof (forall2_combine _ _ _ F2 f out I) as En. pose proof (in_combine_l _ _ _ _ I) as If.
  destruct (proj1 (proj2 Ins) f If) as [En' D]. unfold under. rewrite D. f_equal. now apply (encrypted_unique pr K fs f).
Qed.
