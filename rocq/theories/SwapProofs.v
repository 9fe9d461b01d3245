(** Proofs about encrypted files in the place of others. *)
From Verif Require Import Base BaseProofs WireModel CryptModel CryptSpec CbcProofs MaskProofs DemaskProofs CryptProofs.

(** Anything sealed under the key of a file is served in its place. *)
Lemma served_sealed pr K fs basedir disk moc reqs f key iv data out :
  GoodPrimitives pr -> length K = 32 -> GoodLibrary pr fs -> Installed pr K fs basedir disk moc ->
  (forall g, In g reqs -> In g fs /\ Readable fs g) -> In f fs -> Readable fs f ->
  FileKey pr fs K f key -> length iv = 16 -> (zlen data < 2^31 - 128)%Z -> Sealed pr key iv data out ->
  (IsPackage f -> p_len pr <= length data) ->
  decrypt_all pr K disk basedir [] (map (fun g => (moc_path g, moc g)) reqs ++ [(moc_path f, out)]) =
  Ok (map (fun g => Some (n_data g)) reqs ++
      [Some (if beq (n_name f) (B "package.mo") then firstn (length data - p_len pr) data else data)]).
Proof.
  intros G LK GL Ins R If Rd FK Li Ld Se Lp.
  destruct (decrypt_prefix pr K fs basedir disk moc G LK GL Ins reqs [] [(moc_path f, out)] R) as (t & C & E); [intros a m _ X; discriminate|].
  destruct (key_of_entry pr K fs basedir disk moc f t G LK GL Ins If Rd C) as (flag & t' & key' & Ek & C' & FK' & Fl).
  assert (key' = key) as -> by (eapply filekey_unique; eassumption).
  pose proof (filekey_len fs K _ key (good_mask_len fs (proj1 GL)) LK FK) as Lk.
  assert (Ge : GoodEntry pr f) by (destruct GL as [GF _]; rewrite Forall_forall in GF; now apply GF).
  destruct Ge as (Fd & _ & _ & _ & Len & _).
  rewrite E. clear E. cbn [decrypt_all]. unfold cr_decrypt.
  rewrite (decrypt_sealed pr K _ t (moc_path f) key iv data out flag t' G Lk Li Ld Se Ek).
  destruct Fl as [[P ->]|[P ->]]; cbn [Z.eqb].
  - cbn zeta. pose proof (Lp P) as Lp'. destruct (Z.ltb_spec (zlen data - Z.of_nat (p_len pr)) 0) as [X|_]; [unfold zlen in X; lia|].
    assert (Em : moc_path f = path_of (n_dir f) PACKAGE_MOC) by (unfold moc_path; now rewrite P).
    rewrite Em, store_mask_ok; [|exact Fd|rewrite <- Em; unfold moc_path; rewrite path_moc_length; lia].
    cbn [bind]. destruct (Z.ltb_spec (zlen data - Z.of_nat (p_len pr)) 0) as [X|_]; [unfold zlen in X; lia|].
    cbn [bind]. unfold IsPackage in P. destruct (beq_spec (n_name f) (B "package.mo")) as [_|N]; [|contradiction].
    do 5 f_equal. unfold zlen. lia.
  - cbn [bind]. destruct (Z.ltb_spec (zlen data) 0) as [X|_]; [unfold zlen in X; lia|].
    unfold IsPackage in P. destruct (beq_spec (n_name f) (B "package.mo")) as [N|_]; [contradiction|].
    cbn [bind]. unfold zlen. now rewrite Nat2Z.id, firstn_all.
Qed.

(** The last 32 bytes decide. *)
Lemma last_mac pr a b (m m' : bytes) : GoodPrimitives pr -> length m = 32 -> length m' = 32 -> a ++ m = b ++ m' -> m = m'.
Proof.
  intros _ L L' E. pose proof (f_equal (@length _) E) as Le. rewrite !app_length in Le.
  pose proof (f_equal (skipn (length a)) E) as X. rewrite skipn_app, skipn_all, Nat.sub_diag in X. cbn [skipn app] in X.
  rewrite X. replace (length a) with (length b) by lia. now rewrite skipn_app, skipn_all, Nat.sub_diag.
Qed.

Lemma same_front (a b c d : bytes) : length a = length b -> a ++ c = b ++ d -> a = b.
Proof.
  revert b. induction a as [|x a IH]; intros [|y b] L E; try discriminate L; [reflexivity|].
  cbn [app] in E. injection E as -> E. injection L as L. f_equal. now apply IH.
Qed.

Lemma encrypted_parts pr K fs g out : GoodPrimitives pr -> length K = 32 -> GoodLibrary pr fs -> In g fs -> EncryptedAs pr K fs g out ->
  exists key data ct, FileKey pr fs K g key /\ Payload g data /\ Sealed pr key (n_iv g) data out /\ length (n_iv g) = 16 /\
    out = n_iv g ++ ct ++ Mac pr key (n_iv g ++ data) /\ (zlen data < 2^31 - 128)%Z /\ (IsPackage g -> data = n_data g ++ n_mask g /\ length (n_mask g) = p_len pr).
Proof.
  intros G LK GL Ig (key & data & FK & Pay & Se).
  pose proof (filekey_len fs K _ key (good_mask_len fs (proj1 GL)) LK FK) as Lk.
  assert (Ge : GoodEntry pr g) by (destruct GL as [GF _]; rewrite Forall_forall in GF; now apply GF).
  destruct Ge as (_ & _ & _ & _ & _ & Li & Lm & Ld).
  destruct (sealed_parts pr key (n_iv g) data out G Lk Li Se) as (ct & E & _).
  exists key, data, ct. split; [exact FK|]. split; [exact Pay|]. split; [exact Se|]. split; [exact Li|]. split; [exact E|].
  destruct G as (_ & _ & Ln). destruct Pay as [P|P].
  - split; [lia|contradiction].
  - split; [unfold zlen in *; rewrite app_length, Lm; lia|auto].
Qed.

Lemma foreign pr K fs basedir disk moc reqs f K' fs' g out :
  GoodPrimitives pr -> length K = 32 -> GoodLibrary pr fs -> Installed pr K fs basedir disk moc ->
  (forall h, In h reqs -> In h fs /\ Readable fs h) -> In f fs -> Readable fs f ->
  length K' = 32 -> GoodLibrary pr fs' -> In g fs' -> EncryptedAs pr K' fs' g out ->
  exists key key' data', FileKey pr fs K f key /\ FileKey pr fs' K' g key' /\ Payload g data' /\
  (decrypt_all pr K disk basedir [] (map (fun h => (moc_path h, moc h)) reqs ++ [(moc_path f, out)])
     = Ok (map (fun h => Some (n_data h)) reqs ++ [None]) \/
   exists data, Mac pr key (n_iv g ++ data) = Mac pr key' (n_iv g ++ data')).
Proof.
  intros G LK GL Ins R If Rd LK' GL' Ig En.
  destruct (encrypted_parts pr K' fs' g out G LK' GL' Ig En) as (key' & data' & ct & FK' & Pay & _ & Li & E & _ & _).
  destruct (tampered pr K fs basedir disk moc reqs f out G LK GL Ins R If Rd) as (key & FK & T).
  { rewrite E, app_length. lia. }
  exists key, key', data'. split; [exact FK|]. split; [exact FK'|]. split; [exact Pay|].
  destruct T as [T|(data & (iv & ct' & Liv & E') & _)]; [now left|]. right. exists data.
  pose proof (proj1 (proj2 G)) as LM.
  assert (iv = n_iv g) as ->.
  { rewrite E in E'. symmetry. exact (same_front _ _ _ _ (eq_trans Li (eq_sym Liv)) E'). }
  rewrite E in E'. rewrite !app_assoc in E'. symmetry in E'. apply (last_mac pr) in E'; [|exact G|apply LM|apply LM].
  exact E'.
Qed.
