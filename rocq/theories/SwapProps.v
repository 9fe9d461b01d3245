(** C94: an encrypted file in the place of another. *)
From Verif Require Import Base BaseProofs WireModel CryptModel CryptSpec CbcProofs MaskProofs DemaskProofs CryptProofs CryptProps SwapProofs.

(** After any requests, a file [f] is requested when its place holds an encrypted file that was made from [g], of the same
    library or of another, under the same product key or another.  It is refused, unless the MAC of other data under the
    key of [f] is that of [g] under the key of [g].  Missing from the full statement: files with the same key, for which
    this is no restriction. *)
Theorem C94_other_key_partial : forall pr K fs basedir disk moc reqs f K' fs' g out,
  GoodPrimitives pr -> length K = 32 -> GoodLibrary pr fs -> Installed pr K fs basedir disk moc ->
  (forall h, In h reqs -> In h fs /\ Readable fs h) -> In f fs -> Readable fs f ->
  length K' = 32 -> GoodLibrary pr fs' -> In g fs' -> EncryptedAs pr K' fs' g out ->
  exists key key' data', FileKey pr fs K f key /\ FileKey pr fs' K' g key' /\ Payload g data' /\
  (decrypt_all pr K disk basedir [] (map (fun h => (moc_path h, moc h)) reqs ++ [(moc_path f, out)])
     = Ok (map (fun h => Some (n_data h)) reqs ++ [None]) \/
   exists data, Mac pr key (n_iv g ++ data) = Mac pr key' (n_iv g ++ data')).
Proof. exact foreign. Qed.
Print Assumptions C94_other_key_partial.

(** Files of one directory, other than its package file, have the same key.  Each is served in the place of every other. *)
Theorem C94_exchanged_refuted : forall pr K fs basedir disk moc reqs f g,
  GoodPrimitives pr -> length K = 32 -> GoodLibrary pr fs -> Installed pr K fs basedir disk moc ->
  (forall h, In h reqs -> In h fs /\ Readable fs h) -> In f fs -> Readable fs f -> In g fs ->
  n_dir f = n_dir g -> ~ IsPackage f -> ~ IsPackage g ->
  decrypt_all pr K disk basedir [] (map (fun h => (moc_path h, moc h)) reqs ++ [(moc_path f, moc g)])
  = Ok (map (fun h => Some (n_data h)) reqs ++ [Some (n_data g)]).
Proof.
  intros pr K fs basedir disk moc reqs f g G LK GL Ins R If Rd Ig D Pf Pg.
  destruct (encrypted_parts pr K fs g (moc g) G LK GL Ig (proj1 (proj1 (proj2 Ins) g Ig))) as (key & data & ct & FK & Pay & Se & Li & _ & Ld & _).
  assert (data = n_data g) as -> by (destruct Pay; [reflexivity|contradiction]).
  assert (FKf : FileKey pr fs K f key).
  { destruct FK as [m _ N|d c m P _ _|P _]; [|contradiction|contradiction]. apply K_ordinary; [exact Pf|]. now rewrite D. }
  rewrite (served_sealed pr K fs basedir disk moc reqs f key (n_iv g) (n_data g) (moc g)) by first [assumption|contradiction].
  unfold IsPackage in Pf. destruct (beq_spec (n_name f) (B "package.mo")); [contradiction|reflexivity].
Qed.
Print Assumptions C94_exchanged_refuted.

(** The package file of a subdirectory has the same key too.  In the place of a file it is served with its mask, which the
    tool should never see. *)
Theorem C94_mask_refuted : forall pr K fs basedir disk moc reqs f g c,
  GoodPrimitives pr -> length K = 32 -> GoodLibrary pr fs -> Installed pr K fs basedir disk moc ->
  (forall h, In h reqs -> In h fs /\ Readable fs h) -> In f fs -> Readable fs f -> In g fs ->
  n_dir g = n_dir f ++ [c] -> ~ IsPackage f -> IsPackage g ->
  decrypt_all pr K disk basedir [] (map (fun h => (moc_path h, moc h)) reqs ++ [(moc_path f, moc g)])
  = Ok (map (fun h => Some (n_data h)) reqs ++ [Some (n_data g ++ n_mask g)]).
Proof.
  intros pr K fs basedir disk moc reqs f g c G LK GL Ins R If Rd Ig D Pf Pg.
  destruct (encrypted_parts pr K fs g (moc g) G LK GL Ig (proj1 (proj1 (proj2 Ins) g Ig))) as (key & data & ct & FK & Pay & Se & Li & _ & Ld & Ep).
  destruct (Ep Pg) as [-> Lm].
  assert (FKf : FileKey pr fs K f key).
  { destruct FK as [m Np N|d c' m P Ed N|P Ed]; [contradiction| |].
    - apply K_ordinary; [exact Pf|]. rewrite Ed in D. apply app_inj_tail in D as [-> _]. exact N.
    - rewrite Ed in D. now destruct (n_dir f). }
  rewrite (served_sealed pr K fs basedir disk moc reqs f key (n_iv g) (n_data g ++ n_mask g) (moc g)) by first [assumption|contradiction].
  unfold IsPackage in Pf. destruct (beq_spec (n_name f) (B "package.mo")); [contradiction|reflexivity].
Qed.
Print Assumptions C94_mask_refuted.

(** The top package file has the product key as it is.  That of any other library of the vendor, or of another version,
    is served in its place. *)
Theorem C94_other_library_refuted : forall pr K fs basedir disk moc reqs f fs' g out,
  GoodPrimitives pr -> length K = 32 -> GoodLibrary pr fs -> Installed pr K fs basedir disk moc ->
  (forall h, In h reqs -> In h fs /\ Readable fs h) -> In f fs -> Readable fs f ->
  GoodLibrary pr fs' -> In g fs' -> EncryptedAs pr K fs' g out ->
  n_dir f = [] -> IsPackage f -> n_dir g = [] -> IsPackage g ->
  decrypt_all pr K disk basedir [] (map (fun h => (moc_path h, moc h)) reqs ++ [(moc_path f, out)])
  = Ok (map (fun h => Some (n_data h)) reqs ++ [Some (n_data g)]).
Proof.
  intros pr K fs basedir disk moc reqs f fs' g out G LK GL Ins R If Rd GL' Ig En Df Pf Dg Pg.
  destruct (encrypted_parts pr K fs' g out G LK GL' Ig En) as (key & data & ct & FK & _ & Se & Li & _ & Ld & Ep).
  destruct (Ep Pg) as [-> Lm].
  assert (key = K) as -> by (destruct FK as [m Np N|d c' m P Ed N|P Ed]; [contradiction|rewrite Dg in Ed; now destruct d|reflexivity]).
  rewrite (served_sealed pr K fs basedir disk moc reqs f K (n_iv g) (n_data g ++ n_mask g) out)
    by first [assumption|now apply K_top|intros _; rewrite app_length; lia].
  rewrite Pf, beq_refl, app_length, Lm. replace (length (n_data g) + p_len pr - p_len pr) with (length (n_data g)) by lia.
  now rewrite firstn_app, firstn_all, Nat.sub_diag, app_nil_r.
Qed.
Print Assumptions C94_other_library_refuted.

(** ** Cases *)

(** Two files in the top directory, one package below it. *)
Definition other_model := file [] (B "L.mo") (B "within P; model L end L;") 9.
Definition twins : list entry := [top_package; top_model; other_model; sub_package; sub_model].
Lemma twins_good : GoodLibrary toy twins.
Proof.
  split.
  - repeat (apply Forall_cons; [apply good_file; try reflexivity; try (apply name_check; reflexivity); repeat (apply Forall_cons; [apply name_check; reflexivity|]); apply Forall_nil|]). apply Forall_nil.
  - cbn [map twins n_dir n_name file top_package top_model other_model sub_package sub_model].
    repeat constructor; cbn [In]; intros H; repeat destruct H as [H|H]; try discriminate H; exact H.
Qed.
Definition twin_outs : list bytes :=
  match encrypt_all toy toy_key [] (map source_of twins) with Ok (Some o) => o | _ => [] end.
Lemma twins_installed : exists moc, Installed toy toy_key twins (B "/lib") (disk_of (B "/lib") twins twin_outs) moc /\
  forall f out, In (f, out) (combine twins twin_outs) -> moc f = out.
Proof.
  apply disk_of_installed; [exact toy_good|reflexivity|exact twins_good| |vm_compute; reflexivity|].
  - intros pre f post E P g Ig. exact (package_first_ok twins [] eq_refl pre f post E P g Ig).
  - intros f I. cbn [twins In] in I. destruct I as [<-|[<-|[<-|[<-|[<-|[]]]]]]; apply Nat.leb_le; reflexivity.
Qed.
Lemma twins_readable f : n_dir f = [] -> Readable twins f.
Proof.
  intros D. split.
  - unfold InPackage. exists (n_mask top_package). rewrite D. apply (has_mask twins top_package); [cbn; tauto|reflexivity].
  - intros p I P A. cbn [twins In] in I. destruct I as [<-|[<-|[<-|[<-|[<-|[]]]]]]; first [discriminate|right; discriminate].
Qed.

Example C94_ex :
  (exists moc, Installed toy toy_key twins (B "/lib") (disk_of (B "/lib") twins twin_outs) moc) /\
  In top_model twins /\ Readable twins top_model /\ In other_model twins /\ n_dir top_model = n_dir other_model /\ ~ IsPackage top_model /\ ~ IsPackage other_model /\
  In sub_package twins /\ n_dir sub_package = n_dir top_model ++ [B "Sub"] /\ IsPackage sub_package /\
  decrypt_all toy toy_key (disk_of (B "/lib") twins twin_outs) (B "/lib") []
    [(B "M.moc", nth 1 twin_outs []); (B "M.moc", nth 2 twin_outs []); (B "M.moc", nth 3 twin_outs []); (B "M.moc", nth 4 twin_outs [])]
  = Ok [Some (n_data top_model); Some (n_data other_model); Some (n_data sub_package ++ n_mask sub_package); None].
Proof.
  split; [destruct twins_installed as (moc & H & _); now exists moc|]. split; [cbn; tauto|]. split; [now apply twins_readable|].
  split; [cbn; tauto|]. split; [reflexivity|]. split; [discriminate|]. split; [discriminate|]. split; [cbn; tauto|]. split; [reflexivity|].
  split; [reflexivity|]. vm_compute. reflexivity.
Qed.

(** The only file of another library, in the place of the top package file of [twins]. *)
Definition other_package := file [] (B "package.mo") (B "package Q end Q;") 20.
Definition other_out : bytes :=
  match encrypt_all toy toy_key [] [source_of other_package] with Ok (Some [o]) => o | _ => [] end.
Example C94_other_library_ex :
  GoodLibrary toy [other_package] /\ EncryptedAs toy toy_key [other_package] other_package other_out /\
  In top_package twins /\ Readable twins top_package /\ n_dir top_package = [] /\ IsPackage top_package /\
  n_dir other_package = [] /\ IsPackage other_package /\ n_data other_package <> n_data top_package /\
  decrypt_all toy toy_key (disk_of (B "/lib") twins twin_outs) (B "/lib") [] [(B "package.moc", other_out)] = Ok [Some (n_data other_package)].
Proof.
  assert (GL : GoodLibrary toy [other_package]).
  { split.
    - apply Forall_cons; [|apply Forall_nil]. apply good_file; try reflexivity; [apply Forall_nil|apply name_check; reflexivity].
    - cbn [map]. apply NoDup_cons; [intros []|apply NoDup_nil]. }
  split; [exact GL|]. split.
  { destruct (disk_of_installed toy toy_key (B "/q") [other_package] [other_out]) as (moc & Ins & M);
      [exact toy_good|reflexivity|exact GL| |vm_compute; reflexivity| |].
    - intros pre f post E P g Ig. exact (package_first_ok [other_package] [] eq_refl pre f post E P g Ig).
    - intros f [<-|[]]. apply Nat.leb_le. reflexivity.
    - rewrite <- (M other_package other_out) by (now left). apply (proj1 (proj2 Ins)). now left. }
  split; [cbn; tauto|]. split; [now apply twins_readable|]. split; [reflexivity|]. split; [reflexivity|]. split; [reflexivity|].
  split; [reflexivity|]. split; [discriminate|]. vm_compute. reflexivity.
Qed.
