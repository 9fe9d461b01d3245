(** Proofs about runs of the programs that encrypt and decrypt single files. *)
From Verif Require Import Base BaseProofs WireModel CryptModel CryptSpec CbcProofs MaskProofs DemaskProofs CryptProofs CliModel CliSpec CliMasks CliProofs.

Lemma updated_add {pr : primitives} done f : GoodLibrary pr (done ++ [f]) -> (IsPackage f -> forall g, In g done -> ~ Above (n_dir f) (n_dir g)) ->
  Updated done (done ++ [f]) f.
Proof.
  intros GL PF. split; [apply in_app_iff; right; now left|]. split; [|split].
  - intros g I. apply in_app_iff in I. destruct I as [I|[<-|[]]]; [now right|now left].
  - intros g I _. apply in_app_iff. now left.
  - exact PF.
Qed.

Lemma runs_library pr K fs basedir src o disk0 :
  GoodPrimitives pr -> length K = 32 -> GoodLibrary pr fs -> PackageFirst fs -> FilledAbove fs ->
  (forall f, In f fs -> length basedir + length (path_of (n_dir f) (n_name f)) <= 4000) ->
  (forall f, In f fs -> disk0 (src f) = Some (n_data f)) ->
  (forall f g, In f fs -> In g fs -> src f <> under basedir g) ->
  (forall f, In f fs -> RunOf (o f) basedir f) ->
  forall rest done disk moc, fs = done ++ rest -> Installed pr K done basedir disk moc ->
  (forall q, (forall f, In f done -> q <> under basedir f) -> disk q = disk0 q) ->
  exists disk' moc', Runs pr K disk (map (fun f => (o f, [src f; moc_path f; basedir])) rest) disk' /\
    Installed pr K fs basedir disk' moc' /\
    (forall q, (forall f, In f fs -> q <> under basedir f) -> disk' q = disk0 q).
Proof.
  intros G LK GL PF Fill Fits Src Apart Ext.
  induction rest as [|f rest IH]; intros done disk moc E Ins Frame.
  - rewrite app_nil_r in E. subst done. exists disk, moc. split; [constructor|]. now split.
  - assert (E' : fs = (done ++ [f]) ++ rest) by now rewrite <- app_assoc.
    assert (If : In f fs) by (rewrite E; apply in_app_iff; right; now left).
    assert (Id : forall g, In g done -> In g fs) by (intros g I; rewrite E; apply in_app_iff; now left).
    assert (GL1 : GoodLibrary pr (done ++ [f])) by (rewrite E' in GL; now apply good_app in GL).
    assert (GL0 : GoodLibrary pr done) by now apply good_app in GL1.
    destruct (Ext f If) as (Iv & Mk & Lj & Wr).
    destruct (encrypt_one pr K (o f) done (done ++ [f]) basedir disk moc f (src f) G LK GL0 GL1 Ins) as (out & moc' & Er & _ & Ins').
    { apply (updated_add (pr := pr)); [exact GL1|]. intros P g Ig. now apply (PF done f rest E P). }
    { now apply Fits. }
    { intros p Ip P A. apply (Fill p f (Id p Ip) P If); [|exact A]. intros ->.
      destruct GL1 as [_ N]. rewrite map_app in N. apply NoDup_remove_2 in N. apply N. rewrite app_nil_r.
      apply (in_map (fun f => (n_dir f, n_name f)) done f Ip). }
    { rewrite Frame; [now apply Src|]. intros g Ig. apply Apart; auto. }
    { now apply Apart. }
    { exact Wr. } { exact Iv. } { exact Mk. } { exact Lj. }
    destruct (IH (done ++ [f]) _ moc' E' Ins') as (disk' & moc2 & R & Ins2 & Fr2).
    { intros q N. rewrite write_other; [apply Frame; intros g Ig; apply N; apply in_app_iff; now left|].
      apply N. apply in_app_iff. right. now left. }
    exists disk', moc2. split; [|now split]. cbn [map]. eapply Runs_cons; [exact Er|exact R].
Qed.

(** ** Without a base directory *)

Lemma nth_skip (s : bytes) d : forall b m, nth m (skipn b s) d = nth (b + m) s d.
Proof. induction s as [|x s IH]; intros [|b] m; cbn [skipn Nat.add nth]; [reflexivity|now destruct m|reflexivity|apply IH]. Qed.

Lemma back_spec s : forall n, n <= length s -> back s n <= n /\ NoSlash (firstn (n - back s n) (skipn (back s n) s)).
Proof.
  induction n as [|k IH]; intros L; cbn [back].
  - split; [lia|]. cbn. split; intros [].
  - destruct (is_slash (nth k s NUL)) eqn:E.
    + split; [lia|]. rewrite Nat.sub_diag. cbn. split; intros [].
    + destruct (IH ltac:(lia)) as [Lb [N1 N2]]. split; [lia|].
      assert (Ef : firstn (S k - back s k) (skipn (back s k) s) = firstn (k - back s k) (skipn (back s k) s) ++ [nth k s NUL]).
      { assert (Lk : k - back s k < length (skipn (back s k) s)) by (rewrite skipn_length; lia).
        replace (S k - back s k) with (S (k - back s k)) by lia.
        replace (nth k s NUL) with (nth (k - back s k) (skipn (back s k) s) NUL).
        - clear - Lk. revert Lk. generalize (k - back s k) as m. generalize (skipn (back s k) s) as l.
          induction l as [|x l IH]; intros m L; [cbn in L; lia|]. destruct m as [|m]; [reflexivity|]. cbn [firstn app nth].
          cbn [length] in L. specialize (IH m ltac:(lia)). cbn [firstn] in IH. now rewrite IH.
        - rewrite nth_skip. f_equal. lia. }
      rewrite Ef. unfold is_slash in E. apply orb_false_iff in E. destruct E as [E1 E2].
      split; intros I; apply in_app_iff in I; destruct I as [I|[I|[]]].
      * exact (N1 I). * rewrite I, Ascii.eqb_refl in E1. discriminate.
      * exact (N2 I). * rewrite I, Ascii.eqb_refl in E2. discriminate.
Qed.

(** Encryption with an empty table of a name without directory. *)
Lemma mask_alone {pr : primitives} rel K rnd fuel : NoSlash rel -> length K = 32 ->
  mask_key pr (S fuel) [] rel K rnd =
  if caseeq rel PACKAGE_MO then Ok (1%Z, [([SLASH], rnd)], K) else Ok (0%Z, [([SLASH], zeros pr)], K).
Proof.
  intros N LK. rewrite mask_key_S, (split_top rel N). cbn iota beta. cbn [find_mask]. change (at_root [SLASH]) with true. cbn iota.
  destruct (caseeq rel PACKAGE_MO); [reflexivity|]. cbn [bind Z.eqb add_mask]. unfold zeros. now rewrite (xor_zeros K (p_len pr)).
Qed.

Lemma encrypt_alone pr K rel iv rnd data : GoodPrimitives pr -> length K = 32 -> NoSlash rel -> length iv = 16 -> length rnd = p_len pr ->
  exists t out, cr_encrypt pr K [] rel iv rnd data = Ok (t, Some out) /\
    Sealed pr K iv (data ++ if caseeq rel PACKAGE_MO then rnd else []) out.
Proof.
  intros G LK N Li Lr. unfold cr_encrypt. rewrite (mask_alone rel K rnd _ N LK).
  destruct (caseeq rel PACKAGE_MO); cbn [bind Z.ltb Z.eqb Z.compare].
  - destruct (encrypt_with_sealed pr K iv data (Some rnd) G LK Li) as (out & E & S0); [intros m Q; injection Q as <-; exact Lr|].
    rewrite E. eexists _, out. split; [reflexivity|exact S0].
  - destruct (encrypt_with_sealed pr K iv data None G LK Li) as (out & E & S0); [discriminate|].
    rewrite E. eexists _, out. split; [reflexivity|exact S0].
Qed.

Lemma overwritten pr K o p : GoodPrimitives pr -> length K = 32 -> length (o_iv o) = 16 -> length (o_mask o) = p_len pr ->
  length p + 1 < 4096 -> o_writable o p = true ->
  exists out rest, Sealed pr K (o_iv o) rest out /\ (rest = [] \/ rest = o_mask o) /\
  forall disk data, disk p = Some data -> encrypt_file pr K o disk [p; p ++ B "c"] = Ok (0%Z, write disk p (Some out)).
Proof.
  intros G LK Li Lm Lp Wr. set (rel := skipn (back (p ++ B "c") (length (p ++ B "c") - 1)) p).
  assert (Ll : length (p ++ B "c") = length p + 1) by (rewrite app_length; reflexivity).
  assert (N : NoSlash rel).
  { destruct (back_spec (p ++ B "c") (length p) ltac:(lia)) as [Lb NS].
    unfold rel. replace (length (p ++ B "c") - 1) with (length p) by lia.
    rewrite skipn_app, firstn_app, skipn_length, Nat.sub_diag in NS. cbn [firstn] in NS. rewrite app_nil_r, firstn_all2 in NS; [exact NS|].
    rewrite skipn_length. lia. }
  destruct (encrypt_alone pr K rel (o_iv o) (o_mask o) [] G LK N Li Lm) as (t & out & E & S0).
  exists out, (if caseeq rel PACKAGE_MO then o_mask o else []). split; [exact S0|]. split; [destruct (caseeq rel PACKAGE_MO); auto|].
  intros disk data D. unfold encrypt_file. rewrite D. unfold destination.
  destruct (Nat.leb_spec PATH_LEN (length (p ++ B "c"))) as [X|_]; [unfold PATH_LEN in X; lia|].
  assert (La : last_byte (p ++ B "c") = Some "c"%char) by (exact (last_byte_repeat p "c" 1 (le_n 1))).
  rewrite La. cbn iota. change (Ascii.eqb "c" "c") with true. cbn iota. change (B "c") with ["c"%char]. rewrite removelast_last. cbn [bind].
  rewrite Wr. cbn [negb]. rewrite beq_refl. fold rel in E |- *. change ["c"%char] with (B "c"). fold rel. rewrite E. reflexivity.
Qed.

Lemma lastpart_back name n : LastPart name n -> skipn (back name (length name - 1)) name = n.
Proof.
  intros (pre & -> & (Ne & N1 & N2 & _) & Hp).
  assert (B1 : forall k, k < length n -> back (pre ++ n) (length pre + k) = length pre).
  { induction k as [|k IH]; intros L.
    - rewrite Nat.add_0_r. destruct Hp as [->|(q & c & -> & Hc)]; [reflexivity|].
      rewrite app_length. cbn [length]. rewrite Nat.add_1_r. cbn [back]. rewrite <- app_assoc, app_nth2, Nat.sub_diag by lia. cbn [app nth].
      destruct Hc as [-> | ->]; reflexivity.
    - rewrite Nat.add_succ_r. cbn [back]. rewrite app_nth2 by lia.
      replace (length pre + k - length pre) with k by lia.
      assert (I : In (nth k n NUL) n) by (apply nth_In; lia).
      assert (E : is_slash (nth k n NUL) = false).
      { unfold is_slash. apply orb_false_iff. split; apply Ascii.eqb_neq; intros X; rewrite X in I; contradiction. }
      rewrite E. apply IH. lia. }
  destruct n as [|x n]; [congruence|].
  replace (length (pre ++ x :: n) - 1) with (length pre + length n) by (rewrite app_length; cbn [length]; lia).
  rewrite B1 by (cbn [length]; lia). rewrite skipn_app, skipn_all, Nat.sub_diag. reflexivity.
Qed.

Lemma alone_plain pr K o f name clear disk : GoodPrimitives pr -> length K = 32 -> GoodEntry pr f -> n_dir f = [] ->
  LastPart name (n_name f) -> last_byte name <> Some "c"%char -> length name < 4096 ->
  o_iv o = n_iv f -> o_mask o = n_mask f -> o_writable o name = true -> disk clear = Some (n_data f) -> clear <> name ->
  exists out, encrypt_file pr K o disk [clear; name] = Ok (0%Z, write disk name (Some out)) /\ EncryptedAs pr K [f] f out.
Proof.
  intros G LK Ge Ed LP Lc Ln Iv Mk Wr D Nc. pose proof Ge as (Fd & Nn & _ & Case & Len & Li & Lm & Ld).
  destruct (encrypt_alone pr K (n_name f) (n_iv f) (n_mask f) (n_data f) G LK (name_noslash _ Nn) Li Lm) as (t & out & E & S0).
  exists out. split.
  - unfold encrypt_file. rewrite D. unfold destination.
    destruct (Nat.leb_spec PATH_LEN (length name)) as [X|_]; [unfold PATH_LEN in X; lia|].
    destruct (last_byte name) as [c|] eqn:La.
    + destruct (Ascii.eqb_spec c "c") as [->|_]; [congruence|]. cbn [bind]. rewrite Wr. cbn [negb].
      rewrite (proj2 (beq_false _ _) Nc), (lastpart_back name (n_name f) LP), Iv, Mk, E. reflexivity.
    + exfalso. destruct LP as (pre & -> & (Ne & _) & _). destruct (n_name f) as [|x r _] using rev_ind; [congruence|].
      rewrite app_assoc in La. pose proof (last_byte_repeat (pre ++ r) x 1 (le_n 1)) as Q. cbn [repeat] in Q. congruence.
  - assert (Dp : IsPackage f \/ ~ IsPackage f) by (unfold IsPackage; destruct (beq_spec (n_name f) (B "package.mo")); tauto).
    destruct Dp as [P|P].
    + rewrite (package_caseeq f P) in S0. exists K, (n_data f ++ n_mask f). split; [now apply K_top|]. split; [now apply P_package|exact S0].
    + replace (caseeq (n_name f) PACKAGE_MO) with false in S0 by (destruct (caseeq (n_name f) PACKAGE_MO) eqn:Q; [exfalso; auto|reflexivity]).
      rewrite app_nil_r in S0. exists K, (n_data f). split; [|split; [now apply P_ordinary|exact S0]].
      pose proof (K_ordinary (pr := pr) [f] K f (repeat NUL (p_len pr)) P) as X. rewrite (xor_zeros K (p_len pr)) in X. apply X. rewrite Ed. apply Near_top.
      intros m (g & [<-|[]] & Pg & _). contradiction.
Qed.

(** ** What changes on the disk *)

Lemma encrypt_frame pr K o disk clear name r code disk' : encrypt_file pr K o disk (clear :: name :: r) = Ok (code, disk') ->
  exists dest, (dest = match r with [d] => snprintf 4096 (d ++ [SLASH] ++ name) | _ => if Ascii.eqb (last name NUL) "c" then removelast name else name end) /\
  (forall q, q <> dest -> disk' q = disk q) /\
  (code = 0%Z \/ disk' dest = None \/ disk' = disk).
Proof.
  intros E. eexists. split; [reflexivity|].
  assert (Run : forall dest t rel data,
    (if negb (o_writable o dest) then Ok (2%Z, disk)
        else
          do (_, out) <- cr_encrypt pr K t rel (o_iv o) (o_mask o) (if beq clear dest then [] else data) ;
          Ok (match out with Some _ => 0%Z | None => 1%Z end, write disk dest out)) = Ok (code, disk') ->
    (forall q, q <> dest -> disk' q = disk q) /\ (code = 0%Z \/ disk' dest = None \/ disk' = disk)).
  { intros dest t rel data. destruct (negb (o_writable o dest)).
    - intros Q. injection Q as <- <-. split; [reflexivity|]. now right; right.
    - destruct (cr_encrypt _ _ _ _ _ _ _) as [[t' out]| |]; cbn [bind]; [|discriminate..].
      intros Q. injection Q as <- <-. split; [intros q N; now apply write_other|].
      destruct out; [now left|right; left; apply write_here]. }
  unfold encrypt_file in E. destruct r as [|d [|]].
  - destruct (disk clear) as [data|]; [|injection E as <- <-; split; [reflexivity|now right; right]].
    unfold destination in E. destruct (PATH_LEN <=? length name); [discriminate|].
    destruct (last_byte name) as [c|] eqn:La; [|discriminate]. cbn [bind] in E.
    assert (Lc : last name NUL = c).
    { clear - La. destruct name as [|x l _] using rev_ind; [discriminate|]. rewrite last_last.
      pose proof (last_byte_repeat l x 1 (le_n 1)) as Q. cbn [repeat] in Q. congruence. }
    rewrite Lc. exact (Run _ _ _ _ E).
  - destruct (disk clear) as [data|]; [|injection E as <- <-; split; [reflexivity|now right; right]].
    unfold destination in E. destruct (PATH_LEN <=? length name); [discriminate|].
    destruct (demask_key _ _ _ _ _ _ _ _) as [[[fl t] k]| |]; cbn [bind] in E; [|discriminate..].
    destruct name as [|x name]; [discriminate|]. cbn [bind] in E. exact (Run _ _ _ _ E).
  - injection E as <- <-. split; [reflexivity|now right; right].
Qed.
