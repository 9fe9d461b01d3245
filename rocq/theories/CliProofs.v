(** Proofs about the programs that encrypt and decrypt single files. *)
From Verif Require Import Base BaseProofs WireModel CryptModel CryptSpec CbcProofs MaskProofs DemaskProofs CryptProofs CliModel CliSpec CliMasks.

(** ** A file is added to, or replaced in, an installed library *)

Lemma hasmask_in fs fs' d m : (forall g, In g fs -> IsPackage g -> In g fs') -> HasMask fs d m -> HasMask fs' d m.
Proof. intros H (g & I & P & E). exists g. auto. Qed.
Lemma nopackage_in fs fs' d : (forall g, In g fs -> IsPackage g -> In g fs') -> NoPackage fs' d -> NoPackage fs d.
Proof. intros H N m Hm. apply (N m). now apply (hasmask_in fs). Qed.

(** Masks found from a directory do not depend on packages that are not above it. *)
Lemma nearest_grow {pr : primitives} fs fs' f : (forall g, In g fs -> IsPackage g -> In g fs') -> (forall g, In g fs' -> g = f \/ In g fs) ->
  forall d m, Nearest pr fs d m -> (IsPackage f -> ~ Above (n_dir f) d) -> Nearest pr fs' d m.
Proof.
  intros H1 H2.
  assert (Np : forall d, (IsPackage f -> ~ Above (n_dir f) d) -> NoPackage fs d -> NoPackage fs' d).
  { intros d A N m (g & I & P & E & Em). destruct (H2 g I) as [->|Ig]; [apply (A P); rewrite E; apply above_refl|].
    apply (N m). now exists g. }
  intros d m N. induction N as [d m H|d c m H N IH|H]; intros A.
  - apply Near_here. now apply (hasmask_in fs).
  - apply Near_up; [now apply Np|]. apply IH. intros P X. apply (A P). now apply above_up.
  - apply Near_top. now apply Np.
Qed.
Lemma filekey_grow {pr : primitives} fs fs' f g K k : (forall g, In g fs -> IsPackage g -> In g fs') -> (forall g, In g fs' -> g = f \/ In g fs) ->
  (IsPackage f -> ~ Above (n_dir f) (n_dir g)) -> FileKey pr fs K g k -> FileKey pr fs' K g k.
Proof.
  intros H1 H2 A [m P N|d c m P E N|P E].
  - apply K_ordinary; [exact P|]. now apply (nearest_grow fs fs' f H1 H2).
  - apply (K_package fs' K g d c m P E). apply (nearest_grow fs fs' f H1 H2 d m N). intros Pf X. apply (A Pf). rewrite E. now apply above_up.
  - now apply K_top.
Qed.

Lemma encrypted_sealed pr K fs f t flag t' key' rel iv mask data :
  GoodPrimitives pr -> length K = 32 -> MaskLen pr fs -> length (n_iv f) = 16 -> length (n_mask f) = p_len pr ->
  rel = path_of (n_dir f) (n_name f) -> iv = n_iv f -> mask = n_mask f -> data = n_data f ->
  mask_key pr (S (length rel)) t rel K mask = Ok (flag, t', key') ->
  ((IsPackage f /\ flag = 1%Z) \/ (~ IsPackage f /\ flag = 0%Z)) -> FileKey pr fs K f key' ->
  exists out, cr_encrypt pr K t rel iv mask data = Ok (t', Some out) /\ EncryptedAs pr K fs f out.
Proof.
  intros G LK ML Li Lm -> -> -> -> Em Fl FK.
  assert (Lk : length key' = 32) by exact (filekey_len fs K f key' ML LK FK).
  destruct (encrypt_with_sealed pr key' (n_iv f) (n_data f) (if (flag =? 0)%Z then None else Some (n_mask f)) G Lk Li) as (out & Eo & So).
  { destruct (flag =? 0)%Z; [discriminate|]. intros m Q. injection Q as <-. exact Lm. }
  exists out. split.
  - unfold cr_encrypt. rewrite Em. cbn [bind].
    assert (Nf : (flag <? 0)%Z = false) by (destruct Fl as [[_ ->]|[_ ->]]; reflexivity).
    rewrite Nf, Eo. reflexivity.
  - exists key'. destruct Fl as [[P ->]|[P ->]]; cbn [Z.eqb] in So.
    + exists (n_data f ++ n_mask f). split; [exact FK|]. split; [now apply P_package|exact So].
    + exists (n_data f). split; [exact FK|]. split; [now apply P_ordinary|]. now rewrite app_nil_r in So.
Qed.

(** The key found for [f] with a table that has the masks of the packages above it. *)
Lemma mask_loaded {pr : primitives} fs f t K : Forall (GoodEntry pr) fs -> In f fs -> TableOk pr fs t ->
  (IsPackage f -> find_mask t (dirstr (n_dir f)) = None) ->
  (forall p, In p fs -> IsPackage p -> Above (n_dir p) (n_dir f) -> p = f \/ exists m, find_mask t (dirstr (n_dir p)) = Some m) ->
  exists flag t' key', mask_key pr (S (length (path_of (n_dir f) (n_name f)))) t (path_of (n_dir f) (n_name f)) K (n_mask f) = Ok (flag, t', key') /\
    ((IsPackage f /\ flag = 1%Z) \/ (~ IsPackage f /\ flag = 0%Z)) /\ FileKey pr fs K f key'.
Proof.
  intros GF If Tok No Pk. pose proof (good_mask_len fs GF) as ML.
  assert (Ge : GoodEntry pr f) by (rewrite Forall_forall in GF; now apply GF).
  pose proof (gooddir_entry f Ge) as Gd. destruct Ge as (Fd & Nn & _ & Case & Len & _ & Lm & _).
  assert (Dp : IsPackage f \/ ~ IsPackage f) by (unfold IsPackage; destruct (beq_spec (n_name f) (B "package.mo")); tauto).
  destruct Dp as [P|P].
  - rewrite mask_key_S, split_dir by (auto using name_noslash; lia). cbn iota beta. rewrite package_caseeq by exact P.
    rewrite (No P), dirstr_root by exact Fd.
    assert (Dd : n_dir f = [] \/ exists d c0, n_dir f = d ++ [c0]).
    { destruct (n_dir f) as [|c0 d _] using rev_ind; [now left|right; now exists d, c0]. }
    destruct Dd as [Ed|(d & c0 & Ed)].
    + rewrite Ed. cbn [bind Z.eqb]. do 3 eexists. split; [reflexivity|]. split; [now left|]. now apply K_top.
    + rewrite Ed in Len, Gd |- *.
      replace (match d ++ [c0] with [] => true | _ => false end) with false by (destruct d; reflexivity).
      destruct (gooddir_snoc d c0 Gd) as (Gd' & N0 & C0 & _). rewrite dirstr_snoc.
      destruct (mask_dir fs (n_mask f) ML d c0 (length (path_of (d ++ [c0]) (n_name f))) t K Gd' (name_noslash _ N0) C0)
        as (t1 & m & Em & Ne & _).
      { rewrite path_of_snoc, app_length in Len. lia. }
      { pose proof (path_length (d ++ [c0]) (n_name f)) as L. rewrite app_length in L. cbn in L. lia. }
      { exact Tok. }
      { intros a v Ha (p & Ip & Pp & Dp & _). destruct (Pk p Ip Pp) as [->|E].
        - rewrite Dp, Ed. now apply above_up.
        - exfalso. rewrite Dp in Ed. subst a. apply above_length in Ha. rewrite app_length in Ha. cbn in Ha. lia.
        - now rewrite Dp in E. }
      rewrite Em. cbn [bind Z.eqb]. do 3 eexists. split; [reflexivity|]. split; [now left|].
      now apply (K_package fs K f d c0 m P Ed).
  - assert (Cf : caseeq (n_name f) PACKAGE_MO = false) by (destruct (caseeq (n_name f) PACKAGE_MO) eqn:Q; [exfalso; auto|reflexivity]).
    destruct (mask_dir fs (n_mask f) ML (n_dir f) (n_name f) (S (length (path_of (n_dir f) (n_name f)))) t K Gd (name_noslash _ Nn) Cf)
      as (t1 & m & Em & Ne & _).
    { lia. }
    { pose proof (path_length (n_dir f) (n_name f)). lia. }
    { exact Tok. }
    { intros a v Ha (p & Ip & Pp & Dp & _). destruct (Pk p Ip Pp) as [->|E]; [now rewrite Dp|contradiction|]. now rewrite Dp in E. }
    rewrite Em. do 3 eexists. split; [reflexivity|]. split; [now right|now apply K_ordinary].
Qed.

Lemma removelast_moc d n : removelast (path_of d (n ++ B "c")) = path_of d n.
Proof.
  replace (path_of d (n ++ B "c")) with (path_of d n ++ B "c"); [apply removelast_last|].
  induction d as [|x d IH]; [reflexivity|]. cbn [path_of]. rewrite <- IH. now rewrite <- !app_assoc.
Qed.

(** The table after the masks have been looked for. *)
Lemma load_masks pr K fs basedir disk moc f junk :
  GoodPrimitives pr -> length K = 32 -> GoodLibrary pr fs -> Installed pr K fs basedir disk moc ->
  GoodEntry pr f -> length basedir + length (path_of (n_dir f) (n_name f)) <= 4000 -> length junk = 32 ->
  (IsPackage f -> NoPackage fs (n_dir f)) -> Filled fs (n_dir f) ->
  exists flag t key, demask_key (2 * length (moc_path f) + 4) pr K disk basedir [] (moc_path f) junk = Ok (flag, t, key) /\
    Cache fs t /\ Full fs t (n_dir f).
Proof.
  intros G LK GL Ins Ge Fit Lj Np Fi. pose proof (gooddir_entry f Ge) as Gd. destruct Ge as (Fd & Nn & _ & Case & Len & Li & Lm & Ld).
  assert (L1 : 1 <= length (n_name f)) by (destruct Nn as [Nn _]; destruct (n_name f); [congruence|cbn; lia]).
  assert (Pf : PkgFits basedir (n_dir f)).
  { unfold PkgFits. enough (length (path_of (n_dir f) PACKAGE_MOC) <= length (path_of (n_dir f) (n_name f)) + 10) by lia.
    clear - L1. induction (n_dir f) as [|x d IH]; [cbn; lia|]. cbn [path_of]. rewrite !app_length. cbn [length]. lia. }
  destruct (demask_full pr K fs basedir disk moc G LK GL Ins (n_dir f) Gd Pf) as [Da Db].
  assert (Lmoc : length (moc_path f) = length (path_of (n_dir f) (n_name f)) + 1) by apply path_moc_length.
  pose proof (path_length (n_dir f) (n_name f)) as Lp.
  assert (Empty : Loaded fs []) by (split; [intros a m _ E; discriminate|intros a m _ E; discriminate]).
  assert (Dp : IsPackage f \/ ~ IsPackage f) by (unfold IsPackage; destruct (beq_spec (n_name f) (B "package.mo")); tauto).
  destruct Dp as [P|P].
  - assert (Em : moc_path f = path_of (n_dir f) PACKAGE_MOC) by (unfold moc_path; now rewrite P).
    destruct (Da (2 * length (moc_path f) + 4) [] junk) as (t1 & k1 & E & C1 & F1 & _); [lia| |exact Empty|exact Lj|].
    { intros d' c' Ed' p Ip Pp A. apply (Fi p Ip Pp). rewrite Ed'. now apply above_up. }
    exists 1%Z, t1, k1. rewrite <- Em in E. split; [exact E|]. split; [apply C1|].
    intros a m A H. destruct (n_dir f) as [|c0 d _] using rev_ind.
    + apply above_nil in A. subst a. exfalso. now apply (Np P m).
    + apply above_snoc in A. destruct A as [->|A]; [exfalso; now apply (Np P m)|]. exact (F1 d c0 eq_refl a m A H).
  - assert (Cf : caseeq (n_name f ++ B "c") PACKAGE_MOC = false).
    { rewrite caseeq_moc. destruct (caseeq (n_name f) PACKAGE_MO) eqn:Q; [exfalso; auto|reflexivity]. }
    destruct (Db (2 * length (moc_path f) + 4) [] junk (n_name f ++ B "c")) as (flag & t1 & m & E & C1 & F1 & _);
      [lia|exact Fi|exact Empty|exact Lj|apply noslash_moc; now apply name_noslash|exact Cf| |].
    { rewrite path_moc_length. lia. }
    exists flag, t1, (xor junk m). split; [exact E|]. split; [apply C1|exact F1].
Qed.

Notation output := under.
Lemma output_inj basedir f g : output basedir f = output basedir g -> moc_path f = moc_path g.
Proof. unfold under. intros E. apply app_inv_head in E. apply (f_equal (@tl _)) in E. exact E. Qed.
Lemma write_here fs p c : write fs p c p = c.
Proof. unfold write. now rewrite beq_refl. Qed.
Lemma write_other fs p c q : q <> p -> write fs p c q = fs q.
Proof. intros N. unfold write. apply beq_false in N. now rewrite N. Qed.

(** The library [fs'] is [fs] with the new contents of [f]. *)
Definition Updated (fs fs' : list entry) (f : entry) : Prop :=
  In f fs' /\ (forall g, In g fs' -> g = f \/ In g fs) /\ (forall g, In g fs -> IsPackage g -> In g fs') /\
  (IsPackage f -> forall g, In g fs -> ~ Above (n_dir f) (n_dir g)).

Lemma encrypt_one pr K o fs fs' basedir disk moc f clear :
  GoodPrimitives pr -> length K = 32 -> GoodLibrary pr fs -> GoodLibrary pr fs' -> Installed pr K fs basedir disk moc ->
  Updated fs fs' f -> length basedir + length (path_of (n_dir f) (n_name f)) <= 4000 -> Filled fs (n_dir f) ->
  disk clear = Some (n_data f) -> clear <> output basedir f -> o_writable o (output basedir f) = true ->
  o_iv o = n_iv f -> o_mask o = n_mask f -> length (o_junk o) = 32 ->
  exists out moc', encrypt_file pr K o disk [clear; moc_path f; basedir] = Ok (0%Z, write disk (output basedir f) (Some out)) /\
    EncryptedAs pr K fs' f out /\ Installed pr K fs' basedir (write disk (output basedir f) (Some out)) moc'.
Proof.
  intros G LK GL GL' Ins (If & Old & Keep & New) Fit Fi Dc Nc Wr Iv Mk Lj.
  assert (Ge : GoodEntry pr f) by (destruct GL' as [GF _]; rewrite Forall_forall in GF; now apply GF).
  assert (Np : IsPackage f -> NoPackage fs (n_dir f)).
  { intros P m (g & Ig & _ & E & _). apply (New P g Ig). rewrite E. apply above_refl. }
  destruct (load_masks pr K fs basedir disk moc f (o_junk o) G LK GL Ins Ge Fit Lj Np Fi) as (flag0 & t & key0 & De & C & Fu).
  assert (Tok : TableOk pr fs' t).
  { intros a m Fa E. apply Near_here. apply (hasmask_in fs); [exact Keep|]. now apply C. }
  pose proof Ge as (Fd & Nn & _ & Case & Len & Li & Lm & Ld).
  destruct (mask_loaded fs' f t K (proj1 GL') If Tok) as (flag & t' & key' & Em & Fl & FK).
  { intros P. destruct (find_mask t (dirstr (n_dir f))) as [m|] eqn:E; [|reflexivity].
    exfalso. apply (Np P m). now apply C. }
  { intros p Ip Pp A. destruct (Old p Ip) as [->|Ig]; [now left|]. right. apply (Fu (n_dir p) (n_mask p) A). now exists p. }
  destruct (encrypted_sealed pr K fs' f t flag t' key' _ _ _ _ G LK (good_mask_len _ (proj1 GL')) Li Lm eq_refl eq_refl eq_refl eq_refl Em Fl FK) as (out & Ee & Enc).
  assert (Lmoc : length (moc_path f) = length (path_of (n_dir f) (n_name f)) + 1) by apply path_moc_length.
  set (disk' := write disk (output basedir f) (Some out)).
  exists out, (fun g => match disk' (output basedir g) with Some c => c | None => [] end).
  split; [|split; [exact Enc|]].
  - unfold encrypt_file. rewrite Dc. unfold destination.
    destruct (Nat.leb_spec PATH_LEN (length (moc_path f))) as [X|_]; [unfold PATH_LEN in X; lia|].
    rewrite De. cbn [bind]. destruct (moc_path f) as [|x r] eqn:E; [cbn in Lmoc; lia|]. rewrite <- E. cbn [bind].
    rewrite snprintf_fits by (rewrite !app_length, E, Lmoc; cbn [length]; unfold PATH_LEN; lia).
    fold (under basedir f). rewrite Wr. cbn [negb]. rewrite (proj2 (beq_false _ _) Nc). unfold moc_path. rewrite removelast_moc, Iv, Mk, Ee. reflexivity.
  - destruct Ins as (Fits & Here & Gone). split; [|split].
    + intros g Ig. destruct (Old g Ig) as [->|Io]; [exact Fit|now apply Fits].
    + intros g Ig. destruct (Old g Ig) as [->|Io].
      { unfold disk'. rewrite write_here. split; [exact Enc|]. unfold under. apply write_here. }
      destruct (beq_spec (output basedir g) (output basedir f)) as [E|E].
      { apply output_inj in E. apply (moc_path_inj fs' g f GL' Ig If) in E. subst g.
        unfold disk'. rewrite write_here. split; [exact Enc|]. unfold under. apply write_here. }
      fold (under basedir g). unfold disk'. rewrite write_other by exact E. destruct (Here g Io) as [Eg Dg]. fold (under basedir g) in Dg. rewrite Dg.
      split; [|reflexivity].
      destruct Eg as (kg & dg & FKg & Pg & Sg). exists kg, dg. split; [|now split].
      apply (filekey_grow fs fs' f g K kg Keep Old); [|exact FKg]. intros P. now apply New.
    + intros d Fdd N. unfold disk'. rewrite write_other; [apply Gone; [exact Fdd|now apply (nopackage_in fs fs')]|].
      intros E. unfold under in E. apply app_inv_head in E. apply (f_equal (@tl _)) in E. cbn [tl app] in E.
      apply path_of_inj in E; [|exact Fdd|exact Fd|exact noslash_package|now apply noslash_moc, name_noslash].
      destruct E as [-> En]. change (B "package.moc") with (B "package.mo" ++ B "c") in En. apply app_inv_tail in En.
      apply (N (n_mask f)). exists f. split; [exact If|]. split; [symmetry; exact En|]. now split.
Qed.

(** ** Whole libraries, one process for each file *)

Lemma installed_empty pr K basedir disk moc :
  (forall d, Forall Name d -> disk (basedir ++ [SLASH] ++ path_of d (B "package.moc")) = None) ->
  Installed pr K [] basedir disk moc.
Proof. intros H. split; [intros f []|]. split; [intros f []|]. intros d F _. now apply H. Qed.

Lemma good_app {pr : primitives} fs fs2 : GoodLibrary pr (fs ++ fs2) -> GoodLibrary pr fs.
Proof.
  intros [F N]. split; [apply Forall_app in F; tauto|]. rewrite map_app in N. revert N.
  generalize (map (fun f : entry => (n_dir f, n_name f)) fs2) as r. generalize (map (fun f : entry => (n_dir f, n_name f)) fs) as l.
  clear. induction l as [|x l IH]; intros r N; [constructor|]. cbn [app] in N. apply NoDup_cons_iff in N. destruct N as [N1 N].
  constructor; [|now apply (IH r)]. intros I. apply N1. apply in_app_iff. now left.
Qed.
