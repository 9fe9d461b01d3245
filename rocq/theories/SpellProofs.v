(** Proofs about the decryption of files requested under other spellings. *)
From Verif Require Import Base BaseProofs WireModel CryptModel CryptSpec CbcProofs MaskProofs DemaskProofs CryptProofs SpellSpec.

Arguments demask_key : simpl never.
Arguments decrypt_with : simpl never.

(** ** Folding *)

Definition fold1 (c : byte) : byte := if Ascii.eqb c BSLASH then SLASH else lower c.
Lemma folded_map p : folded p = map fold1 p. Proof. reflexivity. Qed.
Lemma is_slash_fold c : is_slash (fold1 c) = is_slash c.
Proof. destruct c as [[] [] [] [] [] [] [] []]; reflexivity. Qed.
Lemma fold1_lower c : is_slash c = false -> fold1 c = lower c.
Proof. intros H. unfold fold1. destruct (Ascii.eqb_spec c BSLASH) as [->|]; [discriminate|reflexivity]. Qed.
Lemma slash_lower c : is_slash (lower c) = is_slash c.
Proof. destruct c as [[] [] [] [] [] [] [] []]; reflexivity. Qed.

Lemma folded_app a b : folded (a ++ b) = folded a ++ folded b. Proof. apply map_app. Qed.
Lemma folded_length a : length (folded a) = length a. Proof. apply map_length. Qed.
Lemma folded_same_length a b : folded a = folded b -> length a = length b.
Proof. intros E. rewrite <- (folded_length a), <- (folded_length b). now rewrite E. Qed.
Lemma folded_firstn n a : folded (firstn n a) = firstn n (folded a). Proof. symmetry. apply firstn_map. Qed.
Lemma folded_skipn n a : folded (skipn n a) = skipn n (folded a). Proof. symmetry. apply skipn_map. Qed.

Lemma caseeq_folded w : NoSlash w -> forall b, caseeq b w = beq (folded b) (folded w).
Proof.
  intros Hw b. unfold caseeq. revert w Hw. induction b as [|c b IH]; intros [|x w] Hw; try reflexivity.
  apply noslash_char in Hw. destruct Hw as [Hx Hw]. specialize (IH w Hw).
  cbn [map folded]. fold (folded b). fold (folded w). change (if Ascii.eqb c BSLASH then SLASH else lower c) with (fold1 c).
  change (if Ascii.eqb x BSLASH then SLASH else lower x) with (fold1 x). rewrite (fold1_lower x Hx).
  assert (Hc : Ascii.eqb (lower c) (lower x) = Ascii.eqb (fold1 c) (lower x)).
  { destruct (is_slash c) eqn:S; [|now rewrite fold1_lower].
    rewrite <- slash_lower in Hx. rewrite <- slash_lower in S.
    destruct (Ascii.eqb_spec (lower c) (lower x)) as [E|_]; [rewrite E in S; congruence|].
    destruct (Ascii.eqb_spec (fold1 c) (lower x)) as [E|_]; [|reflexivity].
    rewrite <- E, is_slash_fold, <- slash_lower in Hx. congruence. }
  cbn [beq]. rewrite Hc. destruct (Ascii.eqb (fold1 c) (lower x)); [exact IH|reflexivity].
Qed.

Lemma last_slash_fold s : last_slash (folded s) = last_slash s.
Proof.
  induction s as [|c s IH]; [reflexivity|]. cbn [folded map]. fold (folded s). rewrite !last_slash_cons, IH. destruct (last_slash s); [|reflexivity].
  destruct s as [|y s]; [reflexivity|]. cbn [folded map]. change (if Ascii.eqb y BSLASH then SLASH else lower y) with (fold1 y). now rewrite is_slash_fold.
Qed.
Lemma split_fold s : split_path (folded s) = (option_map folded (fst (split_path s)), folded (snd (split_path s))).
Proof.
  unfold split_path. rewrite <- folded_firstn, last_slash_fold. destruct (last_slash _); [reflexivity|]. cbn [fst snd option_map].
  now rewrite folded_firstn, folded_skipn.
Qed.
Lemma split_same s s' : folded s = folded s' ->
  option_map folded (fst (split_path s)) = option_map folded (fst (split_path s')) /\ folded (snd (split_path s)) = folded (snd (split_path s')).
Proof.
  intros E. pose proof (split_fold s) as A. pose proof (split_fold s') as C. rewrite E in A. rewrite A in C.
  split; [exact (f_equal fst C)|exact (f_equal snd C)].
Qed.
Lemma split_spelled_top s n : NoSlash n -> folded s = folded n -> exists b, split_path s = (None, b) /\ folded b = folded n.
Proof.
  intros N E. destruct (split_same s n E) as [A C]. rewrite (split_top n N) in A, C. cbn [fst snd option_map] in A, C.
  destruct (split_path s) as [[d|] b]; [discriminate|]. now exists b.
Qed.
Lemma split_spelled s d c n : Forall Name d -> Name c -> NoSlash n -> length (path_of (d ++ [c]) n) <= 4096 ->
  folded s = folded (path_of (d ++ [c]) n) ->
  exists s1 b, split_path s = (Some s1, b) /\ folded s1 = folded (path_of d c) /\ folded b = folded n.
Proof.
  intros F N Nn L E. destruct (split_same s _ E) as [A C]. rewrite (split_deep d c n F N Nn L) in A, C. cbn [fst snd option_map] in A, C.
  destruct (split_path s) as [[s1|] b]; [|discriminate]. cbn [fst snd option_map] in *. exists s1, b. split; [reflexivity|]. split; [congruence|exact C].
Qed.

(** ** Steps *)

Lemma spelled_nonempty s d c : Forall Name d -> Name c -> folded s = folded (path_of d c) -> s <> [].
Proof. intros F N E ->. symmetry in E. apply map_eq_nil in E. now apply (path_of_nonempty d c F N). Qed.
Lemma folded_pkg d c s1 : Forall Name d -> Name c -> folded s1 = folded (path_of d c) ->
  folded (s1 ++ B "/package.moc") = folded (path_of (d ++ [c]) PACKAGE_MOC).
Proof. intros F N E. rewrite path_of_snoc, !folded_app, E. reflexivity. Qed.

Lemma spelled_package f pr K disk basedir t d s key : Forall Name d -> length (path_of d PACKAGE_MOC) <= 4096 ->
  folded s = folded (path_of d PACKAGE_MOC) ->
  (d = [] -> demask_key (S f) pr K disk basedir t s key = Ok (1%Z, t, key)) /\
  (forall d' c, d = d' ++ [c] -> exists s1, folded s1 = folded (path_of d' c) /\
     demask_key (S f) pr K disk basedir t s key =
     (do (ret, t1, key1) <- demask_key f pr K disk basedir t s1 key ;
      Ok ((if (ret <? 0)%Z then (-1)%Z else 1%Z), t1, key1))).
Proof.
  intros F L E. split.
  - intros ->. cbn [path_of] in E. destruct (split_spelled_top s _ noslash_package E) as (b & Sp & Eb).
    rewrite demask_S. cbn zeta. rewrite Sp, (caseeq_folded _ noslash_package), Eb, beq_refl. reflexivity.
  - intros d' c ->. apply Forall_app in F. destruct F as [F Fc]. apply Forall_cons_iff in Fc. destruct Fc as [Nc _].
    destruct (split_spelled s d' c _ F Nc noslash_package L E) as (s1 & b & Sp & Es & Eb). exists s1. split; [exact Es|].
    rewrite demask_S. cbn zeta. rewrite Sp, (caseeq_folded _ noslash_package), Eb, beq_refl. reflexivity.
Qed.

Lemma spelled_other f pr K disk basedir t d c s key : Forall Name d -> NoSlash c -> caseeq c PACKAGE_MOC = false ->
  length (path_of d c) <= 4096 -> PkgFits basedir d -> folded s = folded (path_of d c) ->
  exists s1 sk, folded s1 = folded (dirstr d) /\ folded sk = folded (path_of d PACKAGE_MOC) /\
  demask_key (S f) pr K disk basedir t s key =
  match find_mask t s1 with
  | Some m => Ok (0%Z, t, xor key m)
  | None =>
        match disk (basedir ++ [SLASH] ++ sk) with
        | None => demask_key f pr K disk basedir t sk key
        | Some content =>
            do (t1, res, out) <- decrypt_with pr K (demask_key f pr K disk basedir) t sk content ;
            if (0 <? res)%Z
            then Ok (0%Z, t1, xor key (firstn (p_len pr) (skipn (Z.to_nat res) out)))
            else Ok ((-1)%Z, t1, key)
        end
  end.
Proof.
  intros F N C L Fit E. unfold PkgFits in Fit.
  destruct d as [|x d _] using rev_ind.
  - cbn [path_of] in *. destruct (split_spelled_top s c N E) as (b & Sp & Eb).
    exists [SLASH], PACKAGE_MOC. split; [reflexivity|]. split; [reflexivity|].
    rewrite demask_S. cbn zeta. rewrite Sp, (caseeq_folded _ noslash_package), Eb, <- (caseeq_folded _ noslash_package), C.
    change (NAME_MAX <? 12) with false. cbn iota. rewrite snprintf_fits; [reflexivity|]. rewrite !app_length. cbn [length]. unfold NAME_MAX. lia.
  - apply Forall_app in F. destruct F as [F Fc]. apply Forall_cons_iff in Fc. destruct Fc as [Nc _].
    destruct (split_spelled s d x c F Nc N L E) as (s1 & b & Sp & Es & Eb).
    exists s1, (s1 ++ B "/package.moc"). rewrite dirstr_snoc. split; [exact Es|].
    pose proof (folded_pkg d x s1 F Nc Es) as Ek. split; [exact Ek|].
    rewrite demask_S. cbn zeta. rewrite Sp, (caseeq_folded _ noslash_package), Eb, <- (caseeq_folded _ noslash_package), C.
    pose proof (folded_same_length _ _ Ek) as Lk. rewrite <- Lk in Fit.
    assert (Ls : length (s1 ++ B "/package.moc") = length s1 + 12) by (rewrite app_length; reflexivity).
    destruct (Nat.ltb_spec NAME_MAX (length s1 + 13)) as [X|_]; [unfold NAME_MAX in X; lia|].
    rewrite snprintf_fits; [reflexivity|]. rewrite (app_length basedir), (app_length [SLASH]), Ls. cbn [length]. unfold NAME_MAX. lia.
Qed.

Lemma store_spelled t d s m : Forall Name d -> length (path_of d PACKAGE_MOC) <= 4096 -> folded s = folded (path_of d PACKAGE_MOC) ->
  exists s1, folded s1 = folded (dirstr d) /\
  store_mask t s m = Ok (match find_mask t s1 with Some _ => t | None => t ++ [(s1, m)] end).
Proof.
  intros F L E. pose proof (folded_same_length _ _ E) as Ls. unfold store_mask. destruct d as [|c d _] using rev_ind.
  - cbn [path_of] in *. exists [SLASH]. split; [reflexivity|].
    assert (zlen s = 11%Z) as -> by (unfold zlen; rewrite Ls; reflexivity). cbn [Z.eqb Pos.eqb Z.ltb Z.compare].
    change (Z.of_nat NAME_MAX <=? 0)%Z with false. cbn iota. destruct (find_mask t [SLASH]); reflexivity.
  - apply Forall_app in F. destruct F as [F Fc]. apply Forall_cons_iff in Fc. destruct Fc as [Nc _].
    pose proof (path_of_nonempty d c F Nc) as Ne.
    rewrite path_of_snoc in L, Ls, E. rewrite dirstr_snoc. exists (firstn (length (path_of d c)) s).
    split.
    { rewrite folded_firstn, E, folded_app. rewrite <- (folded_length (path_of d c)) at 1. rewrite firstn_app, firstn_all, Nat.sub_diag.
      cbn [firstn]. apply app_nil_r. }
    assert (El : zlen s = (zlen (path_of d c) + 12)%Z).
    { unfold zlen. rewrite Ls, app_length. cbn [length]. change (length PACKAGE_MOC) with 11. lia. }
    assert (Lp : (1 <= zlen (path_of d c))%Z) by (unfold zlen; destruct (path_of d c); [congruence|cbn [length]; lia]).
    rewrite El. destruct (Z.eqb_spec (zlen (path_of d c) + 12) 11) as [|_]; [lia|].
    replace (zlen (path_of d c) + 12 - 12)%Z with (zlen (path_of d c)) by lia.
    destruct (Z.ltb_spec (zlen (path_of d c)) 0) as [|_]; [lia|].
    destruct (Z.leb_spec (Z.of_nat NAME_MAX) (zlen (path_of d c))) as [X|_].
    { rewrite app_length in L. cbn [length] in L. unfold zlen, NAME_MAX in X. change (length PACKAGE_MOC) with 11 in L. lia. }
    destruct (Z.eqb_spec (zlen (path_of d c)) 0) as [|_]; [lia|].
    unfold zlen. rewrite Nat2Z.id. destruct (find_mask t (firstn (length (path_of d c)) s)); reflexivity.
Qed.

(** ** Masks found *)

Definition Spelled (fs : list entry) (t : table) : Prop :=
  forall s m, find_mask t s = Some m -> exists a, Forall Name a /\ HasMask fs a m /\ folded s = folded (dirstr a).

Lemma spelled_add fs t d m s : Forall Name d -> Spelled fs t -> HasMask fs d m -> folded s = folded (dirstr d) ->
  Spelled fs (match find_mask t s with Some _ => t | None => t ++ [(s, m)] end).
Proof.
  intros F C H E. destruct (find_mask t s) eqn:Fi; [exact C|].
  intros a v Ea. rewrite find_app in Ea. destruct (find_mask t a) as [w|] eqn:Ew.
  - apply (C a). congruence.
  - cbn [find_mask] in Ea. destruct (beq_spec s a) as [<-|]; [|discriminate].
    injection Ea as <-. now exists d.
Qed.

Definition InLib (fs : list entry) (d : list bytes) : Prop := exists f, In f fs /\ Above d (n_dir f).
Lemma inlib_up fs d c : InLib fs (d ++ [c]) -> InLib fs d.
Proof. intros (f & I & (e & E)). exists f. split; [exact I|]. exists ([c] ++ e). now rewrite E, <- app_assoc. Qed.

Lemma folded_root a : Forall Name a -> folded (dirstr a) = folded [SLASH] -> a = [].
Proof.
  intros F E. destruct a as [|c d _] using rev_ind; [reflexivity|exfalso]. rewrite dirstr_snoc in E.
  apply Forall_app in F. destruct F as [F Fc]. apply Forall_cons_iff in Fc. destruct Fc as [Nc _].
  assert (H : forall n r, Name n -> folded (n ++ r) <> folded [SLASH]).
  { intros n r Nn. destruct n as [|x n]; [now destruct Nn|]. intros X. cbn [app folded map] in X.
    apply name_noslash, noslash_char in Nn. destruct Nn as [Nx _].
    assert (fold1 x = SLASH) as Ex by (apply (f_equal (hd NUL)) in X; exact X).
    rewrite <- is_slash_fold, Ex in Nx. discriminate. }
  destruct d as [|x d]; cbn [path_of] in E.
  - rewrite <- (app_nil_r c) in E. exact (H c [] Nc E).
  - apply Forall_cons_iff in F. exact (H x _ (proj1 F) E).
Qed.

Lemma spelled_use fs t s m d : Distinct fs -> InLib fs d ->
  Spelled fs t -> find_mask t s = Some m -> folded s = folded (dirstr d) -> Forall Name d -> HasMask fs d m.
Proof.
  intros Di (f & If & Ab) C Fi E F. destruct (C s m Fi) as (a & Fa & H & Ea). rewrite E in Ea.
  assert (Ep : folded (path_of d PACKAGE_MOC) = folded (path_of a PACKAGE_MOC)).
  { destruct d as [|c d _] using rev_ind.
    - rewrite dirstr_top in Ea. symmetry in Ea. apply folded_root in Ea; [now subst a|exact Fa].
    - destruct a as [|x a _] using rev_ind; [rewrite dirstr_top in Ea; apply folded_root in Ea; [destruct d; discriminate|exact F]|].
      rewrite !pkg_path by (destruct d, a; discriminate). now rewrite !folded_app, Ea. }
  pose proof H as (q & Iq & Pq & Dq & Mq).
  rewrite (Di f q d a If Iq Ab); [exact H|rewrite Dq; apply above_refl|exact Ep].
Qed.
Lemma spelled_none fs d : Distinct fs -> InLib fs d -> NoPackage fs d ->
  forall p, In p fs -> IsPackage p -> folded (path_of (n_dir p) (B "package.moc")) <> folded (path_of d (B "package.moc")).
Proof.
  intros Di (f & If & Ab) Np p Ip P E. apply (Np (n_mask p)). exists p. split; [exact Ip|]. split; [exact P|]. split; [|reflexivity].
  exact (Di p f _ _ Ip If (above_refl _) Ab E).
Qed.

(** Decrypting the package file of a directory. *)
Lemma spelled_decrypt pr K fs dm t p moc key flag t1 s :
  GoodPrimitives pr -> length K = 32 -> GoodLibrary pr fs -> In p fs -> IsPackage p ->
  EncryptedAs pr K fs p moc -> FileKey pr fs K p key -> folded s = folded (path_of (n_dir p) PACKAGE_MOC) ->
  dm t s K = Ok (flag, t1, key) -> flag <> 0%Z -> Spelled fs t1 ->
  exists t2, decrypt_with pr K dm t s moc = Ok (t2, zlen (n_data p), n_data p ++ n_mask p) /\ Spelled fs t2.
Proof.
  intros G LK GL Ip P (key' & data & FK' & Pay & Se) FK Es E Fl C.
  assert (key' = key) as -> by (eapply filekey_unique; eassumption).
  assert (data = n_data p ++ n_mask p) as -> by (destruct Pay; [contradiction|reflexivity]).
  pose proof (good_mask_len fs (proj1 GL)) as ML.
  assert (Ge : GoodEntry pr p) by (destruct GL as [GF _]; rewrite Forall_forall in GF; now apply GF).
  destruct Ge as (Fd & _ & _ & _ & Len & Li & Lm & Ld).
  pose proof (filekey_len fs K _ key ML LK FK) as Lk.
  assert (Lz : zlen (n_data p ++ n_mask p) = (zlen (n_data p) + Z.of_nat (p_len pr))%Z) by (unfold zlen; rewrite app_length, Lm; lia).
  rewrite (decrypt_sealed pr K dm t _ key (n_iv p) _ moc flag t1 G Lk Li) by first [eassumption | rewrite Lz; destruct G as (_ & _ & Ln); lia].
  destruct (Z.eqb_spec flag 0) as [|_]; [contradiction|]. cbn zeta. rewrite Lz.
  replace (zlen (n_data p) + Z.of_nat (p_len pr) - Z.of_nat (p_len pr))%Z with (zlen (n_data p)) by lia.
  destruct (Z.ltb_spec (zlen (n_data p)) 0) as [X|_]; [unfold zlen in X; lia|].
  unfold zlen at 1. rewrite Nat2Z.id, skipn_app, skipn_all, Nat.sub_diag. cbn [skipn app].
  rewrite firstn_all2 by (rewrite Lm;  lia).
  assert (Q : length (path_of (n_dir p) PACKAGE_MOC) <= 4096).
  { rewrite P in Len. change PACKAGE_MOC with (B "package.mo" ++ B "c"). rewrite path_moc_length. lia. }
  destruct (store_spelled t1 (n_dir p) s (n_mask p) Fd Q Es) as (s1 & E1 & St). rewrite St. cbn [bind].
  eexists. split; [reflexivity|]. apply (spelled_add fs t1 (n_dir p)); [exact Fd|exact C|exists p; auto|exact E1].
Qed.

Lemma spelled_dirs pr K fs basedir disk moc :
  GoodPrimitives pr -> length K = 32 -> GoodLibrary pr fs -> Installed_folded pr K fs basedir disk moc -> Insensitive disk -> Distinct fs ->
  forall d, GoodDir d -> InLib fs d -> PkgFits basedir d ->
  (forall fuel t key s, folded s = folded (path_of d PACKAGE_MOC) ->
     2 * length d < fuel -> (forall d' c, d = d' ++ [c] -> Filled fs d') -> Spelled fs t -> length key = 32 ->
     exists t' key', demask_key fuel pr K disk basedir t s key = Ok (1%Z, t', key') /\ Spelled fs t' /\
       ((d = [] /\ key' = key) \/ exists d' c m, d = d' ++ [c] /\ Nearest pr fs d' m /\ key' = xor key m)) /\
  (forall fuel t key c s, folded s = folded (path_of d c) -> 2 * length d + 1 < fuel -> Filled fs d -> Spelled fs t -> length key = 32 ->
     NoSlash c -> caseeq c PACKAGE_MOC = false -> length (path_of d c) <= 4096 ->
     exists flag t' m, demask_key fuel pr K disk basedir t s key = Ok (flag, t', xor key m) /\ Spelled fs t' /\
       Nearest pr fs d m /\ (0 <= flag)%Z /\ (forall m', HasMask fs d m' -> flag = 0%Z)).
Proof.
  intros G LK GL Ins In_ Di. pose proof (good_mask_len fs (proj1 GL)) as ML.
  induction d as [|c0 d IH] using rev_ind; intros Gd IL Fit.
  - match goal with |- ?A /\ _ => assert (PA : A) end.
    { intros fuel t key s Es Fu _ C Lk. destruct fuel as [|f]; [lia|].
      rewrite (proj1 (spelled_package f pr K disk basedir t [] s key (Forall_nil _) ltac:(cbn; lia) Es) eq_refl).
      exists t, key. split; [reflexivity|]. split; [exact C|]. now left. }
    split; [exact PA|].
    intros fuel t key c s Es Fu Fl C Lk Nc Cc Lc. destruct fuel as [|f]; [lia|].
    destruct (spelled_other f pr K disk basedir t [] c s key (Forall_nil _) Nc Cc Lc Fit Es) as (s1 & sk & E1 & Ek & ->).
    destruct (find_mask t s1) as [m|] eqn:Fi.
    { pose proof (spelled_use fs t s1 m [] Di IL C Fi E1 (Forall_nil _)) as H.
      exists 0%Z, t, m. split; [reflexivity|]. split; [exact C|]. split; [now apply Near_here|]. split; [lia|]. auto. }
    destruct (PA f t key sk Ek ltac:(cbn in *; lia) ltac:(intros d' c' E; destruct d'; discriminate) C Lk) as (t' & key' & E & C' & K').
    assert (key' = key) as -> by (destruct K' as [[_ ->]|(d' & c' & _ & E' & _)]; [reflexivity|destruct d'; discriminate]).
    pose proof Ins as (_ & Here & Gone).
    assert (Sk : disk (basedir ++ [SLASH] ++ sk) = disk (basedir ++ [SLASH] ++ path_of [] PACKAGE_MOC)) by (apply In_; now rewrite !folded_app, Ek).
    rewrite Sk.
    destruct (haspackage_dec fs []) as [(p & Ip & P & Ep)|Np].
    + destruct (Here p Ip) as [Enc Dk]. unfold moc_path in Dk. rewrite Ep, P in Dk. change (B "package.mo" ++ B "c") with PACKAGE_MOC in Dk.
      rewrite Dk.
      destruct (PA f t K sk Ek ltac:(cbn in *; lia) ltac:(intros d' c' E'; destruct d'; discriminate) C LK) as (t2 & k2 & E2 & C2 & K2).
      assert (k2 = K) as -> by (destruct K2 as [[_ ->]|(d' & c' & _ & E' & _)]; [reflexivity|destruct d'; discriminate]).
      rewrite <- Ep in Ek.
      destruct (spelled_decrypt pr K fs _ t p (moc p) K 1%Z t2 sk G LK GL Ip P Enc (K_top fs K p P Ep) Ek E2 ltac:(discriminate) C2) as (t3 & De & C3).
      rewrite De. cbn [bind].
      assert (Nd : n_data p <> []) by (apply (Fl p Ip P); rewrite Ep; apply above_refl).
      destruct (Z.ltb_spec 0 (zlen (n_data p))) as [_|X]; [|unfold zlen in X; destruct (n_data p); [congruence|cbn [length] in X; lia]].
      unfold zlen. rewrite Nat2Z.id, skipn_app, skipn_all, Nat.sub_diag. cbn [skipn app].
      rewrite firstn_all2 by (rewrite (ML p Ip);  lia).
      assert (H : HasMask fs [] (n_mask p)) by (exists p; auto).
      do 3 eexists. split; [reflexivity|]. split; [exact C3|]. split; [now apply Near_here|]. split; [lia|]. auto.
    + change (path_of [] PACKAGE_MOC) with (path_of [] (B "package.moc")). rewrite (Gone [] (Forall_nil _) (spelled_none fs [] Di IL Np)).
      rewrite E. exists 1%Z, t', (repeat NUL (p_len pr)). rewrite (xor_zeros key (p_len pr)). split; [reflexivity|]. split; [exact C'|].
      split; [now apply Near_top|]. split; [lia|]. intros m' H. now apply Np in H.
  - destruct (gooddir_snoc d c0 Gd) as (Gd' & N0 & C0 & M0).
    destruct (IH Gd' (inlib_up _ _ _ IL) (pkgfits_up _ _ _ Fit)) as [_ IHo].
    assert (Ld : length (d ++ [c0]) = S (length d)) by (rewrite app_length; cbn; lia).
    assert (Lf : length (path_of (d ++ [c0]) PACKAGE_MOC) <= 4096) by (unfold PkgFits in Fit; lia).
    assert (Lp : length (path_of d c0) <= 4096) by (rewrite path_of_snoc, app_length in Lf; lia).
    match goal with |- ?A /\ _ => assert (PA : A) end.
    { intros fuel t key s Es Fu Fl C Lk. destruct fuel as [|f]; [lia|].
      destruct (proj2 (spelled_package f pr K disk basedir t (d ++ [c0]) s key (proj1 Gd) Lf Es) d c0 eq_refl) as (s1 & E1 & ->).
      destruct (IHo f t key c0 s1) as (flag & t' & m & Eq & C' & Ne & F0 & _); auto using name_noslash.
      { lia. } { now apply (Fl d c0). }
      rewrite Eq. cbn [bind]. destruct (Z.ltb_spec flag 0) as [|_]; [lia|].
      exists t', (xor key m). split; [reflexivity|]. split; [exact C'|]. right. now exists d, c0, m. }
    split; [exact PA|].
    intros fuel t key c s Es Fu Fl C Lk Nc Cc Lc. destruct fuel as [|f]; [lia|].
    assert (Fl' : forall d' c', d ++ [c0] = d' ++ [c'] -> Filled fs d').
    { intros d' c' E p Ip P A. apply (Fl p Ip P). rewrite E. now apply above_up. }
    destruct (spelled_other f pr K disk basedir t (d ++ [c0]) c s key (proj1 Gd) Nc Cc Lc Fit Es) as (s1 & sk & E1 & Ek & ->).
    destruct (find_mask t s1) as [m|] eqn:Fi.
    { pose proof (spelled_use fs t s1 m _ Di IL C Fi E1 (proj1 Gd)) as H.
      exists 0%Z, t, m. split; [reflexivity|]. split; [exact C|]. split; [now apply Near_here|]. split; [lia|]. auto. }
    pose proof Ins as (_ & Here & Gone).
    assert (Sk : disk (basedir ++ [SLASH] ++ sk) = disk (basedir ++ [SLASH] ++ path_of (d ++ [c0]) PACKAGE_MOC)) by (apply In_; now rewrite !folded_app, Ek).
    rewrite Sk.
    destruct (haspackage_dec fs (d ++ [c0])) as [(p & Ip & P & Ep)|Np].
    + destruct (Here p Ip) as [Enc Dk]. unfold moc_path in Dk. rewrite Ep, P in Dk. change (B "package.mo" ++ B "c") with PACKAGE_MOC in Dk.
      rewrite Dk.
      destruct (PA f t K sk Ek ltac:(lia) Fl' C LK) as (t2 & k2 & E2 & C2 & K2).
      assert (FK : FileKey pr fs K p k2).
      { destruct K2 as [[E' _]|(d' & c' & m & E' & Ne & ->)]; [destruct d; discriminate|].
        apply (K_package fs K p d' c' m P); congruence. }
      rewrite <- Ep in Ek.
      destruct (spelled_decrypt pr K fs _ t p (moc p) k2 1%Z t2 sk G LK GL Ip P Enc FK Ek E2 ltac:(discriminate) C2) as (t3 & De & C3).
      rewrite De. cbn [bind].
      assert (Nd : n_data p <> []) by (apply (Fl p Ip P); rewrite Ep; apply above_refl).
      destruct (Z.ltb_spec 0 (zlen (n_data p))) as [_|X]; [|unfold zlen in X; destruct (n_data p); [congruence|cbn [length] in X; lia]].
      unfold zlen. rewrite Nat2Z.id, skipn_app, skipn_all, Nat.sub_diag. cbn [skipn app].
      rewrite firstn_all2 by (rewrite (ML p Ip);  lia).
      assert (H : HasMask fs (d ++ [c0]) (n_mask p)) by (exists p; auto).
      do 3 eexists. split; [reflexivity|]. split; [exact C3|]. split; [now apply Near_here|]. split; [lia|]. auto.
    + change PACKAGE_MOC with (B "package.moc") at 1. rewrite (Gone _ (proj1 Gd) (spelled_none fs _ Di IL Np)).
      destruct (PA f t key sk Ek ltac:(lia) Fl' C Lk) as (t' & key' & E & C' & [[X _]|(d' & c' & m & Ed & Ne & ->)]); [destruct d; discriminate|].
      exists 1%Z, t', m. split; [exact E|]. split; [exact C'|].
      split; [rewrite Ed in *; now apply Near_up|]. split; [lia|]. intros m' H. now apply Np in H.
Qed.

Lemma spelled_entry pr K fs basedir disk moc f t s :
  GoodPrimitives pr -> length K = 32 -> GoodLibrary pr fs -> Installed_folded pr K fs basedir disk moc -> Insensitive disk -> Distinct fs ->
  In f fs -> Readable fs f -> Spelled fs t -> folded s = folded (moc_path f) ->
  exists t', cr_decrypt pr K disk basedir t s (moc f) = Ok (t', Some (n_data f)) /\ Spelled fs t'.
Proof.
  intros G LK GL Ins In_ Di If [InP Rd] C Es. pose proof (good_mask_len fs (proj1 GL)) as ML.
  assert (Ge : GoodEntry pr f) by (destruct GL as [GF _]; rewrite Forall_forall in GF; now apply GF).
  pose proof (gooddir_entry f Ge) as Gd. destruct Ge as (Fd & Nn & _ & Case & Len & Li & Lm & Ld).
  destruct InP as (m0 & H0).
  assert (Fit : PkgFits basedir (n_dir f)).
  { destruct H0 as (p & Ip & P & Dp & _). pose proof (proj1 Ins p Ip) as L. rewrite P, Dp in L.
    unfold PkgFits. change PACKAGE_MOC with (B "package.mo" ++ B "c"). rewrite path_moc_length. lia. }
  destruct (spelled_dirs pr K fs basedir disk moc G LK GL Ins In_ Di (n_dir f) Gd (ex_intro _ f (conj If (above_refl _))) Fit) as [Da Db].
  destruct (proj1 (proj2 Ins) f If) as [(key & data & FK & Pay & Se) _].
  pose proof (filekey_len fs K _ key ML LK FK) as Lk.
  pose proof (path_length (n_dir f) (n_name f)) as Lp.
  pose proof (folded_same_length _ _ Es) as Ls.
  assert (Lmoc : length (moc_path f) = length (path_of (n_dir f) (n_name f)) + 1) by apply path_moc_length.
  unfold cr_decrypt. rewrite Ls.
  assert (Dp : IsPackage f \/ ~ IsPackage f) by (unfold IsPackage; destruct (beq_spec (n_name f) (B "package.mo")); tauto).
  destruct Dp as [P|P].
  - assert (Em : moc_path f = path_of (n_dir f) PACKAGE_MOC) by (unfold moc_path; now rewrite P).
    rewrite Em in Es.
    destruct (Da (2 * length (moc_path f) + 4) t K s Es) as (t1 & k1 & E & C1 & K1); [lia| |exact C|exact LK|].
    { intros d' c' Ed p Ip Pp A. destruct (Rd p Ip Pp) as [->|]; [rewrite Ed; now apply above_up| |assumption].
      exfalso. rewrite Ed in A. apply above_length in A. rewrite app_length in A. cbn in A. lia. }
    assert (FK1 : FileKey pr fs K f k1).
    { destruct K1 as [[Ed ->]|(d' & c' & m & Ed & Ne & ->)]; [now apply K_top|now apply (K_package fs K f d' c' m P)]. }
    assert (k1 = key) as -> by (eapply filekey_unique; eassumption).
    destruct (spelled_decrypt pr K fs _ t f (moc f) key 1%Z t1 s G LK GL If P (proj1 (proj1 (proj2 Ins) f If)) FK Es E ltac:(discriminate) C1) as (t2 & De & C2).
    rewrite De. cbn [bind]. destruct (Z.ltb_spec (zlen (n_data f)) 0) as [X|_]; [unfold zlen in X; lia|].
    unfold zlen. rewrite Nat2Z.id, firstn_app, firstn_all, Nat.sub_diag. cbn [firstn]. rewrite app_nil_r.
    exists t2. now split.
  - assert (Cf : caseeq (n_name f ++ B "c") PACKAGE_MOC = false).
    { rewrite caseeq_moc. destruct (caseeq (n_name f) PACKAGE_MO) eqn:Q; [exfalso; auto|reflexivity]. }
    destruct (Db (2 * length (moc_path f) + 4) t K (n_name f ++ B "c") s Es) as (flag & t1 & m & E & C1 & Ne & _ & F0);
      [lia| |exact C|exact LK|apply noslash_moc; now apply name_noslash|exact Cf| |].
    { intros p Ip Pp A. destruct (Rd p Ip Pp A) as [->|]; [contradiction|assumption]. }
    { rewrite path_moc_length. lia. }
    assert (xor K m = key) as Ek by exact (filekey_unique fs K f _ _ GL (K_ordinary fs K f m P Ne) FK).
    rewrite Ek in E. assert (flag = 0%Z) as -> by (eapply F0; eassumption).
    assert (data = n_data f) as -> by (destruct Pay; [reflexivity|contradiction]).
    rewrite (decrypt_sealed pr K _ t s key (n_iv f) (n_data f) (moc f) 0%Z t1 G Lk Li) by (try assumption; lia).
    cbn [Z.eqb bind]. destruct (Z.ltb_spec (zlen (n_data f)) 0) as [X|_]; [unfold zlen in X; lia|].
    unfold zlen. rewrite Nat2Z.id, firstn_all. exists t1. now split.
Qed.

Lemma spelled_session pr K fs basedir disk moc :
  GoodPrimitives pr -> length K = 32 -> GoodLibrary pr fs -> Installed_folded pr K fs basedir disk moc -> Insensitive disk -> Distinct fs ->
  forall reqs t, (forall s f, In (s, f) reqs -> In f fs /\ Readable fs f /\ folded s = folded (moc_path f)) -> Spelled fs t ->
  decrypt_all pr K disk basedir t (map (fun '(s, f) => (s, moc f)) reqs) = Ok (map (fun '(_, f) => Some (n_data f)) reqs).
Proof.
  intros G LK GL Ins In_ Di. induction reqs as [|[s f] reqs IH]; intros t R C; [reflexivity|]. cbn [map decrypt_all].
  destruct (R s f (or_introl eq_refl)) as (If & Rd & Es).
  destruct (spelled_entry pr K fs basedir disk moc f t s G LK GL Ins In_ Di If Rd C Es) as (t' & E & C'). rewrite E. cbn [bind].
  rewrite IH; [reflexivity| |exact C']. intros s' g Ig. apply R. now right.
Qed.
