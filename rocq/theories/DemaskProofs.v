(** Proofs about the decryption of libraries. *)
From Verif Require Import Base BaseProofs WireModel CryptModel CryptSpec CbcProofs MaskProofs.

Arguments demask_key : simpl never.
Arguments decrypt_with : simpl never.

Lemma caseeq_moc n : caseeq (n ++ B "c") PACKAGE_MOC = caseeq n PACKAGE_MO.
Proof.
  unfold caseeq, PACKAGE_MOC, PACKAGE_MO. rewrite map_app.
  change (map lower (B "package.moc")) with (map lower (B "package.mo") ++ map lower (B "c")).
  destruct (beq_spec (map lower n) (map lower (B "package.mo"))) as [->|N]; [apply beq_refl|].
  apply beq_false. intros E. apply app_inv_tail in E. contradiction.
Qed.
Lemma noslash_moc n : NoSlash n -> NoSlash (n ++ B "c").
Proof.
  intros [A C]. split; intros I; apply in_app_iff in I.
  - destruct I as [I|[I|[]]]; [now apply A|discriminate I].
  - destruct I as [I|[I|[]]]; [now apply C|discriminate I].
Qed.
Lemma noslash_package : NoSlash PACKAGE_MOC.
Proof. split; intros I; cbn in I; repeat (destruct I as [I|I]; [discriminate I|]); exact I. Qed.

(** Masks found by decryption. *)
Definition Cache (fs : list entry) (t : table) : Prop :=
  forall a m, Forall Name a -> find_mask t (dirstr a) = Some m -> HasMask fs a m.

Lemma dirstr_length d c : length (dirstr (d ++ [c])) = length (path_of d c).
Proof. now rewrite dirstr_snoc. Qed.

Lemma pkg_path d : d <> [] -> path_of d PACKAGE_MOC = dirstr d ++ B "/package.moc".
Proof.
  intros N. destruct d as [|c d _] using rev_ind; [congruence|]. now rewrite path_of_snoc, dirstr_snoc.
Qed.

Lemma store_mask_ok t d m : Forall Name d -> length (path_of d PACKAGE_MOC) <= 4096 ->
  store_mask t (path_of d PACKAGE_MOC) m =
  Ok (match find_mask t (dirstr d) with Some _ => t | None => t ++ [(dirstr d, m)] end).
Proof.
  intros F L. unfold store_mask. destruct d as [|c d _] using rev_ind.
  - cbn [path_of]. change (zlen PACKAGE_MOC =? 11)%Z with true. cbn iota. cbn [Z.ltb Z.compare].
    change (Z.of_nat NAME_MAX <=? 0)%Z with false. cbn [Z.eqb].
    rewrite dirstr_top. destruct (find_mask t [SLASH]); reflexivity.
  - apply Forall_app in F. destruct F as [F Fc]. apply Forall_cons_iff in Fc. destruct Fc as [Nc _].
    pose proof (path_of_nonempty d c F Nc) as Ne.
    rewrite path_of_snoc in L |- *. rewrite dirstr_snoc.
    assert (El : zlen (path_of d c ++ SLASH :: PACKAGE_MOC) = (zlen (path_of d c) + 12)%Z).
    { unfold zlen. rewrite app_length. cbn [length]. change (length PACKAGE_MOC) with 11. lia. }
    assert (Lp : (1 <= zlen (path_of d c))%Z) by (unfold zlen; destruct (path_of d c); [congruence|cbn [length]; lia]).
    rewrite El. destruct (Z.eqb_spec (zlen (path_of d c) + 12) 11) as [|_]; [lia|].
    replace (zlen (path_of d c) + 12 - 12)%Z with (zlen (path_of d c)) by lia.
    destruct (Z.ltb_spec (zlen (path_of d c)) 0) as [|_]; [lia|].
    destruct (Z.leb_spec (Z.of_nat NAME_MAX) (zlen (path_of d c))) as [X|_].
    { rewrite app_length in L. cbn [length] in L. unfold zlen, NAME_MAX in X. change (length PACKAGE_MOC) with 11 in L. lia. }
    destruct (Z.eqb_spec (zlen (path_of d c)) 0) as [|_]; [lia|].
    unfold zlen. rewrite Nat2Z.id, firstn_app, firstn_all, Nat.sub_diag. cbn [firstn]. rewrite app_nil_r.
    destruct (find_mask t (path_of d c)); reflexivity.
Qed.

Lemma cache_add fs t d m : Forall Name d -> Cache fs t -> HasMask fs d m ->
  Cache fs (match find_mask t (dirstr d) with Some _ => t | None => t ++ [(dirstr d, m)] end).
Proof.
  intros F C H. destruct (find_mask t (dirstr d)) eqn:E; [exact C|].
  intros a v Fa Ea. rewrite find_app in Ea. destruct (find_mask t (dirstr a)) as [w|] eqn:Ew.
  - injection Ea as ->. now apply C.
  - cbn [find_mask] in Ea. destruct (beq_spec (dirstr d) (dirstr a)) as [Ed|]; [|discriminate].
    injection Ea as <-. apply dirstr_inj in Ed; [|assumption..]. now subst a.
Qed.

(** Only one package file in each directory. *)
Lemma entry_unique (fs : list entry) f g : NoDup (map (fun f => (n_dir f, n_name f)) fs) ->
  In f fs -> In g fs -> n_dir f = n_dir g -> n_name f = n_name g -> f = g.
Proof.
  induction fs as [|h fs IH]; intros N If Ig Ed En; [contradiction|]. cbn [map] in N. apply NoDup_cons_iff in N. destruct N as [Nh N].
  destruct If as [<-|If], Ig as [<-|Ig]; [reflexivity| | |now apply IH].
  - exfalso. apply Nh. rewrite Ed, En. apply (in_map (fun f => (n_dir f, n_name f)) fs g Ig).
  - exfalso. apply Nh. rewrite <- Ed, <- En. apply (in_map (fun f => (n_dir f, n_name f)) fs f If).
Qed.
Lemma moc_path_inj {pr : primitives} fs f g : GoodLibrary pr fs -> In f fs -> In g fs -> moc_path f = moc_path g -> f = g.
Proof.
  intros [GF ND] If Ig E. rewrite Forall_forall in GF.
  destruct (GF f If) as (Fd & Nf & _), (GF g Ig) as (Gd & Ng & _).
  apply path_of_inj in E; [|assumption|assumption|now apply noslash_moc, name_noslash|now apply noslash_moc, name_noslash].
  destruct E as [Ed En]. apply app_inv_tail in En. apply (entry_unique fs); auto.
Qed.

Lemma mask_unique {pr : primitives} fs d m m' : GoodLibrary pr fs -> HasMask fs d m -> HasMask fs d m' -> m = m'.
Proof.
  intros [_ N] (f & If & Pf & Df & <-) (g & Ig & Pg & Dg & <-).
  rewrite (entry_unique fs f g N If Ig); [reflexivity|congruence|]. unfold IsPackage in *. congruence.
Qed.
Lemma nearest_inv {pr : primitives} fs d m : Nearest pr fs d m ->
  HasMask fs d m \/ (NoPackage fs d /\ d = [] /\ m = repeat NUL (p_len pr)) \/
  (NoPackage fs d /\ exists d' c, d = d' ++ [c] /\ Nearest pr fs d' m).
Proof. intros [d0 m0 H|d0 c m0 H N|H]; [now left|right; right; split; [exact H|now exists d0, c]|right; left; auto]. Qed.
Lemma nearest_unique {pr : primitives} fs : GoodLibrary pr fs -> forall d m, Nearest pr fs d m -> forall m', Nearest pr fs d m' -> m = m'.
Proof.
  intros GL d m N. induction N as [d m H|d c m H N IH|H]; intros m' N'; apply nearest_inv in N';
    destruct N' as [H'|[(Np & E & ->)|(Np & d1 & c1 & E & N1)]].
  - eapply mask_unique; eassumption.
  - now apply Np in H.
  - now apply Np in H.
  - now apply H in H'.
  - destruct d; discriminate.
  - apply app_inj_tail in E. destruct E as [-> ->]. now apply IH.
  - now apply H in H'.
  - reflexivity.
  - destruct d1; discriminate.
Qed.
Lemma filekey_unique {pr : primitives} fs K f k k' : GoodLibrary pr fs -> FileKey pr fs K f k -> FileKey pr fs K f k' -> k = k'.
Proof.
  intros GL [m P N|d c m P E N|P E] [m' P' N'|d' c' m' P' E' N'|P' E']; try contradiction; try congruence.
  - now rewrite (nearest_unique fs GL _ _ N _ N').
  - rewrite E in E'. apply app_inj_tail in E'. destruct E' as [<- _]. now rewrite (nearest_unique fs GL _ _ N _ N').
  - rewrite E in E'. destruct d; discriminate.
  - rewrite E in E'. destruct d'; discriminate.
Qed.

(** Package files at or above a directory have contents. *)
Definition Filled (fs : list entry) (d : list bytes) : Prop :=
  forall p, In p fs -> IsPackage p -> Above (n_dir p) d -> n_data p <> [].

Lemma demask_S f pr K disk basedir t rel key : demask_key (S f) pr K disk basedir t rel key =
  (let dm := demask_key f pr K disk basedir in
   let '(dir, base) := split_path rel in
      if caseeq base PACKAGE_MOC then
        match dir with
        | None => Ok (1%Z, t, key)
        | Some d =>
            do (ret, t1, key1) <- dm t d key ;
            Ok ((if (ret <? 0)%Z then (-1)%Z else 1%Z), t1, key1)
        end
      else
        match find_mask t (match dir with Some d => d | None => [SLASH] end) with
        | Some m => Ok (0%Z, t, xor key m)
        | None =>
            if NAME_MAX <? match dir with Some d => length d + 13 | None => 12 end then UB OobWrite
            else
              let pkg := match dir with Some d => d ++ B "/package.moc" | None => PACKAGE_MOC end in
              match disk (snprintf NAME_MAX (basedir ++ [SLASH] ++ pkg)) with
              | None => dm t pkg key
              | Some content =>
                  do (t1, res, out) <- decrypt_with pr K dm t pkg content ;
                  if (0 <? res)%Z
                  then Ok (0%Z, t1, xor key (firstn (p_len pr) (skipn (Z.to_nat res) out)))
                  else Ok ((-1)%Z, t1, key)
              end
        end).
Proof. reflexivity. Qed.

(** The same, by directory. *)
Lemma demask_package f pr K disk basedir t d key : Forall Name d -> length (path_of d PACKAGE_MOC) <= 4096 ->
  demask_key (S f) pr K disk basedir t (path_of d PACKAGE_MOC) key =
  match d with
  | [] => Ok (1%Z, t, key)
  | _ => do (ret, t1, key1) <- demask_key f pr K disk basedir t (dirstr d) key ;
         Ok ((if (ret <? 0)%Z then (-1)%Z else 1%Z), t1, key1)
  end.
Proof.
  intros F L. rewrite demask_S. cbn zeta. destruct d as [|c d _] using rev_ind.
  - cbn [path_of]. rewrite (split_top _ noslash_package). reflexivity.
  - apply Forall_app in F. destruct F as [F Fc]. apply Forall_cons_iff in Fc. destruct Fc as [Nc _].
    rewrite split_deep by (auto using noslash_package). rewrite caseeq_refl, dirstr_snoc.
    destruct (d ++ [c]) eqn:E; [destruct d; discriminate|]. reflexivity.
Qed.
Lemma demask_other f pr K disk basedir t d c key : Forall Name d -> NoSlash c -> caseeq c PACKAGE_MOC = false ->
  length (path_of d c) <= 4096 ->
  demask_key (S f) pr K disk basedir t (path_of d c) key =
  match find_mask t (dirstr d) with
  | Some m => Ok (0%Z, t, xor key m)
  | None =>
      if NAME_MAX <? match d with [] => 12 | _ => length (dirstr d) + 13 end then UB OobWrite
      else
        match disk (snprintf NAME_MAX (basedir ++ [SLASH] ++ path_of d PACKAGE_MOC)) with
        | None => demask_key f pr K disk basedir t (path_of d PACKAGE_MOC) key
        | Some content =>
            do (t1, res, out) <- decrypt_with pr K (demask_key f pr K disk basedir) t (path_of d PACKAGE_MOC) content ;
            if (0 <? res)%Z
            then Ok (0%Z, t1, xor key (firstn (p_len pr) (skipn (Z.to_nat res) out)))
            else Ok ((-1)%Z, t1, key)
        end
  end.
Proof.
  intros F N C L. rewrite demask_S. cbn zeta. destruct d as [|x d _] using rev_ind.
  - cbn [path_of] in *. rewrite (split_top _ N), C. reflexivity.
  - pose proof (pkg_path (d ++ [x]) ltac:(destruct d; discriminate)) as Ep.
    apply Forall_app in F. destruct F as [F Fc]. apply Forall_cons_iff in Fc. destruct Fc as [Nc _].
    rewrite split_deep by auto. rewrite C, Ep, dirstr_snoc.
    destruct (d ++ [x]) eqn:E; [destruct d; discriminate|]. reflexivity.
Qed.

Lemma package_nodata {pr : primitives} f K fs key : MaskLen pr fs -> length K = 32 -> FileKey pr fs K f key -> length key = 32.
Proof. apply filekey_len. Qed.

(** Decrypting the package file of a directory, when its key has been found. *)
Lemma decrypt_package pr K fs dm t p moc key flag t1 :
  GoodPrimitives pr -> length K = 32 -> GoodLibrary pr fs -> In p fs -> IsPackage p ->
  EncryptedAs pr K fs p moc -> FileKey pr fs K p key ->
  dm t (path_of (n_dir p) PACKAGE_MOC) K = Ok (flag, t1, key) -> flag <> 0%Z ->
  decrypt_with pr K dm t (path_of (n_dir p) PACKAGE_MOC) moc =
  Ok (match find_mask t1 (dirstr (n_dir p)) with Some _ => t1 | None => t1 ++ [(dirstr (n_dir p), n_mask p)] end,
      zlen (n_data p), n_data p ++ n_mask p).
Proof.
  intros G LK GL Ip P (key' & data & FK' & Pay & S) FK E Fl.
  assert (key' = key) as -> by (eapply filekey_unique; eassumption).
  assert (data = n_data p ++ n_mask p) as -> by (destruct Pay; [contradiction|reflexivity]).
  pose proof (good_mask_len fs (proj1 GL)) as ML.
  assert (Ge : GoodEntry pr p) by (destruct GL as [GF _]; rewrite Forall_forall in GF; now apply GF).
  destruct Ge as (Fd & _ & _ & _ & Len & Li & Lm & Ld).
  pose proof (filekey_len fs K _ key ML LK FK) as Lk.
  assert (Lz : zlen (n_data p ++ n_mask p) = (zlen (n_data p) + Z.of_nat (p_len pr))%Z) by (unfold zlen; rewrite app_length, Lm; lia).
  rewrite (decrypt_sealed pr K dm t _ key (n_iv p) _ moc flag t1 G Lk Li) by first [eassumption | rewrite Lz; destruct G as (_ & _ & Ln); lia].
  destruct (Z.eqb_spec flag 0) as [|_]; [contradiction|]. cbn zeta. rewrite Lz.
  replace (zlen (n_data p) + Z.of_nat (p_len pr) - Z.of_nat (p_len pr))%Z with (zlen (n_data p)) by lia.
  destruct (Z.ltb_spec (zlen (n_data p)) 0) as [X|_]; [unfold zlen in X; lia|].
  unfold zlen at 1. rewrite Nat2Z.id, skipn_app, skipn_all, Nat.sub_diag. cbn [skipn app].
  rewrite firstn_all2 by (rewrite Lm;  lia).
  rewrite store_mask_ok; [reflexivity|exact Fd|].
  rewrite P in Len. change (B "package.mo") with PACKAGE_MO in Len.
  assert (Q : length (path_of (n_dir p) PACKAGE_MOC) = length (path_of (n_dir p) PACKAGE_MO) + 1).
  { clear. induction (n_dir p) as [|x d IH]; [reflexivity|]. cbn [path_of]. rewrite !app_length, IH. lia. }
  lia.
Qed.

Lemma path_length_base d a b : length a <= length b -> length (path_of d a) <= length (path_of d b).
Proof. intros H. induction d as [|x d IH]; [exact H|]. cbn [path_of]. rewrite !app_length. cbn [length]. lia. Qed.

Lemma haspackage_dec fs d : (exists p, In p fs /\ IsPackage p /\ n_dir p = d) \/ NoPackage fs d.
Proof.
  induction fs as [|f fs IH]; [right; intros m (p & [] & _)|].
  destruct IH as [(p & I & P & E)|N]; [left; exists p; split; [now right|auto]|].
  destruct (beq_spec (n_name f) (B "package.mo")) as [P|P].
  - destruct (list_eq_dec (list_eq_dec ascii_dec) (n_dir f) d) as [E|E].
    + left. exists f. split; [now left|auto].
    + right. intros m (p & [<-|I] & Pp & Ep & Em); [contradiction|]. apply (N m). now exists p.
  - right. intros m (p & [<-|I] & Pp & Ep & Em); [contradiction|]. apply (N m). now exists p.
Qed.

(** Paths of package files fit. *)
Definition PkgFits (basedir : bytes) (d : list bytes) : Prop := length basedir + length (path_of d PACKAGE_MOC) <= 4050.

Lemma pkgfits_up basedir d c : PkgFits basedir (d ++ [c]) -> PkgFits basedir d.
Proof.
  unfold PkgFits. rewrite path_of_snoc, app_length. cbn [length]. change (length PACKAGE_MOC) with 11.
  destruct d as [|x d _] using rev_ind; [cbn [path_of]; change (length PACKAGE_MOC) with 11; lia|].
  rewrite !path_of_snoc, !app_length. cbn [length]. change (length PACKAGE_MOC) with 11. lia.
Qed.

(** Keys found for things in a directory and for its package file. *)
Lemma demask_dirs pr K fs basedir disk moc :
  GoodPrimitives pr -> length K = 32 -> GoodLibrary pr fs -> Installed pr K fs basedir disk moc ->
  forall d, GoodDir d -> PkgFits basedir d ->
  (* the package file *)
  (forall fuel t key, 2 * length d < fuel -> (forall d' c, d = d' ++ [c] -> Filled fs d') -> Cache fs t -> length key = 32 ->
     exists t' key', demask_key fuel pr K disk basedir t (path_of d PACKAGE_MOC) key = Ok (1%Z, t', key') /\ Cache fs t' /\
       ((d = [] /\ key' = key) \/ exists d' c m, d = d' ++ [c] /\ Nearest pr fs d' m /\ key' = xor key m)) /\
  (* other names *)
  (forall fuel t key c, 2 * length d + 1 < fuel -> Filled fs d -> Cache fs t -> length key = 32 ->
     NoSlash c -> caseeq c PACKAGE_MOC = false -> length (path_of d c) <= 4096 ->
     exists flag t' m, demask_key fuel pr K disk basedir t (path_of d c) key = Ok (flag, t', xor key m) /\ Cache fs t' /\
       Nearest pr fs d m /\ (0 <= flag)%Z /\ (forall m', HasMask fs d m' -> flag = 0%Z) /\ (NoPackage fs d -> flag = 1%Z)).
Proof.
  intros G LK GL Ins. pose proof (good_mask_len fs (proj1 GL)) as ML.
  induction d as [|c0 d IH] using rev_ind; intros Gd Fit.
  - match goal with |- ?A /\ _ => assert (PA : A) end.
    { intros fuel t key Fu _ C Lk. destruct fuel as [|f]; [lia|].
      rewrite (demask_package f pr K disk basedir t []) by (auto; cbn; lia).
      exists t, key. split; [reflexivity|]. split; [exact C|]. now left. }
    split; [exact PA|].
    intros fuel t key c Fu Fl C Lk Nc Cc Lc. destruct fuel as [|f]; [lia|].
    rewrite demask_other by (auto; apply Gd).
    destruct (find_mask t (dirstr [])) as [m|] eqn:Fi.
    { pose proof (C [] m (Forall_nil _) Fi) as H. exists 0%Z, t, m. split; [reflexivity|]. split; [exact C|].
      split; [now apply Near_here|]. split; [lia|]. split; [auto|]. intros Np. now apply Np in H. }
    change (NAME_MAX <? 12) with false. cbn iota.
    destruct (PA f t key ltac:(cbn in *; lia) ltac:(intros d' c' E; destruct d'; discriminate) C Lk) as (t' & key' & E & C' & K').
    assert (key' = key) as -> by (destruct K' as [[_ ->]|(d' & c' & _ & E' & _)]; [reflexivity|destruct d'; discriminate]).
    destruct Ins as (_ & Here & Gone).
    rewrite snprintf_fits by (unfold PkgFits in Fit; rewrite !app_length; cbn [length]; unfold NAME_MAX; lia).
    destruct (haspackage_dec fs []) as [(p & Ip & P & Ep)|Np].
    + destruct (Here p Ip) as [Enc Dk]. unfold moc_path in Dk. rewrite Ep, P in Dk. change (B "package.mo" ++ B "c") with PACKAGE_MOC in Dk.
      rewrite Dk.
      destruct (PA f t K ltac:(cbn in *; lia) ltac:(intros d' c' E'; destruct d'; discriminate) C LK) as (t2 & k2 & E2 & C2 & K2).
      assert (k2 = K) as -> by (destruct K2 as [[_ ->]|(d' & c' & _ & E' & _)]; [reflexivity|destruct d'; discriminate]).
      rewrite <- Ep in E2.
      pose proof (decrypt_package pr K fs _ t p (moc p) K 1%Z t2 G LK GL Ip P Enc (K_top fs K p P Ep) E2 ltac:(discriminate)) as De.
      rewrite Ep in De. rewrite De. cbn [bind].
      assert (Nd : n_data p <> []) by (apply (Fl p Ip P); rewrite Ep; apply above_refl).
      destruct (Z.ltb_spec 0 (zlen (n_data p))) as [_|X]; [|unfold zlen in X; destruct (n_data p); [congruence|cbn [length] in X; lia]].
      unfold zlen. rewrite Nat2Z.id, skipn_app, skipn_all, Nat.sub_diag. cbn [skipn app].
      rewrite firstn_all2 by (rewrite (ML p Ip);  lia).
      assert (H : HasMask fs [] (n_mask p)) by (exists p; auto).
      do 3 eexists. split; [reflexivity|]. split; [now apply cache_add; [constructor|..]|].
      split; [now apply Near_here|]. split; [lia|]. split; [auto|]. intros Np. now apply Np in H.
    + change (path_of [] PACKAGE_MOC) with (path_of [] (B "package.moc")). rewrite (Gone [] (Forall_nil _) Np).
      change (path_of [] (B "package.moc")) with (path_of [] PACKAGE_MOC). rewrite E. exists 1%Z, t', (repeat NUL (p_len pr)). rewrite (xor_zeros key (p_len pr)). split; [reflexivity|]. split; [exact C'|].
      split; [now apply Near_top|]. split; [lia|]. split; [|reflexivity]. intros m' H. now apply Np in H.
  - destruct (gooddir_snoc d c0 Gd) as (Gd' & N0 & C0 & M0).
    destruct (IH Gd' (pkgfits_up _ _ _ Fit)) as [_ IHo].
    assert (Ld : length (d ++ [c0]) = S (length d)) by (rewrite app_length; cbn; lia).
    assert (Lf : length (path_of (d ++ [c0]) PACKAGE_MOC) <= 4096) by (unfold PkgFits in Fit; lia).
    assert (Lp : length (path_of d c0) <= 4096) by (rewrite path_of_snoc, app_length in Lf; lia).
    match goal with |- ?A /\ _ => assert (PA : A) end.
    { intros fuel t key Fu Fl C Lk. destruct fuel as [|f]; [lia|].
      rewrite demask_package by (auto; apply Gd).
      destruct (d ++ [c0]) as [|y ys] eqn:E; [destruct d; discriminate|]. rewrite <- E in *. rewrite dirstr_snoc.
      destruct (IHo f t key c0) as (flag & t' & m & Eq & C' & Ne & F0 & _ & _); auto using name_noslash.
      { lia. } { now apply (Fl d c0). }
      rewrite Eq. cbn [bind]. destruct (Z.ltb_spec flag 0) as [|_]; [lia|].
      exists t', (xor key m). split; [reflexivity|]. split; [exact C'|]. right. now exists d, c0, m. }
    split; [exact PA|].
    intros fuel t key c Fu Fl C Lk Nc Cc Lc. destruct fuel as [|f]; [lia|].
    assert (Fl' : forall d' c', d ++ [c0] = d' ++ [c'] -> Filled fs d').
    { intros d' c' E p Ip P A. apply (Fl p Ip P). rewrite E. now apply above_up. }
    rewrite demask_other by (auto; apply Gd).
    destruct (find_mask t (dirstr (d ++ [c0]))) as [m|] eqn:Fi.
    { pose proof (C _ m (proj1 Gd) Fi) as H. exists 0%Z, t, m. split; [reflexivity|]. split; [exact C|].
      split; [now apply Near_here|]. split; [lia|]. split; [auto|]. intros Np. now apply Np in H. }
    assert (Fits : (NAME_MAX <? match d ++ [c0] with [] => 12 | _ => length (dirstr (d ++ [c0])) + 13 end) = false).
    { destruct (d ++ [c0]) as [|y ys] eqn:E; [destruct d; discriminate|]. rewrite <- E in *. apply Nat.ltb_ge.
      unfold PkgFits in Fit. rewrite pkg_path in Fit by (destruct d; discriminate). rewrite app_length in Fit. cbn [length B String.list_ascii_of_string] in Fit.
      unfold NAME_MAX. lia. }
    rewrite Fits.
    destruct Ins as (_ & Here & Gone).
    rewrite snprintf_fits by (unfold PkgFits in Fit; rewrite !app_length; cbn [length]; unfold NAME_MAX; lia).
    destruct (haspackage_dec fs (d ++ [c0])) as [(p & Ip & P & Ep)|Np].
    + destruct (Here p Ip) as [Enc Dk]. unfold moc_path in Dk. rewrite Ep, P in Dk. change (B "package.mo" ++ B "c") with PACKAGE_MOC in Dk.
      rewrite Dk.
      destruct (PA f t K ltac:(lia) Fl' C LK) as (t2 & k2 & E2 & C2 & K2).
      assert (FK : FileKey pr fs K p k2).
      { destruct K2 as [[E' _]|(d' & c' & m & E' & Ne & ->)]; [destruct d; discriminate|].
        apply (K_package fs K p d' c' m P); congruence. }
      rewrite <- Ep in E2.
      pose proof (decrypt_package pr K fs _ t p (moc p) k2 1%Z t2 G LK GL Ip P Enc FK E2 ltac:(discriminate)) as De.
      rewrite Ep in De. rewrite De. cbn [bind].
      assert (Nd : n_data p <> []) by (apply (Fl p Ip P); rewrite Ep; apply above_refl).
      destruct (Z.ltb_spec 0 (zlen (n_data p))) as [_|X]; [|unfold zlen in X; destruct (n_data p); [congruence|cbn [length] in X; lia]].
      unfold zlen. rewrite Nat2Z.id, skipn_app, skipn_all, Nat.sub_diag. cbn [skipn app].
      rewrite firstn_all2 by (rewrite (ML p Ip);  lia).
      assert (H : HasMask fs (d ++ [c0]) (n_mask p)) by (exists p; auto).
      do 3 eexists. split; [reflexivity|]. split; [apply cache_add; [apply Gd|exact C2|exact H]|].
      split; [now apply Near_here|]. split; [lia|]. split; [auto|]. intros Np. now apply Np in H.
    + change PACKAGE_MOC with (B "package.moc") at 1. rewrite (Gone _ (proj1 Gd) Np).
      destruct (PA f t key ltac:(lia) Fl' C Lk) as (t' & key' & E & C' & [[X _]|(d' & c' & m & Ed & Ne & ->)]); [destruct d; discriminate|].
      exists 1%Z, t', m. split; [exact E|]. split; [exact C'|].
      split; [rewrite Ed in *; now apply Near_up|]. split; [lia|]. split; [|reflexivity]. intros m' H. now apply Np in H.
Qed.

Lemma path_moc_length d n : length (path_of d (n ++ B "c")) = length (path_of d n) + 1.
Proof. induction d as [|x d IH]; cbn [path_of]; rewrite !app_length; [reflexivity|]. cbn [length]. rewrite IH. lia. Qed.

Lemma decrypt_entry pr K fs basedir disk moc f t :
  GoodPrimitives pr -> length K = 32 -> GoodLibrary pr fs -> Installed pr K fs basedir disk moc ->
  In f fs -> Readable fs f -> Cache fs t ->
  exists t', cr_decrypt pr K disk basedir t (moc_path f) (moc f) = Ok (t', Some (n_data f)) /\ Cache fs t'.
Proof.
  intros G LK GL Ins If [InP Rd] C. pose proof (good_mask_len fs (proj1 GL)) as ML.
  assert (Ge : GoodEntry pr f) by (destruct GL as [GF _]; rewrite Forall_forall in GF; now apply GF).
  pose proof (gooddir_entry f Ge) as Gd. destruct Ge as (Fd & Nn & _ & Case & Len & Li & Lm & Ld).
  destruct InP as (m0 & H0).
  assert (Fit : PkgFits basedir (n_dir f)).
  { destruct H0 as (p & Ip & P & Dp & _). pose proof (proj1 Ins p Ip) as L. rewrite P, Dp in L.
    unfold PkgFits. change PACKAGE_MOC with (B "package.mo" ++ B "c"). rewrite path_moc_length. lia. }
  destruct (demask_dirs pr K fs basedir disk moc G LK GL Ins (n_dir f) Gd Fit) as [Da Db].
  destruct (proj1 (proj2 Ins) f If) as [(key & data & FK & Pay & Se) _].
  pose proof (filekey_len fs K _ key ML LK FK) as Lk.
  pose proof (path_length (n_dir f) (n_name f)) as Lp.
  assert (Lmoc : length (moc_path f) = length (path_of (n_dir f) (n_name f)) + 1) by apply path_moc_length.
  unfold cr_decrypt.
  assert (Dp : IsPackage f \/ ~ IsPackage f) by (unfold IsPackage; destruct (beq_spec (n_name f) (B "package.mo")); tauto).
  destruct Dp as [P|P].
  - assert (Em : moc_path f = path_of (n_dir f) PACKAGE_MOC) by (unfold moc_path; now rewrite P).
    destruct (Da (2 * length (moc_path f) + 4) t K) as (t1 & k1 & E & C1 & K1); [lia| |exact C|exact LK|].
    { intros d' c' Ed p Ip Pp A. destruct (Rd p Ip Pp) as [->|]; [rewrite Ed; now apply above_up| |assumption].
      exfalso. rewrite Ed in A. apply above_length in A. rewrite app_length in A. cbn in A. lia. }
    assert (FK1 : FileKey pr fs K f k1).
    { destruct K1 as [[Ed ->]|(d' & c' & m & Ed & Ne & ->)]; [now apply K_top|now apply (K_package fs K f d' c' m P)]. }
    assert (k1 = key) as -> by (eapply filekey_unique; eassumption).
    rewrite Em in E |- *.
    rewrite (decrypt_package pr K fs _ t f (moc f) key 1%Z t1 G LK GL If P (proj1 (proj1 (proj2 Ins) f If)) FK E ltac:(discriminate)).
    cbn [bind]. destruct (Z.ltb_spec (zlen (n_data f)) 0) as [X|_]; [unfold zlen in X; lia|].
    unfold zlen. rewrite Nat2Z.id, firstn_app, firstn_all, Nat.sub_diag. cbn [firstn]. rewrite app_nil_r.
    eexists. split; [reflexivity|]. apply cache_add; [exact Fd|exact C1|]. exists f. auto.
  - assert (Cf : caseeq (n_name f ++ B "c") PACKAGE_MOC = false).
    { rewrite caseeq_moc. destruct (caseeq (n_name f) PACKAGE_MO) eqn:Q; [exfalso; auto|reflexivity]. }
    destruct (Db (2 * length (moc_path f) + 4) t K (n_name f ++ B "c")) as (flag & t1 & m & E & C1 & Ne & _ & F0 & _);
      [lia| |exact C|exact LK|apply noslash_moc; now apply name_noslash|exact Cf| |].
    { intros p Ip Pp A. destruct (Rd p Ip Pp A) as [->|]; [contradiction|assumption]. }
    { rewrite path_moc_length. lia. }
    assert (xor K m = key) as Ek by exact (filekey_unique fs K f _ _ GL (K_ordinary fs K f m P Ne) FK).
    rewrite Ek in E. assert (flag = 0%Z) as -> by (eapply F0; eassumption).
    assert (data = n_data f) as -> by (destruct Pay; [reflexivity|contradiction]).
    fold (moc_path f) in E.
    rewrite (decrypt_sealed pr K _ t (moc_path f) key (n_iv f) (n_data f) (moc f) 0%Z t1 G Lk Li) by (try assumption; lia).
    cbn [Z.eqb bind]. destruct (Z.ltb_spec (zlen (n_data f)) 0) as [X|_]; [unfold zlen in X; lia|].
    unfold zlen. rewrite Nat2Z.id, firstn_all. exists t1. now split.
Qed.

Lemma decrypt_session pr K fs basedir disk moc :
  GoodPrimitives pr -> length K = 32 -> GoodLibrary pr fs -> Installed pr K fs basedir disk moc ->
  forall reqs t, (forall f, In f reqs -> In f fs /\ Readable fs f) -> Cache fs t ->
  decrypt_all pr K disk basedir t (map (fun f => (moc_path f, moc f)) reqs) = Ok (map (fun f => Some (n_data f)) reqs).
Proof.
  intros G LK GL Ins. induction reqs as [|f reqs IH]; intros t R C; [reflexivity|]. cbn [map decrypt_all].
  destruct (R f (or_introl eq_refl)) as [If Rd].
  destruct (decrypt_entry pr K fs basedir disk moc f t G LK GL Ins If Rd C) as (t' & E & C'). rewrite E. cbn [bind].
  rewrite IH; [reflexivity| |exact C']. intros g Ig. apply R. now right.
Qed.
