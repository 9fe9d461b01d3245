(** Masks found by the programs that encrypt and decrypt single files. *)
From Verif Require Import Base BaseProofs WireModel CryptModel CryptSpec CbcProofs MaskProofs DemaskProofs CliModel.

(** ** Masks loaded from the disk *)

(** The masks of all package files above a directory are in the table. *)
Definition Full (fs : list entry) (t : table) (d : list bytes) : Prop :=
  forall a m, Above a d -> HasMask fs a m -> exists m', find_mask t (dirstr a) = Some m'.
(** Tables filled from the top downwards. *)
Definition Loaded (fs : list entry) (t : table) : Prop :=
  Cache fs t /\ forall a m, Forall Name a -> find_mask t (dirstr a) = Some m -> Full fs t a.

Lemma above_nil a : Above a [] -> a = [].
Proof. intros (x & E). symmetry in E. apply app_eq_nil in E. tauto. Qed.

Definition added (t : table) (d : list bytes) (m : bytes) : table :=
  match find_mask t (dirstr d) with Some _ => t | None => t ++ [(dirstr d, m)] end.
Lemma added_keep t d m p v : find_mask t p = Some v -> find_mask (added t d m) p = Some v.
Proof. intros E. unfold added. destruct (find_mask t (dirstr d)); [exact E|]. now rewrite find_app, E. Qed.
Lemma added_here t d m : exists v, find_mask (added t d m) (dirstr d) = Some v.
Proof.
  unfold added. destruct (find_mask t (dirstr d)) as [v|] eqn:E; [now exists v|]. rewrite find_app, E. cbn [find_mask].
  rewrite beq_refl. now exists m.
Qed.
Lemma full_keep fs t d a m : Full fs t a -> Full fs (added t d m) a.
Proof. intros F b v Hb H. destruct (F b v Hb H) as (w & E). exists w. now apply added_keep. Qed.
Lemma full_added fs t d m : (forall d' c, d = d' ++ [c] -> Full fs t d') -> Full fs (added t d m) d.
Proof.
  intros F a v Ha H. destruct d as [|c d _] using rev_ind.
  - apply above_nil in Ha. subst a. apply added_here.
  - apply above_snoc in Ha. destruct Ha as [->|Ha]; [apply added_here|].
    apply (full_keep fs t (d ++ [c]) d m (F d c eq_refl) a v Ha H).
Qed.
Lemma full_add fs t d m : Loaded fs t -> (forall d' c, d = d' ++ [c] -> Full fs t d') ->
  Full fs (match find_mask t (dirstr d) with Some _ => t | None => t ++ [(dirstr d, m)] end) d.
Proof. intros _. exact (full_added fs t d m). Qed.
Lemma loaded_add fs t d m : Forall Name d -> Loaded fs t -> HasMask fs d m -> (forall d' c, d = d' ++ [c] -> Full fs t d') ->
  Loaded fs (match find_mask t (dirstr d) with Some _ => t | None => t ++ [(dirstr d, m)] end).
Proof.
  intros F [C U] H P. split; [now apply cache_add|]. fold (added t d m). intros a v Fa E.
  destruct (find_mask t (dirstr a)) as [w|] eqn:Et; [apply full_keep; exact (U a w Fa Et)|].
  assert (a = d) as ->; [|now apply full_added].
  unfold added in E. destruct (find_mask t (dirstr d)); [congruence|]. rewrite find_app, Et in E. cbn [find_mask] in E.
  destruct (beq_spec (dirstr d) (dirstr a)) as [Ed|]; [|discriminate]. now apply dirstr_inj in Ed.
Qed.

(** The masks in the table after a search, starting from a table that has this property too. *)
Lemma demask_full pr K fs basedir disk moc :
  GoodPrimitives pr -> length K = 32 -> GoodLibrary pr fs -> Installed pr K fs basedir disk moc ->
  forall d, GoodDir d -> PkgFits basedir d ->
  (* the package file *)
  (forall fuel t key, 2 * length d < fuel -> (forall d' c, d = d' ++ [c] -> Filled fs d') -> Loaded fs t -> length key = 32 ->
     exists t' key', demask_key fuel pr K disk basedir t (path_of d PACKAGE_MOC) key = Ok (1%Z, t', key') /\ Loaded fs t' /\ (forall d' c, d = d' ++ [c] -> Full fs t' d') /\
       ((d = [] /\ key' = key) \/ exists d' c m, d = d' ++ [c] /\ Nearest pr fs d' m /\ key' = xor key m)) /\
  (* other names *)
  (forall fuel t key c, 2 * length d + 1 < fuel -> Filled fs d -> Loaded fs t -> length key = 32 ->
     NoSlash c -> caseeq c PACKAGE_MOC = false -> length (path_of d c) <= 4096 ->
     exists flag t' m, demask_key fuel pr K disk basedir t (path_of d c) key = Ok (flag, t', xor key m) /\ Loaded fs t' /\ Full fs t' d /\
       Nearest pr fs d m /\ (0 <= flag)%Z /\ (forall m', HasMask fs d m' -> flag = 0%Z) /\ (NoPackage fs d -> flag = 1%Z)).
Proof.
  intros G LK GL Ins. pose proof (good_mask_len fs (proj1 GL)) as ML.
  induction d as [|c0 d IH] using rev_ind; intros Gd Fit.
  - match goal with |- ?A /\ _ => assert (PA : A) end.
    { intros fuel t key Fu _ C Lk. destruct fuel as [|f]; [lia|].
      rewrite (demask_package f pr K disk basedir t []) by (auto; cbn; lia).
      exists t, key. split; [reflexivity|]. split; [exact C|]. split; [intros d' c' E; destruct d'; discriminate|]. now left. }
    split; [exact PA|].
    intros fuel t key c Fu Fl C Lk Nc Cc Lc. destruct fuel as [|f]; [lia|].
    rewrite demask_other by (auto; apply Gd).
    destruct (find_mask t (dirstr [])) as [m|] eqn:Fi.
    { pose proof (proj1 C [] m (Forall_nil _) Fi) as H. exists 0%Z, t, m. split; [reflexivity|]. split; [exact C|].
      split; [exact (proj2 C _ m (proj1 Gd) Fi)|].
      split; [now apply Near_here|]. split; [lia|]. split; [auto|]. intros Np. now apply Np in H. }
    change (NAME_MAX <? 12) with false. cbn iota.
    destruct (PA f t key ltac:(cbn in *; lia) ltac:(intros d' c' E; destruct d'; discriminate) C Lk) as (t' & key' & E & C' & Fu' & K').
    assert (key' = key) as -> by (destruct K' as [[_ ->]|(d' & c' & _ & E' & _)]; [reflexivity|destruct d'; discriminate]).
    destruct Ins as (_ & Here & Gone).
    rewrite snprintf_fits by (unfold PkgFits in Fit; rewrite !app_length; cbn [length]; unfold NAME_MAX; lia).
    destruct (haspackage_dec fs []) as [(p & Ip & P & Ep)|Np].
    + destruct (Here p Ip) as [Enc Dk]. unfold moc_path in Dk. rewrite Ep, P in Dk. change (B "package.mo" ++ B "c") with PACKAGE_MOC in Dk.
      rewrite Dk.
      destruct (PA f t K ltac:(cbn in *; lia) ltac:(intros d' c' E'; destruct d'; discriminate) C LK) as (t2 & k2 & E2 & C2 & Fu2 & K2).
      assert (k2 = K) as -> by (destruct K2 as [[_ ->]|(d' & c' & _ & E' & _)]; [reflexivity|destruct d'; discriminate]).
      rewrite <- Ep in E2.
      pose proof (decrypt_package pr K fs _ t p (moc p) K 1%Z t2 G LK GL Ip P Enc (K_top fs K p P Ep) E2 ltac:(discriminate)) as De.
      rewrite Ep in De. rewrite De. cbn [bind].
      assert (Nd : n_data p <> []) by (apply (Fl p Ip P); rewrite Ep; apply above_refl).
      destruct (Z.ltb_spec 0 (zlen (n_data p))) as [_|X]; [|unfold zlen in X; destruct (n_data p); [congruence|cbn [length] in X; lia]].
      unfold zlen. rewrite Nat2Z.id, skipn_app, skipn_all, Nat.sub_diag. cbn [skipn app].
      rewrite firstn_all2 by (rewrite (ML p Ip);  lia).
      assert (H : HasMask fs [] (n_mask p)) by (exists p; auto).
      do 3 eexists. split; [reflexivity|]. split; [apply loaded_add; [constructor|exact C2|exact H|]; intros d' c' E'; destruct d'; discriminate|].
      split; [apply full_add; [exact C2|]; intros d' c' E'; destruct d'; discriminate|].
      split; [now apply Near_here|]. split; [lia|]. split; [auto|]. intros Np. now apply Np in H.
    + change (path_of [] PACKAGE_MOC) with (path_of [] (B "package.moc")). rewrite (Gone [] (Forall_nil _) Np).
      change (path_of [] (B "package.moc")) with (path_of [] PACKAGE_MOC). rewrite E. exists 1%Z, t', (repeat NUL (p_len pr)). rewrite (xor_zeros key (p_len pr)). split; [reflexivity|]. split; [exact C'|].
      split; [intros a m Ha H; apply above_nil in Ha; subst a; now apply Np in H|].
      split; [now apply Near_top|]. split; [lia|]. split; [|reflexivity]. intros m' H. now apply Np in H.
  - destruct (gooddir_snoc d c0 Gd) as (Gd' & N0 & C0 & M0).
    destruct (IH Gd' (pkgfits_up _ _ _ Fit)) as [_ IHo].
    assert (Ld : length (d ++ [c0]) = S (length d)) by (rewrite app_length; cbn; lia).
    assert (Lf : length (path_of (d ++ [c0]) PACKAGE_MOC) <= 4096) by (unfold PkgFits in Fit; lia).
    assert (Lp : length (path_of d c0) <= 4096) by (rewrite path_of_snoc, app_length in Lf; lia).
    match goal with |- ?A /\ _ => assert (PA : A) end.
    { intros fuel t key Fu Fl C Lk. destruct fuel as [|f]; [lia|].
      rewrite demask_package by (auto; apply Gd).
      destruct (d ++ [c0]) as [|y ys] eqn:E; [destruct d; discriminate|]. rewrite <- E in *. rewrite dirstr_snoc.
      destruct (IHo f t key c0) as (flag & t' & m & Eq & C' & Fu' & Ne & F0 & _ & _); auto using name_noslash.
      { lia. } { now apply (Fl d c0). }
      rewrite Eq. cbn [bind]. destruct (Z.ltb_spec flag 0) as [|_]; [lia|].
      exists t', (xor key m). split; [reflexivity|]. split; [exact C'|]. split; [|right; now exists d, c0, m].
      intros d' c' E'. apply app_inj_tail in E'. destruct E' as [<- _]. exact Fu'. }
    split; [exact PA|].
    intros fuel t key c Fu Fl C Lk Nc Cc Lc. destruct fuel as [|f]; [lia|].
    assert (Fl' : forall d' c', d ++ [c0] = d' ++ [c'] -> Filled fs d').
    { intros d' c' E p Ip P A. apply (Fl p Ip P). rewrite E. now apply above_up. }
    rewrite demask_other by (auto; apply Gd).
    destruct (find_mask t (dirstr (d ++ [c0]))) as [m|] eqn:Fi.
    { pose proof (proj1 C _ m (proj1 Gd) Fi) as H. exists 0%Z, t, m. split; [reflexivity|]. split; [exact C|].
      split; [exact (proj2 C _ m (proj1 Gd) Fi)|].
      split; [now apply Near_here|]. split; [lia|]. split; [auto|]. intros Np. now apply Np in H. }
    assert (Fits : (NAME_MAX <? match d ++ [c0] with [] => 12 | _ => length (dirstr (d ++ [c0])) + 13 end) = false).
    { destruct (d ++ [c0]) as [|y ys] eqn:E; [destruct d; discriminate|]. rewrite <- E in *. apply Nat.ltb_ge.
      unfold PkgFits in Fit. rewrite pkg_path in Fit by (destruct d; discriminate). rewrite app_length in Fit. cbn [length B String.list_ascii_of_string] in Fit.
      unfold NAME_MAX. lia. }
    rewrite Fits.
    destruct Ins as (_ & Here & Gone).
    rewrite snprintf_fits by (unfold PkgFits in Fit; rewrite !app_length; cbn [length]; unfold NAME_MAX; lia).
    destruct (haspackage_dec fs (d ++ [c0])) as [(p & Ip & P & Ep)|Np].
    + destruct (Here p Ip) as [Enc Dk]. unfold moc_path in Dk. rewrite Ep, P in Dk. change (B "package.mo" ++ B "c") with PACKAGE_MOC in Dk.
      rewrite Dk.
      destruct (PA f t K ltac:(lia) Fl' C LK) as (t2 & k2 & E2 & C2 & Fu2 & K2).
      assert (FK : FileKey pr fs K p k2).
      { destruct K2 as [[E' _]|(d' & c' & m & E' & Ne & ->)]; [destruct d; discriminate|].
        apply (K_package fs K p d' c' m P); congruence. }
      rewrite <- Ep in E2.
      pose proof (decrypt_package pr K fs _ t p (moc p) k2 1%Z t2 G LK GL Ip P Enc FK E2 ltac:(discriminate)) as De.
      rewrite Ep in De. rewrite De. cbn [bind].
      assert (Nd : n_data p <> []) by (apply (Fl p Ip P); rewrite Ep; apply above_refl).
      destruct (Z.ltb_spec 0 (zlen (n_data p))) as [_|X]; [|unfold zlen in X; destruct (n_data p); [congruence|cbn [length] in X; lia]].
      unfold zlen. rewrite Nat2Z.id, skipn_app, skipn_all, Nat.sub_diag. cbn [skipn app].
      rewrite firstn_all2 by (rewrite (ML p Ip);  lia).
      assert (H : HasMask fs (d ++ [c0]) (n_mask p)) by (exists p; auto).
      do 3 eexists. split; [reflexivity|]. split; [apply loaded_add; [apply Gd|exact C2|exact H|exact Fu2]|].
      split; [apply full_add; [exact C2|exact Fu2]|].
      split; [now apply Near_here|]. split; [lia|]. split; [auto|]. intros Np. now apply Np in H.
    + change PACKAGE_MOC with (B "package.moc") at 1. rewrite (Gone _ (proj1 Gd) Np).
      destruct (PA f t key ltac:(lia) Fl' C Lk) as (t' & key' & E & C' & Fu' & [[X _]|(d' & c' & m & Ed & Ne & ->)]); [destruct d; discriminate|].
      exists 1%Z, t', m. split; [exact E|]. split; [exact C'|].
      split; [intros a v Ha H; apply above_snoc in Ha; destruct Ha as [->|Ha]; [now apply Np in H|exact (Fu' d c0 eq_refl a v Ha H)]|].
      split; [rewrite Ed in *; now apply Near_up|]. split; [lia|]. split; [|reflexivity]. intros m' H. now apply Np in H.
Qed.


