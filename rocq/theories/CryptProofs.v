(** Proofs about encryption and decryption of libraries: round trip, authenticity, memory safety,
    directories without package files, empty package files, wrong orders. *)
From Verif Require Import Base BaseProofs WireModel CryptModel CryptSpec CbcProofs MaskProofs DemaskProofs.

(** ** Round trip *)

Lemma forall2_combine {A C} (P : A -> C -> Prop) l m : Forall2 P l m -> forall x y, In (x, y) (combine l m) -> P x y.
Proof. induction 1 as [|a b l m H _ IH]; intros x y I; [contradiction|]. destruct I as [E|I]; [injection E as <- <-; exact H|now apply IH]. Qed.
Lemma forall2_in {A C} (P : A -> C -> Prop) l m : Forall2 P l m -> forall x, In x l -> exists y, In (x, y) (combine l m).
Proof.
  induction 1 as [|a b l m H _ IH]; intros x I; [contradiction|]. destruct I as [<-|I]; [exists b; now left|].
  destruct (IH x I) as (y & Iy). exists y. now right.
Qed.

Lemma round_trip pr K fs :
  GoodPrimitives pr -> length K = 32 -> GoodLibrary pr fs -> PackageFirst fs ->
  exists outs, encrypt_all pr K [] (map source_of fs) = Ok (Some outs) /\ length outs = length fs /\
  forall basedir disk,
    (forall f, In f fs -> length basedir + length (path_of (n_dir f) (n_name f)) <= 4000) ->
    (forall f out, In (f, out) (combine fs outs) -> disk (basedir ++ [SLASH] ++ moc_path f) = Some out) ->
    (forall d, Forall Name d -> NoPackage fs d -> disk (basedir ++ [SLASH] ++ path_of d (B "package.moc")) = None) ->
    forall reqs, (forall f out, In (f, out) reqs -> In (f, out) (combine fs outs) /\ Readable fs f) ->
    decrypt_all pr K disk basedir [] (map (fun '(f, out) => (moc_path f, out)) reqs)
      = Ok (map (fun '(f, _) => Some (n_data f)) reqs).
Proof.
  intros G LK GL PF. destruct (encrypt_library pr K fs G LK GL PF) as (outs & E & F2).
  exists outs. split; [exact E|]. split; [clear - F2; induction F2; cbn; congruence|].
  intros basedir disk Lb Here Gone reqs R.
  set (moc := fun f => match disk (basedir ++ [SLASH] ++ moc_path f) with Some o => o | None => [] end).
  assert (Ins : Installed pr K fs basedir disk moc).
  { split; [exact Lb|]. split; [|exact Gone]. intros f If. destruct (forall2_in _ _ _ F2 f If) as (out & Io).
    pose proof (Here f out Io) as D. unfold moc. rewrite D. split; [|reflexivity].
    exact (forall2_combine _ _ _ F2 f out Io). }
  assert (Em : map (fun '(f, out) => (moc_path f, out)) reqs = map (fun f => (moc_path f, moc f)) (map fst reqs)).
  { rewrite map_map. apply map_ext_in. intros [f out] I. cbn [fst]. destruct (R f out I) as [Io _].
    unfold moc. now rewrite (Here f out Io). }
  assert (Er : map (fun '(f, _) => Some (n_data f)) reqs = map (fun f => Some (n_data f)) (map fst reqs)).
  { rewrite map_map. apply map_ext. now intros [f out]. }
  rewrite Em, Er. apply (decrypt_session pr K fs basedir disk moc G LK GL Ins).
  - intros f I. apply in_map_iff in I. destruct I as ([f' out] & <- & I). destruct (R f' out I) as [Io Rd].
    split; [|exact Rd]. now apply in_combine_l in Io.
  - intros a m _ X. discriminate.
Qed.

(** ** Determinism of the sealed form *)

Lemma blocks_unique (bs bs' : list bytes) : Forall (fun b => length b = 16) bs -> Forall (fun b => length b = 16) bs' ->
  concat bs = concat bs' -> bs = bs'.
Proof.
  intros F. revert bs'. induction F as [|b bs Hb F IH]; intros [|b' bs'] F' E.
  - reflexivity.
  - apply Forall_cons_iff in F'. destruct F' as [Lb' _]. cbn [concat] in E. destruct b'; [discriminate Lb'|discriminate E].
  - cbn [concat] in E. destruct b; [discriminate Hb|discriminate E].
  - apply Forall_cons_iff in F'. destruct F' as [Lb' F']. cbn [concat] in E.
    assert (b = b' /\ concat bs = concat bs') as [-> E'].
    { revert Hb Lb' E. generalize 16 at 1 2. intros n. revert b b'. induction n as [|n IHn]; intros [|x b] [|y b'] L L'; try discriminate.
      - cbn. intros E. now split.
      - cbn. intros E. injection E as -> E. destruct (IHn b b') as [-> ->]; [now injection L|now injection L'|exact E|]. now split. }
    now rewrite (IH bs' F' E').
Qed.
Lemma cbc_unique pr key chain bs cs : Cbc pr key chain bs cs -> forall cs', Cbc pr key chain bs cs' -> cs = cs'.
Proof. induction 1 as [|chain b bs cs C IH]; intros cs' C'; inversion C'; subst; [reflexivity|]. f_equal. now apply IH. Qed.
Lemma pad_unique n k k' q q' : 1 <= k <= 16 -> 1 <= k' <= 16 -> n + k = q * BLOCK -> n + k' = q' * BLOCK -> k = k'.
Proof. unfold BLOCK. intros. lia. Qed.
Lemma sealed_unique pr key iv data out out' : Sealed pr key iv data out -> Sealed pr key iv data out' -> out = out'.
Proof.
  intros (bs & cs & (k & Hk & E & F) & C & ->) (bs' & cs' & (k' & Hk' & E' & F') & C' & ->).
  assert (k = k').
  { pose proof (concat_length bs F) as L. pose proof (concat_length bs' F') as L'.
    rewrite E, app_length, repeat_length in L. rewrite E', app_length, repeat_length in L'.
    eapply pad_unique; eassumption. }
  subst k'. assert (bs = bs') by (apply blocks_unique; congruence). subst bs'.
  now rewrite (cbc_unique pr key iv bs cs C cs' C').
Qed.

(** C33 *)
Lemma other_masks pr K fs fs' f out out' :
  GoodPrimitives pr -> GoodLibrary pr fs -> GoodLibrary pr fs' -> 
  EncryptedAs pr K fs f out -> EncryptedAs pr K fs' f out' ->
  (forall d m, (n_dir f = d /\ ~ IsPackage f) \/ (IsPackage f /\ exists c, n_dir f = d ++ [c]) ->
     Nearest pr fs d m -> Nearest pr fs' d m) ->
  out = out'.
Proof.
  intros G GL GL' (key & data & FK & Pay & S) (key' & data' & FK' & Pay' & S') Same.
  assert (data = data') by (destruct Pay, Pay'; try contradiction; reflexivity). subst data'.
  assert (FK2 : FileKey pr fs' K f key).
  { destruct FK as [m P N|d c m P E N|P E].
    - apply K_ordinary; [exact P|]. apply (Same (n_dir f) m); [now left|exact N].
    - apply (K_package fs' K f d c m P E). apply (Same d m); [right; split; [exact P|now exists c]|exact N].
    - now apply K_top. }
  rewrite <- (filekey_unique fs' K f key key' GL' FK2 FK') in S'. eapply sealed_unique; eassumption.
Qed.

(** ** Authenticity *)

(** The conclusion of a successful decryption with a known key. *)
Lemma decrypt_authentic pr K dm t rel file flag t1 key t2 n out :
  GoodPrimitives pr -> dm t rel K = Ok (flag, t1, key) ->
  decrypt_with pr K dm t rel file = Ok (t2, n, out) ->
  (n < 0)%Z \/ (Authentic pr key file out /\ n = if (flag =? 0)%Z then zlen out else (zlen out - Z.of_nat (p_len pr))%Z).
Proof.
  intros G E. unfold decrypt_with. rewrite E. cbn [bind].
  destruct (Nat.ltb_spec (length file + 1) BLOCK) as [|L]; [discriminate|].
  destruct (Z.ltb_spec (to_int (zlen file - Z.of_nat BLOCK - Z.of_nat MAC_LEN)) 0) as [X|X]; [intros Q; injection Q as _ <- _; left; lia|].
  destruct (evp_decrypt pr key _ _) as [o|] eqn:D; [|intros Q; injection Q as _ <- _; left; lia].
  destruct (beq_spec (mac_of pr key (firstn BLOCK (file ++ [NUL]) ++ o)) (skipn (length file - MAC_LEN) file)) as [M|]; [|intros Q; injection Q as _ <- _; left; lia].
  assert (Lf : 48 <= length file).
  { destruct (Nat.le_gt_cases 48 (length file)) as [|Lt]; [assumption|]. exfalso.
    unfold to_int, zlen, BLOCK, MAC_LEN in X.
    rewrite Z.mod_small in X; change (2^31)%Z with 2147483648%Z in *; change (2^32)%Z with 4294967296%Z in *; lia. }
  assert (Fi : firstn BLOCK (file ++ [NUL]) = firstn BLOCK file).
  { rewrite firstn_app. replace (BLOCK - length file) with 0 by (unfold BLOCK; lia). cbn [firstn]. apply app_nil_r. }
  rewrite Fi in M.
  assert (A : Authentic pr key file o).
  { exists (firstn BLOCK file), (firstn (length file - 48) (skipn BLOCK file)). split; [rewrite firstn_length; unfold BLOCK; lia|].
    change Mac with mac_of. rewrite M. rewrite <- (firstn_skipn BLOCK file) at 1. f_equal.
    rewrite <- (firstn_skipn (length file - 48) (skipn BLOCK file)) at 1. f_equal. rewrite skipn_twice. f_equal. unfold BLOCK, MAC_LEN. lia. }
  destruct (flag =? 0)%Z; [intros Q; injection Q as _ <- <-; right; now split|].
  destruct (Z.ltb_spec (zlen o - Z.of_nat (p_len pr)) 0); [discriminate|].
  destruct (store_mask t1 rel _) as [t3| |]; cbn [bind]; [|discriminate..].
  intros Q; injection Q as _ <- <-. right. split; [exact A|]. reflexivity.
Qed.

(** ** Memory safety *)

(** Contents with which decryption can go wrong: shorter than the IV, or authentic under a key. *)
Definition Risky (pr : primitives) (file : bytes) : Prop :=
  length file < 15 \/ exists key data, Authentic pr key file data.

Lemma decrypt_with_ub pr K dm t rel file flag t1 key k : GoodPrimitives pr ->
  dm t rel K = Ok (flag, t1, key) -> decrypt_with pr K dm t rel file = UB k ->
  length file < 15 \/ (flag <> 0%Z /\ exists data, Authentic pr key file data /\ ((zlen data < Z.of_nat (p_len pr))%Z \/ exists mk k', store_mask t1 rel mk = UB k')).
Proof.
  intros G E. unfold decrypt_with. rewrite E. cbn [bind].
  destruct (Nat.ltb_spec (length file + 1) BLOCK) as [L|L]; [intros _; left; unfold BLOCK in L; lia|].
  destruct (Z.ltb_spec (to_int (zlen file - Z.of_nat BLOCK - Z.of_nat MAC_LEN)) 0) as [X|X]; [discriminate|].
  destruct (evp_decrypt pr key _ _) as [o|] eqn:D; [|discriminate].
  destruct (beq_spec (mac_of pr key (firstn BLOCK (file ++ [NUL]) ++ o)) (skipn (length file - MAC_LEN) file)) as [M|]; [|discriminate].
  assert (Lf : 48 <= length file).
  { destruct (Nat.le_gt_cases 48 (length file)) as [|Lt]; [assumption|]. exfalso.
    unfold to_int, zlen, BLOCK, MAC_LEN in X.
    rewrite Z.mod_small in X; change (2^31)%Z with 2147483648%Z in *; change (2^32)%Z with 4294967296%Z in *; lia. }
  assert (Fi : firstn BLOCK (file ++ [NUL]) = firstn BLOCK file).
  { rewrite firstn_app. replace (BLOCK - length file) with 0 by (unfold BLOCK; lia). cbn [firstn]. apply app_nil_r. }
  rewrite Fi in M.
  assert (A : Authentic pr key file o).
  { exists (firstn BLOCK file), (firstn (length file - 48) (skipn BLOCK file)). split; [rewrite firstn_length; unfold BLOCK; lia|].
    change Mac with mac_of. rewrite M. rewrite <- (firstn_skipn BLOCK file) at 1. f_equal.
    rewrite <- (firstn_skipn (length file - 48) (skipn BLOCK file)) at 1. f_equal. rewrite skipn_twice. f_equal. unfold BLOCK, MAC_LEN. lia. }
  destruct (Z.eqb_spec flag 0) as [|Nf]; [discriminate|].
  destruct (Z.ltb_spec (zlen o - Z.of_nat (p_len pr)) 0) as [Lt|Ge].
  { intros _. right. split; [exact Nf|]. exists o. split; [exact A|]. left. lia. }
  set (mk := firstn (p_len pr) _). destruct (store_mask t1 rel mk) as [t3|k'|] eqn:St; cbn [bind]; [discriminate| |discriminate].
  intros _. right. split; [exact Nf|]. exists o. split; [exact A|]. right. now exists mk, k'.
Qed.

Lemma last_slash_bound s : last_slash s < length s \/ (s = [] /\ last_slash s = 0).
Proof.
  induction s as [|x r IH]; [right; now split|left]. rewrite last_slash_cons.
  destruct IH as [L|[-> L]]; [|change (last_slash []) with 0; cbn; lia].
  destruct (last_slash r) as [|i] eqn:E; [|cbn [length] in *; lia].
  destruct r as [|y r]; [cbn; lia|]. destruct (is_slash y); cbn [length]; cbn; lia.
Qed.
Lemma split_shorter rel d b : split_path rel = (Some d, b) -> d <> [] /\ length d < length rel.
Proof.
  unfold split_path. pose proof (last_slash_bound (firstn NAME_MAX rel)) as L.
  destruct (last_slash (firstn NAME_MAX rel)) as [|i] eqn:E; [discriminate|]. intros Q.
  assert (Ed : d = firstn (S i) rel) by congruence. subst d.
  rewrite firstn_length in L.
  destruct L as [L|[_ L]]; [|discriminate L]. 
  apply Nat.min_glb_lt_iff in L. destruct L as [_ L].
  assert (F : length (firstn (S i) rel) = S i) by (apply firstn_length_le; lia).
  split; [intros X; rewrite X in F; discriminate|]. rewrite F. exact L.
Qed.
Lemma split_pkg d : d <> [] -> length d + 12 <= 4096 -> split_path (d ++ B "/package.moc") = (Some d, PACKAGE_MOC).
Proof.
  intros N L. unfold split_path. rewrite firstn_all2 by (rewrite app_length; unfold NAME_MAX; cbn [length B String.list_ascii_of_string]; lia).
  change (B "/package.moc") with (SLASH :: PACKAGE_MOC). rewrite last_slash_at by (auto using noslash_package).
  destruct d as [|x d]; [congruence|]. cbn [length]. f_equal.
  - f_equal. change (S (length d)) with (length (x :: d)). rewrite firstn_app, firstn_all, Nat.sub_diag. cbn [firstn]. apply app_nil_r.
  - change (S (S (length d))) with (S (length (x :: d))).
    change ((x :: d) ++ SLASH :: PACKAGE_MOC) with ((x :: d) ++ [SLASH] ++ PACKAGE_MOC). rewrite app_assoc.
    replace (S (length (x :: d))) with (length ((x :: d) ++ [SLASH])) by (rewrite app_length; cbn; lia).
    rewrite skipn_app, skipn_all, Nat.sub_diag. reflexivity.
Qed.

(** Outcomes of key search and decryption for paths that fit. *)
Definition Fine {A} (disk : bytes -> option bytes) (pr : primitives) (o : outcome A) : Prop :=
  match o with
  | Ok _ => True
  | UB _ => exists p c, disk p = Some c /\ Risky pr c
  | Blocked => False
  end.

Lemma decrypt_with_blocked pr K dm t rel file : decrypt_with pr K dm t rel file = Blocked -> dm t rel K = Blocked.
Proof.
  unfold decrypt_with. destruct (dm t rel K) as [[[flag t1] key]| |]; cbn [bind]; [|discriminate|reflexivity].
  destruct (length file + 1 <? BLOCK); [discriminate|]. destruct (to_int _ <? 0)%Z; [discriminate|].
  destruct (evp_decrypt pr key _ _) as [o|]; [|discriminate]. destruct (beq _ _); [|discriminate].
  destruct (flag =? 0)%Z; [discriminate|]. destruct (_ <? 0)%Z; [discriminate|].
  unfold store_mask. cbn zeta. destruct (_ <? 0)%Z; [discriminate|]. destruct (_ <=? _)%Z; [discriminate|].
  destruct (find_mask _ _); discriminate.
Qed.

Lemma demask_fine pr K disk basedir : GoodPrimitives pr -> forall n rel fuel t key,
  length rel <= n -> length rel <= 4083 -> 2 * n + 2 <= fuel -> Fine disk pr (demask_key fuel pr K disk basedir t rel key).
Proof.
  intros G. induction n as [|n IH]; intros rel fuel t key Ln L4 Fu.
  - destruct rel; [|cbn in Ln; lia]. destruct fuel as [|[|f]]; [lia|lia|]. rewrite demask_S. cbn zeta.
    change (split_path []) with (@None bytes, @nil ascii). change (caseeq [] PACKAGE_MOC) with false. cbn iota.
    destruct (find_mask t [SLASH]); [exact I|]. change (NAME_MAX <? 12) with false. cbn iota.
    destruct (disk _) as [c|] eqn:D.
    + assert (Em : forall k, demask_key (S f) pr K disk basedir t PACKAGE_MOC k = Ok (1%Z, t, k)).
      { intros k. rewrite demask_S. cbn zeta. rewrite (split_top _ noslash_package). reflexivity. }
      destruct (decrypt_with pr K (demask_key (S f) pr K disk basedir) t PACKAGE_MOC c) as [[[t1 res] out]|k|] eqn:E; cbn [bind].
      * destruct (0 <? res)%Z; exact I.
      * exists (snprintf NAME_MAX (basedir ++ [SLASH] ++ PACKAGE_MOC)), c. split; [exact D|].
        destruct (decrypt_with_ub pr K _ t PACKAGE_MOC c _ _ _ k G (Em K) E) as [S|(_ & data & A & _)]; [now left|right; now exists K, data].
      * apply decrypt_with_blocked in E. rewrite Em in E. discriminate.
    + rewrite demask_S. cbn zeta. rewrite (split_top _ noslash_package). exact I.
  - destruct fuel as [|[|f]]; [lia|lia|]. rewrite demask_S. cbn zeta.
    destruct (split_path rel) as [dir base] eqn:Sp.
    assert (Ld : forall d, dir = Some d -> d <> [] /\ length d <= n).
    { intros d ->. apply split_shorter in Sp. destruct Sp. split; [assumption|lia]. }
    destruct (caseeq base PACKAGE_MOC).
    + destruct dir as [d|]; [|exact I]. destruct (Ld d eq_refl) as [_ L].
      specialize (IH d (S f) t key L ltac:(apply split_shorter in Sp; lia) ltac:(lia)). destruct (demask_key (S f) pr K disk basedir t d key) as [[[r t1] k1]| |]; exact IH.
    + destruct (find_mask t _); [exact I|].
      set (pkg := match dir with Some d => d ++ B "/package.moc" | None => PACKAGE_MOC end).
      assert (Lt : (NAME_MAX <? match dir with Some d => length d + 13 | None => 12 end) = false).
      { apply Nat.ltb_ge. unfold NAME_MAX. destruct dir as [d|]; [|lia]. apply split_shorter in Sp. lia. }
      rewrite Lt.
      (* the package file of this directory *)
      assert (Pk : forall k, Fine disk pr (demask_key (S f) pr K disk basedir t pkg k)).
      { intros k. rewrite demask_S. cbn zeta. unfold pkg. destruct dir as [d|].
        - destruct (Ld d eq_refl) as [Nd L]. pose proof (split_shorter _ _ _ Sp) as [_ Ls]. rewrite split_pkg by (auto; lia). rewrite caseeq_refl.
          specialize (IH d f t k L ltac:(lia) ltac:(lia)). destruct (demask_key f pr K disk basedir t d k) as [[[r t1] k1]| |]; exact IH.
        - rewrite (split_top _ noslash_package). exact I. }
      destruct (disk _) as [c|] eqn:D; [|apply Pk].
      destruct (decrypt_with pr K (demask_key (S f) pr K disk basedir) t pkg c) as [[[t1 res] out]|k|] eqn:E; cbn [bind].
      * destruct (0 <? res)%Z; exact I.
      * specialize (Pk K). destruct (demask_key (S f) pr K disk basedir t pkg K) as [[[fl t1] k1]| |] eqn:Q.
        -- eexists _, c. split; [exact D|].
           destruct (decrypt_with_ub pr K _ t pkg c _ _ _ k G Q E) as [S|(_ & data & A & _)]; [now left|right; now exists k1, data].
        -- exact Pk.
        -- contradiction.
      * apply decrypt_with_blocked in E. specialize (Pk K). rewrite E in Pk. exact Pk.
Qed.

Lemma cr_decrypt_fine pr K disk basedir t rel file : GoodPrimitives pr -> length rel <= 4083 ->
  match cr_decrypt pr K disk basedir t rel file with
  | Ok _ => True
  | UB _ => Risky pr file \/ exists p c, disk p = Some c /\ Risky pr c
  | Blocked => False
  end.
Proof.
  intros G L. unfold cr_decrypt.
  pose proof (demask_fine pr K disk basedir G (length rel) rel (2 * length rel + 4) t K (le_n _) L ltac:(lia)) as F.
  destruct (decrypt_with pr K _ t rel file) as [[[t1 res] out]|k|] eqn:E; cbn [bind].
  - exact I.
  - destruct (demask_key (2 * length rel + 4) pr K disk basedir t rel K) as [[[fl t1] k1]| |] eqn:Q; [|right; exact F|contradiction].
    left. destruct (decrypt_with_ub pr K _ t rel file _ _ _ k G Q E) as [S|(_ & data & A & _)]; [now left|right; now exists k1, data].
  - apply decrypt_with_blocked in E. rewrite E in F. exact F.
Qed.

Lemma cr_decrypt_authentic pr K disk basedir t rel : GoodPrimitives pr ->
  exists key, forall file t' data, cr_decrypt pr K disk basedir t rel file = Ok (t', Some data) ->
  exists extra, Authentic pr key file (data ++ extra) /\ (extra = [] \/ length extra = p_len pr).
Proof.
  intros G.
  destruct (demask_key (2 * length rel + 4) pr K disk basedir t rel K) as [[[fl t1] key]|k|] eqn:Q.
  - exists key. intros file t' data. unfold cr_decrypt.
    destruct (decrypt_with pr K _ t rel file) as [[[t2 res] out]|k|] eqn:E; cbn [bind]; [|discriminate..].
    destruct (Z.ltb_spec res 0) as [|Ge]; [discriminate|]. intros X. injection X as <- <-.
    destruct (decrypt_authentic pr K _ t rel file fl t1 key t2 res out G Q E) as [|[A En]]; [lia|].
    exists (skipn (Z.to_nat res) out). rewrite firstn_skipn. split; [exact A|].
    destruct (fl =? 0)%Z; subst res; unfold zlen in *.
    + left. rewrite Nat2Z.id. apply skipn_all.
    + right. rewrite skipn_length. lia.
  - exists []. intros file t' data. unfold cr_decrypt, decrypt_with. rewrite Q. discriminate.
  - exists []. intros file t' data. unfold cr_decrypt, decrypt_with. rewrite Q. discriminate.
Qed.

(** ** One file of an installed library, any contents *)

Lemma key_of_entry pr K fs basedir disk moc f t :
  GoodPrimitives pr -> length K = 32 -> GoodLibrary pr fs -> Installed pr K fs basedir disk moc ->
  In f fs -> Readable fs f -> Cache fs t ->
  exists flag t' key, demask_key (2 * length (moc_path f) + 4) pr K disk basedir t (moc_path f) K = Ok (flag, t', key) /\
    Cache fs t' /\ FileKey pr fs K f key /\ ((IsPackage f /\ flag = 1%Z) \/ (~ IsPackage f /\ flag = 0%Z)).
Proof.
  intros G LK GL Ins If [InP Rd] C. pose proof (good_mask_len fs (proj1 GL)) as ML.
  assert (Ge : GoodEntry pr f) by (destruct GL as [GF _]; rewrite Forall_forall in GF; now apply GF).
  pose proof (gooddir_entry f Ge) as Gd. destruct Ge as (Fd & Nn & _ & Case & Len & Li & Lm & Ld).
  destruct InP as (m0 & H0).
  assert (Fit : PkgFits basedir (n_dir f)).
  { destruct H0 as (p & Ip & P & Dp & _). pose proof (proj1 Ins p Ip) as L. rewrite P, Dp in L.
    unfold PkgFits. change PACKAGE_MOC with (B "package.mo" ++ B "c"). rewrite path_moc_length. lia. }
  destruct (demask_dirs pr K fs basedir disk moc G LK GL Ins (n_dir f) Gd Fit) as [Da Db].
  pose proof (path_length (n_dir f) (n_name f)) as Lp.
  assert (Lmoc : length (moc_path f) = length (path_of (n_dir f) (n_name f)) + 1) by apply path_moc_length.
  assert (Dp : IsPackage f \/ ~ IsPackage f) by (unfold IsPackage; destruct (beq_spec (n_name f) (B "package.mo")); tauto).
  destruct Dp as [P|P].
  - assert (Em : moc_path f = path_of (n_dir f) PACKAGE_MOC) by (unfold moc_path; now rewrite P).
    destruct (Da (2 * length (moc_path f) + 4) t K) as (t1 & k1 & E & C1 & K1); [lia| |exact C|exact LK|].
    { intros d' c' Ed p Ip Pp A. destruct (Rd p Ip Pp) as [->|]; [rewrite Ed; now apply above_up| |assumption].
      exfalso. rewrite Ed in A. apply above_length in A. rewrite app_length in A. cbn in A. lia. }
    exists 1%Z, t1, k1. rewrite Em in E |- *. split; [exact E|]. split; [exact C1|]. split; [|now left].
    destruct K1 as [[Ed ->]|(d' & c' & m & Ed & Ne & ->)]; [now apply K_top|now apply (K_package fs K f d' c' m P)].
  - assert (Cf : caseeq (n_name f ++ B "c") PACKAGE_MOC = false).
    { rewrite caseeq_moc. destruct (caseeq (n_name f) PACKAGE_MO) eqn:Q; [exfalso; auto|reflexivity]. }
    destruct (Db (2 * length (moc_path f) + 4) t K (n_name f ++ B "c")) as (flag & t1 & m & E & C1 & Ne & _ & F0 & _);
      [lia| |exact C|exact LK|apply noslash_moc; now apply name_noslash|exact Cf| |].
    { intros p Ip Pp A. destruct (Rd p Ip Pp A) as [->|]; [contradiction|assumption]. }
    { rewrite path_moc_length. lia. }
    exists flag, t1, (xor K m). split; [exact E|]. split; [exact C1|]. split; [now apply K_ordinary|]. right.
    split; [exact P|]. eapply F0; exact H0.
Qed.

(** Sessions: the cache after requests for readable files. *)
Lemma decrypt_prefix pr K fs basedir disk moc :
  GoodPrimitives pr -> length K = 32 -> GoodLibrary pr fs -> Installed pr K fs basedir disk moc ->
  forall reqs t rest, (forall f, In f reqs -> In f fs /\ Readable fs f) -> Cache fs t ->
  exists t', Cache fs t' /\
  decrypt_all pr K disk basedir t (map (fun f => (moc_path f, moc f)) reqs ++ rest) =
  bind (decrypt_all pr K disk basedir t' rest) (fun r => Ok (map (fun f => Some (n_data f)) reqs ++ r)).
Proof.
  intros G LK GL Ins. induction reqs as [|f reqs IH]; intros t rest R C.
  - exists t. split; [exact C|]. cbn [map app]. destruct (decrypt_all pr K disk basedir t rest); reflexivity.
  - destruct (R f (or_introl eq_refl)) as [If Rd].
    destruct (decrypt_entry pr K fs basedir disk moc f t G LK GL Ins If Rd C) as (t1 & E & C1).
    destruct (IH t1 rest) as (t' & C' & E'); [intros g Ig; apply R; now right|exact C1|].
    exists t'. split; [exact C'|]. cbn [map app decrypt_all]. rewrite E. cbn [bind]. rewrite E'.
    destruct (decrypt_all pr K disk basedir t' rest); reflexivity.
Qed.

Lemma tampered pr K fs basedir disk moc reqs f file :
  GoodPrimitives pr -> length K = 32 -> GoodLibrary pr fs -> Installed pr K fs basedir disk moc ->
  (forall g, In g reqs -> In g fs /\ Readable fs g) -> In f fs -> Readable fs f -> 15 <= length file ->
  exists key, FileKey pr fs K f key /\
  (decrypt_all pr K disk basedir [] (map (fun g => (moc_path g, moc g)) reqs ++ [(moc_path f, file)])
     = Ok (map (fun g => Some (n_data g)) reqs ++ [None]) \/
   exists data, Authentic pr key file data /\
     (~ IsPackage f -> decrypt_all pr K disk basedir [] (map (fun g => (moc_path g, moc g)) reqs ++ [(moc_path f, file)])
                       = Ok (map (fun g => Some (n_data g)) reqs ++ [Some data])) /\
     (IsPackage f -> p_len pr <= length data -> decrypt_all pr K disk basedir [] (map (fun g => (moc_path g, moc g)) reqs ++ [(moc_path f, file)])
                       = Ok (map (fun g => Some (n_data g)) reqs ++ [Some (firstn (length data - p_len pr) data)]))).
Proof.
  intros G LK GL Ins R If Rd Lf.
  destruct (decrypt_prefix pr K fs basedir disk moc G LK GL Ins reqs [] [(moc_path f, file)] R) as (t & C & E); [intros a m _ X; discriminate|].
  destruct (key_of_entry pr K fs basedir disk moc f t G LK GL Ins If Rd C) as (flag & t' & key & Ek & C' & FK & Fl).
  assert (Ge : GoodEntry pr f) by (destruct GL as [GF _]; rewrite Forall_forall in GF; now apply GF).
  destruct Ge as (Fd & _ & _ & _ & Len & _).
  exists key. split; [exact FK|]. rewrite E. clear E. cbn [decrypt_all]. unfold cr_decrypt.
  destruct (decrypt_with pr K (demask_key (2 * length (moc_path f) + 4) pr K disk basedir) t (moc_path f) file) as [[[t2 res] out]|k|] eqn:De; cbn [bind].
  - destruct (decrypt_authentic pr K _ t (moc_path f) file flag t' key t2 res out G Ek De) as [Lt|[A En]].
    + left. destruct (Z.ltb_spec res 0); [|lia]. reflexivity.
    + right. exists out. split; [exact A|]. destruct Fl as [[P ->]|[P ->]]; cbn [Z.eqb] in En.
      * split; [contradiction|]. intros _ L. subst res. destruct (Z.ltb_spec (zlen out - Z.of_nat (p_len pr)) 0) as [X|_]; [unfold zlen in X; lia|].
        do 5 f_equal. unfold zlen. lia.
      * split; [|contradiction]. intros _. subst res. destruct (Z.ltb_spec (zlen out) 0) as [X|_]; [unfold zlen in X; lia|].
        unfold zlen. now rewrite Nat2Z.id, firstn_all.
  - destruct (decrypt_with_ub pr K _ t (moc_path f) file _ _ _ k G Ek De) as [|(Nf & data & A & Why)]; [lia|].
    right. exists data. split; [exact A|]. destruct Fl as [[P ->]|[P ->]]; [|congruence]. split; [contradiction|].
    intros _ L. exfalso. assert (Em : moc_path f = path_of (n_dir f) PACKAGE_MOC) by (unfold moc_path; now rewrite P).
    destruct Why as [X|(mk & k' & X)]; [unfold zlen in X; lia|].
    rewrite Em, store_mask_ok in X; [discriminate|exact Fd|]. rewrite <- Em. unfold moc_path. rewrite path_moc_length. lia.
  - apply decrypt_with_blocked in De. congruence.
Qed.

(** ** Directories without package file *)

Lemma outside_package pr K fs basedir disk moc f :
  GoodPrimitives pr -> length K = 32 -> GoodLibrary pr fs -> Installed pr K fs basedir disk moc ->
  In f fs -> NoPackage fs (n_dir f) ->
  (forall p, In p fs -> IsPackage p -> Above (n_dir p) (n_dir f) -> n_data p <> []) ->
  12 <= length (path_of (n_dir f) (n_name f)) ->
  length basedir + length (path_of (n_dir f) (B "package.moc")) <= 4000 ->
  if length (n_data f) <? p_len pr
  then cr_decrypt pr K disk basedir [] (moc_path f) (moc f) = UB OobRead
  else exists t, cr_decrypt pr K disk basedir [] (moc_path f) (moc f) = Ok (t, Some (firstn (length (n_data f) - p_len pr) (n_data f))).
Proof.
  intros G LK GL Ins If Np Fi Lp Lb. pose proof (good_mask_len fs (proj1 GL)) as ML.
  assert (Ge : GoodEntry pr f) by (destruct GL as [GF _]; rewrite Forall_forall in GF; now apply GF).
  pose proof (gooddir_entry f Ge) as Gd. destruct Ge as (Fd & Nn & _ & Case & Len & Li & Lm & Ld).
  assert (P : ~ IsPackage f) by (intros P; apply (Np (n_mask f)); exists f; auto).
  destruct (demask_dirs pr K fs basedir disk moc G LK GL Ins (n_dir f) Gd) as [_ Db]; [unfold PkgFits; change PACKAGE_MOC with (B "package.moc"); lia|].
  assert (Lmoc : length (moc_path f) = length (path_of (n_dir f) (n_name f)) + 1) by apply path_moc_length.
  pose proof (path_length (n_dir f) (n_name f)) as Lpl.
  assert (Cf : caseeq (n_name f ++ B "c") PACKAGE_MOC = false).
  { rewrite caseeq_moc. destruct (caseeq (n_name f) PACKAGE_MO) eqn:Q; [exfalso; auto|reflexivity]. }
  destruct (Db (2 * length (moc_path f) + 4) [] K (n_name f ++ B "c")) as (flag & t1 & m & E & C1 & Ne & _ & _ & F1);
    [lia|exact Fi|intros a v _ X; discriminate|exact LK|apply noslash_moc; now apply name_noslash|exact Cf|rewrite path_moc_length; lia|].
  rewrite (F1 Np) in E. fold (moc_path f) in E.
  destruct (proj1 (proj2 Ins) f If) as [(key & data & FK & Pay & Se) _].
  assert (Ek : xor K m = key) by exact (filekey_unique fs K f _ _ GL (K_ordinary fs K f m P Ne) FK).
  assert (data = n_data f) as -> by (destruct Pay; [reflexivity|contradiction]).
  rewrite Ek in E. pose proof (filekey_len fs K _ key ML LK FK) as Lk.
  unfold cr_decrypt. rewrite (decrypt_sealed pr K _ [] (moc_path f) key (n_iv f) (n_data f) (moc f) 1%Z t1 G Lk Li) by (try assumption; lia).
  cbn [Z.eqb]. cbn zeta.
  destruct (Nat.ltb_spec (length (n_data f)) (p_len pr)) as [Lt|Ge32].
  - destruct (Z.ltb_spec (zlen (n_data f) - Z.of_nat (p_len pr)) 0) as [_|X]; [reflexivity|unfold zlen in X; lia].
  - destruct (Z.ltb_spec (zlen (n_data f) - Z.of_nat (p_len pr)) 0) as [X|_]; [unfold zlen in X; lia|].
    unfold store_mask. set (mk := firstn (p_len pr) _).
    assert (Zr : zlen (moc_path f) = (Z.of_nat (length (path_of (n_dir f) (n_name f))) + 1)%Z) by (unfold zlen; rewrite Lmoc; lia).
    destruct (Z.eqb_spec (zlen (moc_path f)) 11) as [|_]; [lia|].
    destruct (Z.ltb_spec (zlen (moc_path f) - 12) 0) as [|_]; [lia|].
    destruct (Z.leb_spec (Z.of_nat NAME_MAX) (zlen (moc_path f) - 12)) as [X|_].
    { exfalso. clear - X Zr Len. rewrite Zr in X. unfold NAME_MAX in X. lia. }
    match goal with |- context [find_mask t1 ?p] => destruct (find_mask t1 p) end; cbn [bind];
    (destruct (Z.ltb_spec (zlen (n_data f) - Z.of_nat (p_len pr)) 0) as [X|_]; [unfold zlen in X; lia|]);
    (replace (Z.to_nat (zlen (n_data f) - Z.of_nat (p_len pr))) with (length (n_data f) - p_len pr) by (unfold zlen; lia)); eexists; reflexivity.
Qed.

(** ** Empty package files *)

Lemma evp_decrypt_never pr key file :
  (forall o, mac_of pr key (firstn BLOCK (file ++ [NUL]) ++ o) <> skipn (length file - MAC_LEN) file) ->
  forall K dm t rel flag t1, dm t rel K = Ok (flag, t1, key) -> 15 <= length file ->
  decrypt_with pr K dm t rel file = Ok (t1, (-1)%Z, []).
Proof.
  intros No K dm t rel flag t1 E L. unfold decrypt_with. rewrite E. cbn [bind].
  destruct (Nat.ltb_spec (length file + 1) BLOCK) as [X|_]; [unfold BLOCK in X; lia|].
  destruct (to_int _ <? 0)%Z; [reflexivity|]. destruct (evp_decrypt pr key _ _) as [o|]; [|reflexivity].
  destruct (beq_spec (mac_of pr key (firstn BLOCK (file ++ [NUL]) ++ o)) (skipn (length file - MAC_LEN) file)) as [M|]; [|reflexivity].
  exfalso. exact (No o M).
Qed.

Lemma empty_package pr K fs basedir disk moc f p :
  GoodPrimitives pr -> length K = 32 -> GoodLibrary pr fs -> Installed pr K fs basedir disk moc ->
  In f fs -> ~ IsPackage f -> In p fs -> IsPackage p -> n_dir p = n_dir f -> n_data p = [] ->
  (forall q, In q fs -> IsPackage q -> Above (n_dir q) (n_dir f) -> q = p \/ n_data q <> []) ->
  (* the file does not happen to be authentic under the bare product key *)
  (forall data, ~ Authentic pr K (moc f) data) ->
  decrypt_all pr K disk basedir [] [(moc_path f, moc f); (moc_path f, moc f)] = Ok [None; Some (n_data f)].
Proof.
  intros G LK GL Ins If Pf Ip P Dp Em Fi NoA. pose proof (good_mask_len fs (proj1 GL)) as ML.
  assert (Ge : GoodEntry pr f) by (destruct GL as [GF _]; rewrite Forall_forall in GF; now apply GF).
  pose proof (gooddir_entry f Ge) as Gd. destruct Ge as (Fd & Nn & _ & Case & Len & Li & Lm & Ld).
  assert (Fit : PkgFits basedir (n_dir f)).
  { pose proof (proj1 Ins p Ip) as L. rewrite P, Dp in L.
    unfold PkgFits. change PACKAGE_MOC with (B "package.mo" ++ B "c"). rewrite path_moc_length. lia. }
  destruct (demask_dirs pr K fs basedir disk moc G LK GL Ins (n_dir f) Gd Fit) as [Da _].
  assert (Lmoc : length (moc_path f) = length (path_of (n_dir f) (n_name f)) + 1) by apply path_moc_length.
  pose proof (path_length (n_dir f) (n_name f)) as Lpl.
  assert (Cf : caseeq (n_name f ++ B "c") PACKAGE_MOC = false).
  { rewrite caseeq_moc. destruct (caseeq (n_name f) PACKAGE_MO) eqn:Q; [exfalso; auto|reflexivity]. }
  assert (H : HasMask fs (n_dir f) (n_mask p)) by (exists p; auto).
  destruct (proj1 (proj2 Ins) f If) as [Enc Dk].
  destruct Enc as (key & data & FK & Pay & Se).
  assert (Ek : xor K (n_mask p) = key) by exact (filekey_unique fs K f _ _ GL (K_ordinary fs K f _ Pf (Near_here _ _ _ H)) FK).
  assert (data = n_data f) as -> by (destruct Pay; [reflexivity|contradiction]).
  pose proof (filekey_len fs K _ key ML LK FK) as Lk.
  assert (Lm15 : 48 <= length (moc f)).
  { destruct (sealed_parts pr key _ _ _ G Lk Li Se) as (ct & -> & _ & _). rewrite !app_length, Li. unfold Mac. rewrite (proj1 (proj2 G)). lia. }
  set (fuel := 2 * length (moc_path f) + 3).
  assert (Ef : 2 * length (moc_path f) + 4 = S fuel) by (unfold fuel; lia).
  (* the package file *)
  destruct (Da fuel [] K) as (t1 & k1 & E & C1 & K1); [unfold fuel; lia| |intros a v _ X; discriminate|exact LK|].
  { intros d' c' Ed q Iq Pq A. destruct (Fi q Iq Pq) as [->|]; [rewrite Ed; now apply above_up| |assumption].
    exfalso. rewrite Dp, Ed in A. apply above_length in A. rewrite app_length in A. cbn in A. lia. }
  assert (FKp : FileKey pr fs K p k1).
  { rewrite <- Dp in K1. destruct K1 as [[Ed ->]|(d' & c' & m & Ed & Ne & ->)]; [now apply K_top|now apply (K_package fs K p d' c' m P)]. }
  destruct (proj1 (proj2 Ins) p Ip) as [Encp Dkp]. rewrite <- Dp in E.
  pose proof (decrypt_package pr K fs _ [] p (moc p) k1 1%Z t1 G LK GL Ip P Encp FKp E ltac:(discriminate)) as De.
  rewrite Dp, Em in De. cbn [app] in De. change (zlen []) with 0%Z in De.
  set (t2 := match find_mask t1 (dirstr (n_dir f)) with Some _ => t1 | None => t1 ++ [(dirstr (n_dir f), n_mask p)] end) in De.
  assert (C2 : Cache fs t2) by (apply cache_add; assumption).
  assert (F2 : find_mask t2 (dirstr (n_dir f)) = Some (n_mask p)).
  { assert (X : exists v, find_mask t2 (dirstr (n_dir f)) = Some v).
    { unfold t2. destruct (find_mask t1 (dirstr (n_dir f))) as [v|] eqn:Q; [now exists v|]. exists (n_mask p). rewrite find_app, Q. cbn [find_mask]. now rewrite beq_refl. }
    destruct X as (v & X). rewrite X. f_equal. exact (mask_unique fs _ _ _ GL (C2 _ _ Fd X) H). }
  (* first request *)
  assert (D1 : forall k, length k = 32 -> demask_key (S fuel) pr K disk basedir [] (moc_path f) k = Ok ((-1)%Z, t2, k)).
  { intros k _. unfold moc_path. rewrite demask_other by first [assumption | apply noslash_moc; now apply name_noslash | rewrite path_moc_length; lia].
    cbn [find_mask].
    assert (Fits : (NAME_MAX <? match n_dir f with [] => 12 | _ => length (dirstr (n_dir f)) + 13 end) = false).
    { destruct (n_dir f) as [|y ys] eqn:Ed; [reflexivity|]. rewrite <- Ed in *. apply Nat.ltb_ge.
      unfold PkgFits in Fit. rewrite pkg_path in Fit by (rewrite Ed; discriminate). rewrite app_length in Fit. cbn [length B String.list_ascii_of_string] in Fit.
      unfold NAME_MAX. lia. }
    rewrite Fits. rewrite snprintf_fits by (unfold PkgFits in Fit; rewrite !app_length; cbn [length]; unfold NAME_MAX; lia).
    unfold moc_path in Dkp. rewrite Dp, P in Dkp. change (B "package.mo" ++ B "c") with PACKAGE_MOC in Dkp. rewrite Dkp, De.
    reflexivity. }
  cbn [decrypt_all]. unfold cr_decrypt at 1. rewrite Ef.
  rewrite (evp_decrypt_never pr K (moc f)) with (flag := (-1)%Z) (t1 := t2); [| |now apply D1|lia].
  2:{ intros o M. apply (NoA o).
      assert (Fst : firstn BLOCK (moc f ++ [NUL]) = firstn BLOCK (moc f)).
      { rewrite firstn_app. replace (BLOCK - length (moc f)) with 0 by (unfold BLOCK; lia). cbn [firstn]. apply app_nil_r. }
      rewrite Fst in M.
      exists (firstn BLOCK (moc f)), (firstn (length (moc f) - 48) (skipn BLOCK (moc f))). split; [rewrite firstn_length; unfold BLOCK; lia|].
      change Mac with mac_of. rewrite M. rewrite <- (firstn_skipn BLOCK (moc f)) at 1. f_equal.
      rewrite <- (firstn_skipn (length (moc f) - 48) (skipn BLOCK (moc f))) at 1. f_equal. rewrite skipn_twice. f_equal. unfold BLOCK, MAC_LEN. lia. }
  cbn [bind]. cbn [Z.ltb Z.compare].
  (* second request *)
  assert (D2 : demask_key (S fuel) pr K disk basedir t2 (moc_path f) K = Ok (0%Z, t2, key)).
  { unfold moc_path. rewrite demask_other by first [assumption | apply noslash_moc; now apply name_noslash | rewrite path_moc_length; lia].
    rewrite F2, Ek. reflexivity. }
  unfold cr_decrypt. rewrite Ef.
  rewrite (decrypt_sealed pr K _ t2 (moc_path f) key (n_iv f) (n_data f) (moc f) 0%Z t2 G Lk Li) by (try assumption; lia).
  cbn [Z.eqb bind]. destruct (Z.ltb_spec (zlen (n_data f)) 0) as [X|_]; [unfold zlen in X; lia|].
  unfold zlen. now rewrite Nat2Z.id, firstn_all.
Qed.

(** ** Wrong order of encryption *)

Definition TableLen (pr : primitives) (t : table) : Prop := forall p v, find_mask t p = Some v -> length v = p_len pr.
Lemma tablelen_add {pr : primitives} local t p v : TableLen pr t -> length v = p_len pr -> TableLen pr (add_mask local t p v).
Proof. intros T L q w E. apply find_add in E. destruct E as [[-> ->]|[_ E]]; [exact L|now apply (T q)]. Qed.

(** What a call of [mask_key] does with the table, for any table. *)
Definition Masked (pr : primitives) (t : table) (d : list bytes) (c key : bytes) (r : Z * table * bytes) : Prop :=
  let '(flag, t', key') := r in
  length key' = length key /\ TableLen pr t' /\
  (caseeq c PACKAGE_MO = false -> flag = 0%Z) /\
  (caseeq c PACKAGE_MO = true -> flag <> 0%Z /\ (find_mask t (dirstr d) <> None -> (flag < 0)%Z)) /\
  ((0 <= flag)%Z -> t' <> [] /\ find_mask t' (dirstr d) <> None) /\
  (forall p, t <> [] -> find_mask t p <> None -> find_mask t' p <> None) /\ (t <> [] -> t' <> []).

Lemma mask_any {pr : primitives} rnd : length rnd = p_len pr -> forall d c fuel t key,
  GoodDir d -> NoSlash c -> length (path_of d c) <= 4096 -> length d < fuel -> TableLen pr t ->
  exists r, mask_key pr fuel t (path_of d c) key rnd = Ok r /\ Masked pr t d c key r.
Proof.
  intros Lr.
  assert (AddKeep : forall (t t1 : table) p v q, (forall r, t <> [] -> find_mask t r <> None -> find_mask t1 r <> None) ->
    t <> [] -> find_mask t q <> None -> find_mask (add_mask t t1 p v) q <> None).
  { intros t t1 p v q H Nt F. pose proof (H q Nt F) as F1. destruct (find_mask t1 q) as [w|] eqn:E; [|congruence].
    rewrite (find_add_keep t t1 p v q w Nt E). discriminate. }
  (* the table is unchanged and has the directory *)
  assert (Same : forall t d c key key', TableLen pr t -> length key' = length key -> find_mask t (dirstr d) <> None ->
    Masked pr t d c key ((if caseeq c PACKAGE_MO then (-1)%Z else 0%Z), t, key')).
  { intros t d c key key' T L F. split; [exact L|]. split; [exact T|]. destruct (caseeq c PACKAGE_MO).
    - split; [discriminate|]. split; [intros _; split; [discriminate|intros _; lia]|]. split; [lia|]. split; auto.
    - split; [reflexivity|]. split; [discriminate|]. split; [intros _; split; [intros ->; now apply F|exact F]|]. split; auto. }
  (* the directory is added *)
  assert (Added : forall t t1 d c key key' v, TableLen pr t1 -> length key' = length key -> length v = p_len pr -> find_mask t (dirstr d) = None ->
    (forall r, t <> [] -> find_mask t r <> None -> find_mask t1 r <> None) ->
    Masked pr t d c key ((if caseeq c PACKAGE_MO then 1%Z else 0%Z), add_mask t t1 (dirstr d) v, key')).
  { intros t t1 d c key key' v T L Lv F Keep. split; [exact L|]. split; [now apply tablelen_add|].
    split; [now intros ->|]. split; [intros ->; split; [discriminate|congruence]|]. split; [intros _; split; [apply add_nonempty|rewrite find_add_here; discriminate]|].
    split; [intros p; now apply AddKeep|intros _; apply add_nonempty]. }
  induction d as [|c0 d IH] using rev_ind; intros c fuel t key Gd Nc Len Fu T.
  - destruct fuel as [|f]; [cbn in Fu; lia|]. rewrite mask_key_S, split_dir by (auto; apply Gd).
    cbn iota beta. change (at_root (dirstr [])) with true. cbn iota.
    destruct (find_mask t (dirstr [])) as [m|] eqn:Fi.
    + destruct (caseeq c PACKAGE_MO) eqn:Cc; eexists; (split; [reflexivity|]).
      * pose proof (Same t [] c key key T eq_refl ltac:(congruence)) as M. rewrite Cc in M. exact M.
      * assert (Lx : length (xor key m) = length key) by apply xor_length.
        pose proof (Same t [] c key (xor key m) T Lx ltac:(congruence)) as M. rewrite Cc in M. exact M.
    + cbn [bind Z.eqb]. destruct (caseeq c PACKAGE_MO) eqn:Cc; eexists; (split; [reflexivity|]).
      * pose proof (Added t t [] c key key rnd T eq_refl Lr Fi ltac:(auto)) as M. rewrite Cc in M. exact M.
      * assert (Lx : length (xor key (zeros pr)) = length key) by apply xor_length.
        pose proof (Added t t [] c key (xor key (zeros pr)) (zeros pr) T Lx (repeat_length _ _) Fi ltac:(auto)) as M. rewrite Cc in M. exact M.
  - destruct fuel as [|f]; [lia|]. destruct (gooddir_snoc d c0 Gd) as (Gd' & N0 & C0 & _).
    assert (Lp : length (path_of d c0) <= 4096) by (rewrite path_of_snoc, app_length in Len; lia).
    assert (Lf : length d < f) by (rewrite app_length in Fu; cbn in Fu; lia).
    rewrite mask_key_S, split_dir by (auto; apply Gd).
    cbn iota beta. rewrite dirstr_root by apply Gd. replace (match d ++ [c0] with [] => true | _ => false end) with false by (destruct d; reflexivity).
    destruct (find_mask t (dirstr (d ++ [c0]))) as [m|] eqn:Fi.
    + destruct (caseeq c PACKAGE_MO) eqn:Cc; eexists; (split; [reflexivity|]).
      * pose proof (Same t (d ++ [c0]) c key key T eq_refl ltac:(congruence)) as M. rewrite Cc in M. exact M.
      * assert (Lx : length (xor key m) = length key) by apply xor_length.
        pose proof (Same t (d ++ [c0]) c key (xor key m) T Lx ltac:(congruence)) as M. rewrite Cc in M. exact M.
    + assert (Ed : dirstr (d ++ [c0]) = path_of d c0) by apply dirstr_snoc.
      destruct (caseeq c PACKAGE_MO) eqn:Cc.
      * destruct (IH c0 f t key Gd' (name_noslash _ N0) Lp Lf T) as ([[flag t1] k1] & E & Lk1 & T1 & F0 & _ & _ & Keep & _).
        rewrite <- Ed in E. rewrite E, (F0 C0). cbn [bind Z.eqb]. eexists; (split; [reflexivity|]).
        pose proof (Added t t1 (d ++ [c0]) c key k1 rnd T1 Lk1 Lr Fi Keep) as M. rewrite Cc in M. exact M.
      * destruct (IH c0 f t (zeros pr) Gd' (name_noslash _ N0) Lp Lf T) as ([[flag t1] k1] & E & Lk1 & T1 & F0 & _ & _ & Keep & _).
        rewrite <- Ed in E. rewrite E, (F0 C0). cbn [bind Z.eqb]. eexists; (split; [reflexivity|]).
        assert (Lx : length (xor key k1) = length key) by apply xor_length. unfold zeros in Lk1. rewrite repeat_length in Lk1.
        pose proof (Added t t1 (d ++ [c0]) c key (xor key k1) k1 T1 Lx Lk1 Fi Keep) as M. rewrite Cc in M. exact M.
Qed.

Lemma encrypt_any pr K t f : GoodPrimitives pr -> length K = 32 -> GoodEntry pr f -> TableLen pr t ->
  exists t' o, cr_encrypt pr K t (f_rel (source_of f)) (f_iv (source_of f)) (f_mask (source_of f)) (f_data (source_of f)) = Ok (t', o) /\
    TableLen pr t' /\
    (forall out, o = Some out -> exists key data, length key = 32 /\ Payload f data /\ Sealed pr key (n_iv f) data out) /\
    (IsPackage f -> find_mask t (dirstr (n_dir f)) <> None -> o = None) /\
    (o <> None -> t' <> [] /\ find_mask t' (dirstr (n_dir f)) <> None) /\
    (forall p, t <> [] -> find_mask t p <> None -> find_mask t' p <> None) /\ (t <> [] -> t' <> []).
Proof.
  intros G LK Ge T. pose proof (gooddir_entry f Ge) as Gd. destruct Ge as (Fd & Nn & _ & Case & Len & Li & Lm & Ld).
  pose proof (path_length (n_dir f) (n_name f)) as Lp.
  destruct (mask_any (n_mask f) Lm (n_dir f) (n_name f) (S (length (path_of (n_dir f) (n_name f)))) t K Gd (name_noslash _ Nn) ltac:(lia) ltac:(lia) T)
    as ([[flag t1] k1] & E & Lk1 & T1 & F0 & Fp & Fd1 & Keep & Kn).
  rewrite LK in Lk1. unfold cr_encrypt. cbn [source_of f_rel f_iv f_mask f_data]. rewrite E. cbn [bind].
  destruct (Z.ltb_spec flag 0) as [Neg|Pos].
  - exists t1, None. split; [reflexivity|]. split; [exact T1|]. split; [discriminate|]. split; [reflexivity|]. split; [congruence|]. split; assumption.
  - destruct (encrypt_with_sealed pr k1 (n_iv f) (n_data f) (if (flag =? 0)%Z then None else Some (n_mask f)) G Lk1 Li) as (out & Eo & So).
    { destruct (flag =? 0)%Z; [discriminate|]. intros m Q. injection Q as <-. exact Lm. }
    rewrite Eo. exists t1, (Some out). split; [reflexivity|]. split; [exact T1|].
    split.
    { intros out' Q. injection Q as <-. exists k1.
      assert (Dp : IsPackage f \/ ~ IsPackage f) by (unfold IsPackage; destruct (beq_spec (n_name f) (B "package.mo")); tauto).
      destruct Dp as [P|P].
      - destruct (Z.eqb_spec flag 0) as [Z0|_]; [exfalso; exact (proj1 (Fp (package_caseeq f P)) Z0)|].
        exists (n_data f ++ n_mask f). split; [exact Lk1|]. split; [now apply P_package|exact So].
      - rewrite F0 in So by (destruct (caseeq (n_name f) PACKAGE_MO) eqn:Q; [exfalso; auto|reflexivity]). cbn [Z.eqb] in So.
        rewrite app_nil_r in So. exists (n_data f). split; [exact Lk1|]. split; [now apply P_ordinary|exact So]. }
    split; [|split; [intros _; now apply Fd1|split; assumption]].
    intros P X. exfalso. pose proof (proj2 (Fp (package_caseeq f P)) X). lia.
Qed.

Lemma encrypt_dir_done pr K d : GoodPrimitives pr -> length K = 32 -> forall mid p post t,
  Forall (GoodEntry pr) (mid ++ p :: post) -> IsPackage p -> n_dir p = d -> TableLen pr t -> t <> [] -> find_mask t (dirstr d) <> None ->
  encrypt_all pr K t (map source_of (mid ++ p :: post)) = Ok None.
Proof.
  intros G LK. induction mid as [|g mid IH]; intros p post t GF P Ed T Nt F; cbn [app map encrypt_all] in *; apply Forall_cons_iff in GF; destruct GF as [Ge GF].
  - destruct (encrypt_any pr K t p G LK Ge T) as (t' & o & E & _ & _ & Fail & _). rewrite E. cbn [bind].
    rewrite (Fail P ltac:(now rewrite Ed)). reflexivity.
  - destruct (encrypt_any pr K t g G LK Ge T) as (t' & o & E & T' & _ & _ & _ & Keep & Kn). rewrite E. cbn [bind].
    destruct o as [out|]; [|reflexivity].
    rewrite (IH p post t' GF P Ed T' (Kn Nt) (Keep _ Nt F)). reflexivity.
Qed.
Lemma late_package pr K : GoodPrimitives pr -> length K = 32 -> forall pre f mid p post t,
  Forall (GoodEntry pr) (pre ++ f :: mid ++ p :: post) -> IsPackage p -> n_dir f = n_dir p -> TableLen pr t ->
  encrypt_all pr K t (map source_of (pre ++ f :: mid ++ p :: post)) = Ok None.
Proof.
  intros G LK. induction pre as [|g pre IH]; intros f mid p post t GF P Ed T; cbn [app map encrypt_all] in *; apply Forall_cons_iff in GF; destruct GF as [Ge GF].
  - destruct (encrypt_any pr K t f G LK Ge T) as (t' & o & E & T' & _ & _ & Has & _). rewrite E. cbn [bind].
    destruct o as [out|]; [|reflexivity]. destruct (Has ltac:(discriminate)) as [Nt F]. rewrite Ed in F.
    rewrite (encrypt_dir_done pr K (n_dir p) G LK mid p post t' GF P eq_refl T' Nt F). reflexivity.
  - destruct (encrypt_any pr K t g G LK Ge T) as (t' & o & E & T' & _). rewrite E. cbn [bind].
    destruct o as [out|]; [|reflexivity]. rewrite (IH f mid p post t' GF P Ed T'). reflexivity.
Qed.

Lemma encrypt_all_sealed pr K : GoodPrimitives pr -> length K = 32 -> forall fs t, Forall (GoodEntry pr) fs -> TableLen pr t ->
  exists r, encrypt_all pr K t (map source_of fs) = Ok r /\
  forall outs, r = Some outs ->
    Forall2 (fun f out => exists key data, length key = 32 /\ Payload f data /\ Sealed pr key (n_iv f) data out) fs outs.
Proof.
  intros G LK. induction fs as [|f fs IH]; intros t GF T; cbn [map encrypt_all].
  - exists (Some []). split; [reflexivity|]. intros outs E. injection E as <-. constructor.
  - apply Forall_cons_iff in GF. destruct GF as [Ge GF].
    destruct (encrypt_any pr K t f G LK Ge T) as (t' & o & E & T' & Se & _). rewrite E. cbn [bind].
    destruct o as [out|]; [|exists None; split; [reflexivity|discriminate]].
    destruct (IH t' GF T') as (r & Er & Fr). rewrite Er. cbn [bind].
    destruct r as [outs|]; eexists; (split; [reflexivity|]); [|discriminate].
    intros outs' Q. injection Q as <-. constructor; [now apply Se|now apply Fr].
Qed.

(** ** Short files and long paths *)

Lemma short_file pr K fs basedir disk moc reqs f file :
  GoodPrimitives pr -> length K = 32 -> GoodLibrary pr fs -> Installed pr K fs basedir disk moc ->
  (forall g, In g reqs -> In g fs /\ Readable fs g) -> In f fs -> Readable fs f -> length file < 15 ->
  decrypt_all pr K disk basedir [] (map (fun g => (moc_path g, moc g)) reqs ++ [(moc_path f, file)]) = UB OobRead.
Proof.
  intros G LK GL Ins R If Rd Lf.
  destruct (decrypt_prefix pr K fs basedir disk moc G LK GL Ins reqs [] [(moc_path f, file)] R) as (t & C & E); [intros a m _ X; discriminate|].
  destruct (key_of_entry pr K fs basedir disk moc f t G LK GL Ins If Rd C) as (flag & t' & key & Ek & _).
  rewrite E. cbn [decrypt_all]. unfold cr_decrypt, decrypt_with. rewrite Ek. cbn [bind].
  destruct (Nat.ltb_spec (length file + 1) BLOCK) as [_|X]; [reflexivity|unfold BLOCK in X; lia].
Qed.

Lemma long_path pr K disk basedir d n file : Name d -> Name n -> caseeq n (B "package.moc") = false ->
  4084 <= length d -> length d + length n <= 4095 ->
  cr_decrypt pr K disk basedir [] (path_of [d] n) file = UB OobWrite.
Proof.
  intros Nd Nn Cn L1 L2. unfold cr_decrypt, decrypt_with.
  replace (2 * length (path_of [d] n) + 4) with (S (2 * length (path_of [d] n) + 3)) by lia.
  rewrite demask_other; [|repeat constructor; apply Nd|now apply name_noslash|exact Cn|].
  2:{ cbn [path_of]. rewrite !app_length. cbn [length]. lia. }
  cbn [find_mask]. replace (dirstr [d]) with d by reflexivity.
  assert (X : (NAME_MAX <? length d + 13) = true) by (apply Nat.ltb_lt; unfold NAME_MAX; lia).
  cbn [path_of] in *. rewrite X. reflexivity.
Qed.
