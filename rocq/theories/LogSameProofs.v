(** Proofs about the debug output: in an encrypted library it depends on names only. *)
From Verif Require Import Base BaseProofs WireModel CryptModel CryptSpec CbcProofs MaskProofs DemaskProofs LogModel LogSpec LogProofs.

Definition asked (p : bytes) : list bytes := say Release (B "mlle_demask_key: " ++ p).
Definition applied (p : bytes) : list bytes := say Release (B "mlle_demask_key: applied mask for " ++ p).
Definition stored (p : bytes) : list bytes := say Release (B "mlle_store_keymask: stored key_mask for " ++ p ++ B " ").
Definition mem (d : list bytes) (C : list (list bytes)) : bool := if in_dec (list_eq_dec (list_eq_dec ascii_dec)) d C then true else false.
Definition add (d : list bytes) (C : list (list bytes)) : list (list bytes) := if mem d C then C else C ++ [d].

(** The lines, from the directories with package files and those whose masks are known. *)
Definition look (hp : list bytes -> bool) (pk : list bytes * list (list bytes)) (d : list bytes) (C : list (list bytes)) (p : bytes) : list bytes * list (list bytes) :=
  if mem d C then (asked p ++ applied p, C)
  else if hp d then (asked p ++ (fst pk ++ if mem d (snd pk) then [] else stored (path_of d PACKAGE_MOC)) ++ applied p, add d (snd pk))
  else (asked p ++ fst pk, snd pk).
Fixpoint pack (hp : list bytes -> bool) (rd : list bytes) (C : list (list bytes)) : list bytes * list (list bytes) :=
  match rd with
  | [] => (asked PACKAGE_MOC, C)
  | c :: rd' =>
      let d := rev rd' in
      let r := look hp (pack hp rd' C) d C (path_of d c) in
      (asked (path_of (d ++ [c]) PACKAGE_MOC) ++ fst r, snd r)
  end.

(** The directories of a table. *)
Definition Dom (t : table) (C : list (list bytes)) : Prop := forall d, Forall Name d -> (find_mask t (dirstr d) = None <-> ~ In d C).
Lemma dom_mem t C d : Forall Name d -> Dom t C -> (if mem d C then exists m, find_mask t (dirstr d) = Some m else find_mask t (dirstr d) = None).
Proof.
  intros F H. unfold mem. specialize (H d F). destruct (in_dec _ d C) as [I|N]; [|now apply H]. destruct (find_mask t (dirstr d)) as [m|]; [now exists m|]. exfalso. now apply (proj1 H eq_refl).
Qed.
Lemma dom_add t C d m : Forall Name d -> Dom t C -> Dom (match find_mask t (dirstr d) with Some _ => t | None => t ++ [(dirstr d, m)] end) (add d C).
Proof.
  intros F H. unfold add. pose proof (dom_mem t C d F H) as M. destruct (mem d C); [destruct M as (v & ->); exact H|]. rewrite M. intros a Fa. rewrite find_app. specialize (H a Fa).
  destruct (find_mask t (dirstr a)) as [v|].
  - split; [discriminate|]. intros X. exfalso. apply X. apply in_app_iff. left. destruct (in_dec (list_eq_dec (list_eq_dec ascii_dec)) a C) as [I|I]; [exact I|]. now apply H in I.
  - cbn [find_mask]. destruct (beq_spec (dirstr d) (dirstr a)) as [E|E].
    + apply dirstr_inj in E; [|assumption..]. subst a. split; [discriminate|]. intros X. exfalso. apply X. apply in_app_iff. right. now left.
    + split; [|auto]. intros _ I. apply in_app_iff in I. destruct I as [I|[->|[]]]; [now apply H|congruence].
Qed.

(** The functions, by directory. *)
Lemma demask_log_package g f pr K disk basedir t d key : Forall Name d -> length (path_of d PACKAGE_MOC) <= 4096 ->
  demask_log g (S f) pr K disk basedir t (path_of d PACKAGE_MOC) key =
  tell (say g (B "mlle_demask_key: " ++ path_of d PACKAGE_MOC) ++ log_key g pr key)
  match d with
  | [] => ([], Ok (1%Z, t, key))
  | _ => lbind (demask_log g f pr K disk basedir t (dirstr d) key) (fun '(ret, t1, key1) => ([], Ok ((if (ret <? 0)%Z then (-1)%Z else 1%Z), t1, key1)))
  end.
Proof.
  intros F L. rewrite demask_log_S. cbn zeta. destruct d as [|c d _] using rev_ind.
  - cbn [path_of]. rewrite (split_top _ noslash_package). reflexivity.
  - apply Forall_app in F. destruct F as [F Fc]. apply Forall_cons_iff in Fc. destruct Fc as [Nc _].
    rewrite split_deep by (auto using noslash_package). rewrite caseeq_refl, dirstr_snoc.
    destruct (d ++ [c]) eqn:E; [destruct d; discriminate|]. reflexivity.
Qed.
Lemma demask_log_other g f pr K disk basedir t d c key : Forall Name d -> NoSlash c -> caseeq c PACKAGE_MOC = false ->
  length (path_of d c) <= 4096 ->
  demask_log g (S f) pr K disk basedir t (path_of d c) key =
  tell (say g (B "mlle_demask_key: " ++ path_of d c) ++ log_key g pr key)
  match find_mask t (dirstr d) with
  | Some m => (say g (B "mlle_demask_key: applied mask for " ++ path_of d c) ++ log_key g pr (xor key m), Ok (0%Z, t, xor key m))
  | None =>
      if NAME_MAX <? match d with [] => 12 | _ => length (dirstr d) + 13 end then ([], UB OobWrite)
      else
        match disk (snprintf NAME_MAX (basedir ++ [SLASH] ++ path_of d PACKAGE_MOC)) with
        | None => demask_log g f pr K disk basedir t (path_of d PACKAGE_MOC) key
        | Some content =>
            lbind (decrypt_log g pr K (demask_log g f pr K disk basedir) t (path_of d PACKAGE_MOC) content) (fun '(t1, res, out) =>
            if (0 <? res)%Z
            then let k := xor key (firstn (p_len pr) (skipn (Z.to_nat res) out)) in (say g (B "mlle_demask_key: applied mask for " ++ path_of d c) ++ log_key g pr k, Ok (0%Z, t1, k))
            else ([], Ok ((-1)%Z, t1, key)))
        end
  end.
Proof.
  intros F N C L. rewrite demask_log_S. cbn zeta. destruct d as [|x d _] using rev_ind.
  - cbn [path_of] in *. rewrite (split_top _ N), C. reflexivity.
  - pose proof (pkg_path (d ++ [x]) ltac:(destruct d; discriminate)) as Ep.
    apply Forall_app in F. destruct F as [F Fc]. apply Forall_cons_iff in Fc. destruct Fc as [Nc _].
    rewrite split_deep by auto. rewrite C, Ep, dirstr_snoc.
    destruct (d ++ [x]) eqn:E; [destruct d; discriminate|]. reflexivity.
Qed.

(** A package file is decrypted: the lines. *)
Lemma decrypt_log_stored pr K dm t rel file l flag t1 key t2 n out : dm t rel K = (l, Ok (flag, t1, key)) -> flag <> 0%Z -> (0 <= n)%Z ->
  snd (decrypt_log Release pr K dm t rel file) = Ok (t2, n, out) ->
  fst (decrypt_log Release pr K dm t rel file) = l ++ fst (store_log Release pr t1 rel (firstn (p_len pr) (skipn (Z.to_nat n) out))).
Proof.
  intros E Fl Hn. unfold decrypt_log. rewrite E. unfold lbind at 1 3. cbn [fst snd].
  destruct (_ <? BLOCK); [discriminate|]. cbv zeta. destruct (_ <? 0)%Z; [intros X; cbn [snd] in X; injection X; lia|].
  destruct (evp_decrypt _ _ _ _) as [o|]; [|intros X; cbn [snd] in X; injection X; lia]. destruct (beq _ _); [|intros X; cbn [snd] in X; injection X; lia].
  destruct (Z.eqb_spec flag 0) as [|_]; [contradiction|]. destruct (_ <? 0)%Z; [discriminate|]. rewrite lbind_snd. unfold lbind.
  destruct (snd (store_log _ _ _ _ _)) as [t3| |] eqn:Es; cbn [bind snd]; [|discriminate..]. intros X. injection X as _ <- <-. cbn [fst]. now rewrite app_nil_r.
Qed.
Lemma decrypt_log_plain pr K dm t rel file l t1 key : dm t rel K = (l, Ok (0%Z, t1, key)) -> fst (decrypt_log Release pr K dm t rel file) = l.
Proof.
  intros E. unfold decrypt_log. rewrite E. unfold lbind. cbn [fst snd].
  destruct (_ <? BLOCK); [apply app_nil_r|]. cbv zeta. destruct (_ <? 0)%Z; [apply app_nil_r|]. destruct (evp_decrypt _ _ _ _); [|apply app_nil_r]. destruct (beq _ _); apply app_nil_r.
Qed.
Lemma store_log_lines pr t d m : Forall Name d -> length (path_of d PACKAGE_MOC) <= 4096 ->
  fst (store_log Release pr t (path_of d PACKAGE_MOC) m) = match find_mask t (dirstr d) with Some _ => [] | None => stored (path_of d PACKAGE_MOC) end.
Proof.
  intros F L. unfold store_log. cbn [fst]. rewrite (store_mask_ok t d m F L). destruct (find_mask t (dirstr d)); [now rewrite Nat.eqb_refl|].
  rewrite app_length. cbn [length]. destruct (Nat.eqb_spec (length t) (length t + 1)) as [X|_]; [lia|]. apply app_nil_r.
Qed.
(** The package file of a directory in an installed library. *)
Lemma package_log pr K fs basedir disk moc p t C f :
  GoodPrimitives pr -> length K = 32 -> GoodLibrary pr fs -> Installed pr K fs basedir disk moc -> In p fs -> IsPackage p ->
  forall l t1 key, demask_log Release f pr K disk basedir t (path_of (n_dir p) PACKAGE_MOC) K = (l, Ok (1%Z, t1, key)) -> FileKey pr fs K p key -> Dom t1 C ->
  exists t2, decrypt_log Release pr K (demask_log Release f pr K disk basedir) t (path_of (n_dir p) PACKAGE_MOC) (moc p) =
    (l ++ (if mem (n_dir p) C then [] else stored (path_of (n_dir p) PACKAGE_MOC)), Ok (t2, zlen (n_data p), n_data p ++ n_mask p)) /\ Dom t2 (add (n_dir p) C).
Proof.
  intros G LK GL Ins Ip P l t1 key E FK Dm. pose proof (proj1 (proj1 (proj2 Ins) p Ip)) as Enc.
  assert (Ge : GoodEntry pr p) by (destruct GL as [GF _]; rewrite Forall_forall in GF; now apply GF). destruct Ge as (Fd & _ & _ & _ & Len & _).
  assert (Ls : length (path_of (n_dir p) PACKAGE_MOC) <= 4096).
  { rewrite P in Len. change PACKAGE_MOC with (B "package.mo" ++ B "c"). rewrite path_moc_length. lia. }
  pose proof (f_equal snd E) as E2. rewrite demask_erase in E2. cbn [snd] in E2.
  pose proof (decrypt_package pr K fs _ t p (moc p) key 1%Z t1 G LK GL Ip P Enc FK E2 ltac:(discriminate)) as De.
  rewrite <- (decrypt_erase Release pr K (demask_log Release f pr K disk basedir)) in De by (intros; apply demask_erase).
  eexists. split; [|apply (dom_add t1 C (n_dir p) (n_mask p) Fd Dm)].
  rewrite (surjective_pairing (decrypt_log _ _ _ _ _ _ _)). f_equal; [|exact De].
  rewrite (decrypt_log_stored pr K _ t _ (moc p) l 1%Z t1 key _ (zlen (n_data p)) (n_data p ++ n_mask p) E ltac:(discriminate) ltac:(unfold zlen; lia) De), store_log_lines by assumption.
  f_equal. pose proof (dom_mem t1 C (n_dir p) Fd Dm) as M. destruct (mem (n_dir p) C); [destruct M as (v & ->); reflexivity|now rewrite M].
Qed.

(** Looking for keys. *)
Lemma log_dirs pr K fs basedir disk moc hp :
  GoodPrimitives pr -> length K = 32 -> GoodLibrary pr fs -> Installed pr K fs basedir disk moc ->
  (forall d, hp d = true <-> exists p, In p fs /\ IsPackage p /\ n_dir p = d) ->
  forall d, GoodDir d -> PkgFits basedir d ->
  (forall fuel t key C, 2 * length d < fuel -> (forall d' c, d = d' ++ [c] -> Filled fs d') -> Cache fs t -> Dom t C -> length key = 32 ->
     exists t' key', demask_log Release fuel pr K disk basedir t (path_of d PACKAGE_MOC) key = (fst (pack hp (rev d) C), Ok (1%Z, t', key')) /\ Dom t' (snd (pack hp (rev d) C))) /\
  (forall fuel t key C c, 2 * length d + 1 < fuel -> Filled fs d -> Cache fs t -> Dom t C -> length key = 32 -> NoSlash c -> caseeq c PACKAGE_MOC = false -> length (path_of d c) <= 4096 ->
     exists flag t' key', demask_log Release fuel pr K disk basedir t (path_of d c) key = (fst (look hp (pack hp (rev d) C) d C (path_of d c)), Ok (flag, t', key')) /\
       (0 <= flag)%Z /\ Dom t' (snd (look hp (pack hp (rev d) C) d C (path_of d c)))).
Proof.
  intros G LK GL Ins Hp. pose proof (good_mask_len fs (proj1 GL)) as ML.
  induction d as [|c0 d IH] using rev_ind; intros Gd Fit.
  all: match goal with |- ?A /\ _ => assert (PA : A) end.
  - intros fuel t key C Fu _ Ca Dm Lk. destruct fuel as [|f]; [lia|]. rewrite (demask_log_package Release f pr K disk basedir t []) by (auto; cbn; lia).
    exists t, key. split; [reflexivity|exact Dm].
  - split; [exact PA|]. intros fuel t key C c Fu Fl Ca Dm Lk Nc Cc Lc. destruct fuel as [|f]; [lia|].
    destruct (demask_dirs pr K fs basedir disk moc G LK GL Ins [] Gd Fit) as [DA _].
    rewrite demask_log_other by (auto; apply Gd). unfold look. pose proof (dom_mem t C [] (Forall_nil _) Dm) as M.
    destruct (mem [] C).
    { destruct M as (m & ->). exists 0%Z, t, (xor key m). split; [|split; [lia|exact Dm]]. unfold tell. cbn [fst snd log_key]. now rewrite !app_nil_r. }
    rewrite M. change (NAME_MAX <? 12) with false. cbn iota. pose proof Ins as (_ & Here & Gone).
    rewrite snprintf_fits by (unfold PkgFits in Fit; rewrite !app_length; cbn [length]; unfold NAME_MAX; lia).
    destruct (hp []) eqn:Eh.
    + apply Hp in Eh. destruct Eh as (p & Ip & P & Ep). destruct (Here p Ip) as [_ Dk]. unfold moc_path in Dk. rewrite Ep, P in Dk. change (B "package.mo" ++ B "c") with PACKAGE_MOC in Dk. rewrite Dk.
      assert (Fu' : 2 * length (@nil bytes) < f) by (cbn in *; lia). assert (Fl' : forall d' c', @nil bytes = d' ++ [c'] -> Filled fs d') by (intros d' c' E'; destruct d'; discriminate).
      destruct (PA f t K C Fu' Fl' Ca Dm LK) as (t1 & k1 & E1 & D1).
      destruct (DA f t K Fu' Fl' Ca LK) as (t2 & k2 & E2 & C2 & K2). pose proof (f_equal snd E1) as E3. rewrite demask_erase, E2 in E3. cbn [snd] in E3. injection E3 as -> ->.
      assert (k1 = K) as -> by (destruct K2 as [[_ ->]|(d' & c' & _ & E' & _)]; [reflexivity|destruct d'; discriminate]).
      pose proof (package_log pr K fs basedir disk moc p t (snd (pack hp (rev []) C)) f G LK GL Ins Ip P) as PL. rewrite Ep in PL. destruct (PL _ _ _ E1 (K_top fs K p P Ep) D1) as (t3 & E4 & D3). rewrite E4.
      unfold lbind. cbn [fst snd]. assert (Nd : n_data p <> []) by (apply (Fl p Ip P); rewrite Ep; apply above_refl).
      destruct (Z.ltb_spec 0 (zlen (n_data p))) as [_|X]; [|unfold zlen in X; destruct (n_data p); [congruence|cbn [length] in X; lia]].
      cbv zeta. exists 0%Z, t3. eexists. split; [|split; [lia|exact D3]]. unfold tell. cbn [fst snd log_key]. rewrite !app_nil_r. rewrite <- !app_assoc. reflexivity.
    + assert (Np : NoPackage fs []). { destruct (haspackage_dec fs []) as [X|X]; [apply Hp in X; congruence|exact X]. }
      change (path_of [] PACKAGE_MOC) with (path_of [] (B "package.moc")). rewrite (Gone [] (Forall_nil _) Np). change (path_of [] (B "package.moc")) with (path_of [] PACKAGE_MOC).
      destruct (PA f t key C) as (t1 & k1 & E1 & D1); [cbn in *; lia|intros d' c' E'; destruct d'; discriminate|exact Ca|exact Dm|exact Lk|]. rewrite E1.
      exists 1%Z, t1, k1. split; [|split; [lia|exact D1]]. unfold tell. cbn [fst snd log_key]. now rewrite !app_nil_r.
  - intros fuel t key C Fu Fl Ca Dm Lk. destruct (gooddir_snoc d c0 Gd) as (Gd' & N0 & C0 & M0). destruct (IH Gd' (pkgfits_up _ _ _ Fit)) as [_ IHo].
    assert (Ld : length (d ++ [c0]) = S (length d)) by (rewrite app_length; cbn; lia).
    assert (Lf : length (path_of (d ++ [c0]) PACKAGE_MOC) <= 4096) by (unfold PkgFits in Fit; lia).
    assert (Lp : length (path_of d c0) <= 4096) by (rewrite path_of_snoc, app_length in Lf; lia).
    destruct fuel as [|f]; [lia|]. rewrite demask_log_package by (auto; apply Gd).
    rewrite rev_app_distr. cbn [rev app pack]. rewrite rev_involutive.
    destruct (d ++ [c0]) as [|y ys] eqn:E; [destruct d; discriminate|]. rewrite <- E in *. rewrite dirstr_snoc.
    destruct (IHo f t key C c0) as (flag & t' & k' & Eq & F0 & D'); auto using name_noslash; [lia|now apply (Fl d c0)|].
    rewrite Eq. unfold lbind. cbn [fst snd]. destruct (Z.ltb_spec flag 0) as [|_]; [lia|]. exists t', k'. split; [|exact D']. unfold tell. cbn [fst snd log_key]. now rewrite !app_nil_r.
  - split; [exact PA|]. intros fuel t key C c Fu Fl Ca Dm Lk Nc Cc Lc. destruct fuel as [|f]; [lia|].
    assert (Ld : length (d ++ [c0]) = S (length d)) by (rewrite app_length; cbn; lia).
    destruct (demask_dirs pr K fs basedir disk moc G LK GL Ins (d ++ [c0]) Gd Fit) as [DA _].
    assert (Fl' : forall d' c', d ++ [c0] = d' ++ [c'] -> Filled fs d'). { intros d' c' E p Ip P A. apply (Fl p Ip P). rewrite E. now apply above_up. }
    rewrite demask_log_other by (auto; apply Gd). unfold look. pose proof (dom_mem t C (d ++ [c0]) (proj1 Gd) Dm) as M.
    destruct (mem (d ++ [c0]) C).
    { destruct M as (m & ->). exists 0%Z, t, (xor key m). split; [|split; [lia|exact Dm]]. unfold tell. cbn [fst snd log_key]. now rewrite !app_nil_r. }
    rewrite M.
    assert (Fits : (NAME_MAX <? match d ++ [c0] with [] => 12 | _ => length (dirstr (d ++ [c0])) + 13 end) = false).
    { destruct (d ++ [c0]) as [|y ys] eqn:E; [destruct d; discriminate|]. rewrite <- E in *. apply Nat.ltb_ge.
      unfold PkgFits in Fit. rewrite pkg_path in Fit by (destruct d; discriminate). rewrite app_length in Fit. cbn [length B String.list_ascii_of_string] in Fit.
      unfold NAME_MAX. lia. }
    rewrite Fits. pose proof Ins as (_ & Here & Gone).
    rewrite snprintf_fits by (unfold PkgFits in Fit; rewrite !app_length; cbn [length]; unfold NAME_MAX; lia).
    destruct (hp (d ++ [c0])) eqn:Eh.
    + apply Hp in Eh. destruct Eh as (p & Ip & P & Ep). destruct (Here p Ip) as [_ Dk]. unfold moc_path in Dk. rewrite Ep, P in Dk. change (B "package.mo" ++ B "c") with PACKAGE_MOC in Dk. rewrite Dk.
      assert (Fu' : 2 * length (d ++ [c0]) < f) by lia.
      destruct (PA f t K C Fu' Fl' Ca Dm LK) as (t1 & k1 & E1 & D1).
      destruct (DA f t K Fu' Fl' Ca LK) as (t2 & k2 & E2 & C2 & K2). pose proof (f_equal snd E1) as E3. rewrite demask_erase, E2 in E3. cbn [snd] in E3. injection E3 as -> ->.
      assert (FK : FileKey pr fs K p k1).
      { destruct K2 as [[E' _]|(d' & c' & m & E' & Ne & ->)]; [destruct d; discriminate|]. apply (K_package fs K p d' c' m P); congruence. }
      pose proof (package_log pr K fs basedir disk moc p t (snd (pack hp (rev (d ++ [c0])) C)) f G LK GL Ins Ip P) as PL. rewrite Ep in PL. destruct (PL _ _ _ E1 FK D1) as (t3 & E4 & D3). rewrite E4.
      unfold lbind. cbn [fst snd]. assert (Nd : n_data p <> []) by (apply (Fl p Ip P); rewrite Ep; apply above_refl).
      destruct (Z.ltb_spec 0 (zlen (n_data p))) as [_|X]; [|unfold zlen in X; destruct (n_data p); [congruence|cbn [length] in X; lia]].
      cbv zeta. exists 0%Z, t3. eexists. split; [|split; [lia|exact D3]]. unfold tell. cbn [fst snd log_key]. rewrite !app_nil_r. rewrite <- !app_assoc. reflexivity.
    + assert (Np : NoPackage fs (d ++ [c0])). { destruct (haspackage_dec fs (d ++ [c0])) as [X|X]; [apply Hp in X; congruence|exact X]. }
      change PACKAGE_MOC with (B "package.moc") at 1. rewrite (Gone _ (proj1 Gd) Np). 
      destruct (PA f t key C) as (t1 & k1 & E1 & D1); [lia|exact Fl'|exact Ca|exact Dm|exact Lk|]. rewrite E1.
      exists 1%Z, t1, k1. split; [|split; [lia|exact D1]]. unfold tell. cbn [fst snd log_key]. now rewrite !app_nil_r.
Qed.

(** ** Sessions *)

Definition names (fs : list entry) : list (list bytes * bytes) := map (fun f => (n_dir f, n_name f)) fs.
Definition has_package (ns : list (list bytes * bytes)) (d : list bytes) : bool :=
  if in_dec (fun a b : list bytes * bytes => ltac:(decide equality; [apply (list_eq_dec ascii_dec)|apply (list_eq_dec (list_eq_dec ascii_dec))])) (d, B "package.mo") ns then true else false.
Lemma has_package_spec fs d : has_package (names fs) d = true <-> exists p, In p fs /\ IsPackage p /\ n_dir p = d.
Proof.
  unfold has_package. destruct (in_dec _ _ _) as [I|N].
  - split; [intros _|reflexivity]. unfold names in I. apply in_map_iff in I. destruct I as (p & E & I). injection E as E1 E2. exists p. auto.
  - split; [discriminate|]. intros (p & I & P & E). exfalso. apply N. unfold names. apply in_map_iff. exists p. split; [now rewrite E, P|exact I].
Qed.
Definition request_lines (hp : list bytes -> bool) (C : list (list bytes)) (r : list bytes * bytes) : list bytes * list (list bytes) :=
  let pk := pack hp (rev (fst r)) C in
  if beq (snd r) (B "package.mo") then (fst pk ++ (if mem (fst r) (snd pk) then [] else stored (path_of (fst r) PACKAGE_MOC)), add (fst r) (snd pk))
  else look hp pk (fst r) C (path_of (fst r) (snd r ++ B "c")).
Fixpoint session (hp : list bytes -> bool) (C : list (list bytes)) (rs : list (list bytes * bytes)) : list bytes :=
  match rs with
  | [] => []
  | r :: rest => fst (request_lines hp C r) ++ session hp (snd (request_lines hp C r)) rest
  end.

Lemma request_log pr K fs basedir disk moc f t C :
  GoodPrimitives pr -> length K = 32 -> GoodLibrary pr fs -> Installed pr K fs basedir disk moc ->
  In f fs -> Readable fs f -> Cache fs t -> Dom t C ->
  exists t', cr_decrypt_log Release pr K disk basedir t (moc_path f) (moc f) = (fst (request_lines (has_package (names fs)) C (n_dir f, n_name f)), Ok (t', Some (n_data f))) /\
    Cache fs t' /\ Dom t' (snd (request_lines (has_package (names fs)) C (n_dir f, n_name f))).
Proof.
  intros G LK GL Ins If Rd0 Ca Dm. destruct (decrypt_entry pr K fs basedir disk moc f t G LK GL Ins If Rd0 Ca) as (t' & E & Ca').
  rewrite <- (cr_decrypt_erase Release) in E. destruct Rd0 as [InP Rd].
  assert (Ge : GoodEntry pr f) by (destruct GL as [GF _]; rewrite Forall_forall in GF; now apply GF).
  pose proof (gooddir_entry f Ge) as Gd. destruct Ge as (Fd & Nn & _ & Case & Len & Li & Lm & Ld).
  destruct InP as (m0 & H0).
  assert (Fit : PkgFits basedir (n_dir f)).
  { destruct H0 as (p & Ip & P & Dp & _). pose proof (proj1 Ins p Ip) as L. rewrite P, Dp in L.
    unfold PkgFits. change PACKAGE_MOC with (B "package.mo" ++ B "c"). rewrite path_moc_length. lia. }
  pose proof (path_length (n_dir f) (n_name f)) as Lp.
  assert (Lmoc : length (moc_path f) = length (path_of (n_dir f) (n_name f)) + 1) by apply path_moc_length.
  destruct (log_dirs pr K fs basedir disk moc (has_package (names fs)) G LK GL Ins (has_package_spec fs) (n_dir f) Gd Fit) as [La Lb].
  destruct (demask_dirs pr K fs basedir disk moc G LK GL Ins (n_dir f) Gd Fit) as [Da Db].
  unfold request_lines. cbn [fst snd]. unfold cr_decrypt_log in *. destruct (beq_spec (n_name f) (B "package.mo")) as [P|P].
  - assert (Em : moc_path f = path_of (n_dir f) PACKAGE_MOC) by (unfold moc_path; now rewrite P).
    assert (Fl : forall d' c, n_dir f = d' ++ [c] -> Filled fs d').
    { intros d' c' Ed p Ip Pp A. destruct (Rd p Ip Pp) as [->|]; [rewrite Ed; now apply above_up| |assumption].
      exfalso. rewrite Ed in A. apply above_length in A. rewrite app_length in A. cbn in A. lia. }
    destruct (La (2 * length (moc_path f) + 4) t K C) as (t1 & k1 & E1 & D1); [lia|exact Fl|exact Ca|exact Dm|exact LK|].
    destruct (Da (2 * length (moc_path f) + 4) t K) as (t2 & k2 & E2 & _ & K1); [lia|exact Fl|exact Ca|exact LK|].
    pose proof (f_equal snd E1) as E3. rewrite demask_erase, E2 in E3. cbn [snd] in E3. injection E3 as -> ->.
    assert (FK1 : FileKey pr fs K f k1).
    { destruct K1 as [[Ed ->]|(d' & c' & m & Ed & Ne & ->)]; [now apply K_top|now apply (K_package fs K f d' c' m P)]. }
    destruct (package_log pr K fs basedir disk moc f t _ _ G LK GL Ins If P _ _ _ E1 FK1 D1) as (t3 & E4 & D3).
    rewrite Em in *. rewrite E4 in *. unfold lbind in E |- *. cbn [fst snd] in E |- *. rewrite app_nil_r. exists t'. split; [|split; [exact Ca'|]].
    + f_equal. exact E.
    + injection E as <- _. exact D3.
  - assert (Cf : caseeq (n_name f ++ B "c") PACKAGE_MOC = false).
    { rewrite caseeq_moc. destruct (caseeq (n_name f) PACKAGE_MO) eqn:Q; [exfalso; apply P; now apply Case|reflexivity]. }
    assert (Fl : Filled fs (n_dir f)). { intros p Ip Pp A. destruct (Rd p Ip Pp A) as [->|]; [contradiction|assumption]. }
    assert (Lq : length (path_of (n_dir f) (n_name f ++ B "c")) <= 4096) by (rewrite path_moc_length; lia).
    destruct (Lb (2 * length (moc_path f) + 4) t K C (n_name f ++ B "c")) as (flag & t1 & k1 & E1 & _ & D1); [lia|exact Fl|exact Ca|exact Dm|exact LK|apply noslash_moc; now apply name_noslash|exact Cf|exact Lq|].
    destruct (Db (2 * length (moc_path f) + 4) t K (n_name f ++ B "c")) as (flag2 & t2 & m & E2 & _ & _ & _ & F0 & _); [lia|exact Fl|exact Ca|exact LK|apply noslash_moc; now apply name_noslash|exact Cf|exact Lq|].
    pose proof (f_equal snd E1) as E3. rewrite demask_erase, E2 in E3. cbn [snd] in E3. injection E3 as <- <- <-. assert (flag2 = 0%Z) as -> by (eapply F0; exact H0).
    fold (moc_path f) in E1. pose proof (decrypt_log_plain pr K _ t (moc_path f) (moc f) _ _ _ E1) as Ef.
    exists t'. split; [|split; [exact Ca'|]].
    + rewrite (surjective_pairing (lbind _ _)). f_equal; [|exact E]. unfold lbind. unfold lbind in E. destruct (snd (decrypt_log _ _ _ _ _ _ _)) as [[[t3 res] out]| |] eqn:Es; cbn [fst snd] in E |- *; [|discriminate..].
      now rewrite app_nil_r, Ef.
    + rewrite lbind_snd in E. destruct (snd (decrypt_log _ _ _ _ _ _ _)) as [[[t3 res] out]| |] eqn:Es; cbn [bind snd] in E; [|discriminate..]. injection E as <- _.
      assert (t3 = t2) as ->; [|exact D1]. clear - Es E1. unfold decrypt_log in Es. rewrite E1 in Es. unfold lbind in Es. cbn [fst snd] in Es.
      destruct (_ <? BLOCK) in Es; [discriminate|]. cbv zeta in Es. destruct (_ <? 0)%Z in Es; [now injection Es|]. destruct (evp_decrypt _ _ _ _) in Es; [|now injection Es].
      destruct (beq _ _) in Es; now injection Es.
Qed.
Lemma session_log pr K fs basedir disk moc : GoodPrimitives pr -> length K = 32 -> GoodLibrary pr fs -> Installed pr K fs basedir disk moc ->
  forall reqs t C, (forall f, In f reqs -> In f fs /\ Readable fs f) -> Cache fs t -> Dom t C ->
  fst (decrypt_all_log Release pr K disk basedir t (map (fun f => (moc_path f, moc f)) reqs)) = session (has_package (names fs)) C (names reqs).
Proof.
  intros G LK GL Ins. induction reqs as [|f reqs IH]; intros t C R Ca Dm; [reflexivity|]. cbn [map decrypt_all_log names session].
  destruct (R f (or_introl eq_refl)) as [If Rd]. destruct (request_log pr K fs basedir disk moc f t C G LK GL Ins If Rd Ca Dm) as (t' & E & Ca' & D').
  rewrite E. unfold lbind at 1. cbn [fst snd]. f_equal.
  assert (Q : forall (m : logged (list (option bytes))) (g : list (option bytes) -> logged (list (option bytes))), (forall a, fst (g a) = []) -> fst (lbind m g) = fst m).
  { intros m g Hg. unfold lbind. destruct (snd m); cbn [fst]; [|reflexivity..]. now rewrite Hg, app_nil_r. }
  rewrite Q by reflexivity. apply IH; [|exact Ca'|exact D']. intros g Ig. apply R. now right.
Qed.
Lemma sessions_alike pr1 pr2 K1 K2 fs1 fs2 basedir1 basedir2 disk1 disk2 moc1 moc2 reqs1 reqs2 :
  GoodPrimitives pr1 -> GoodPrimitives pr2 -> length K1 = 32 -> length K2 = 32 -> GoodLibrary pr1 fs1 -> GoodLibrary pr2 fs2 ->
  Installed pr1 K1 fs1 basedir1 disk1 moc1 -> Installed pr2 K2 fs2 basedir2 disk2 moc2 -> names fs1 = names fs2 -> names reqs1 = names reqs2 ->
  (forall f, In f reqs1 -> In f fs1 /\ Readable fs1 f) -> (forall f, In f reqs2 -> In f fs2 /\ Readable fs2 f) ->
  fst (decrypt_all_log Release pr1 K1 disk1 basedir1 [] (map (fun f => (moc_path f, moc1 f)) reqs1)) =
  fst (decrypt_all_log Release pr2 K2 disk2 basedir2 [] (map (fun f => (moc_path f, moc2 f)) reqs2)).
Proof.
  intros G1 G2 L1 L2 GL1 GL2 I1 I2 En Er R1 R2.
  assert (D0 : Dom [] []) by (intros d _; split; [intros _ []|reflexivity]). assert (C0 : forall fs, Cache fs []) by (intros fs a m _ X; discriminate).
  rewrite (session_log pr1 K1 fs1 basedir1 disk1 moc1 G1 L1 GL1 I1 reqs1 [] [] R1 (C0 _) D0), (session_log pr2 K2 fs2 basedir2 disk2 moc2 G2 L2 GL2 I2 reqs2 [] [] R2 (C0 _) D0). now rewrite En, Er.
Qed.
