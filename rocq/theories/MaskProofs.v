(** Proofs about paths, mask tables and the encryption of libraries. *)
From Verif Require Import Base BaseProofs WireModel CryptModel CryptSpec CbcProofs.

(** ** paths *)

Definition NoSlash (s : bytes) : Prop := ~ In SLASH s /\ ~ In BSLASH s.
Lemma name_noslash n : Name n -> NoSlash n.
Proof. intros (_ & A & C & _). now split. Qed.

Lemma noslash_char c s : NoSlash (c :: s) -> is_slash c = false /\ NoSlash s.
Proof.
  intros [A C]. split; [|split; intros H; [apply A|apply C]; now right].
  unfold is_slash. destruct (Ascii.eqb_spec c SLASH) as [->|]; [exfalso; apply A; now left|].
  destruct (Ascii.eqb_spec c BSLASH) as [->|]; [exfalso; apply C; now left|]. reflexivity.
Qed.

Arguments last_slash : simpl never.
Lemma last_slash_cons x r : last_slash (x :: r) =
  match last_slash r with
  | O => match r with y :: _ => if is_slash y then 1 else 0 | [] => 0 end
  | S i => S (S i)
  end.
Proof. reflexivity. Qed.

Lemma last_slash_none s : NoSlash s -> last_slash s = 0.
Proof.
  induction s as [|x r IH]; intros H; [reflexivity|].
  apply noslash_char in H. destruct H as [_ H]. rewrite last_slash_cons, IH by exact H.
  destruct r as [|y r]; [reflexivity|]. apply noslash_char in H. destruct H as [-> _]. reflexivity.
Qed.

Lemma last_slash_at pre base : pre <> [] -> NoSlash base -> last_slash (pre ++ SLASH :: base) = length pre.
Proof.
  intros Hp Hb. induction pre as [|x pre IH]; [congruence|]. cbn [app length]. rewrite last_slash_cons.
  destruct pre as [|y pre].
  - cbn [app]. assert (E : last_slash (SLASH :: base) = 0).
    { rewrite last_slash_cons, (last_slash_none base Hb). destruct base as [|z base]; [reflexivity|].
      apply noslash_char in Hb. destruct Hb as [-> _]. reflexivity. }
    rewrite E. reflexivity.
  - rewrite IH by discriminate. reflexivity.
Qed.

Lemma path_of_snoc d c n : path_of (d ++ [c]) n = path_of d c ++ SLASH :: n.
Proof.
  induction d as [|x d IH]; [reflexivity|]. cbn [app path_of]. rewrite IH, <- !app_assoc. reflexivity.
Qed.

Lemma path_of_nonempty d c : Forall Name d -> Name c -> path_of d c <> [].
Proof.
  intros F N. destruct d as [|x d]; cbn [path_of]; [apply N|].
  apply Forall_cons_iff in F. destruct F as [[X _] _]. destruct x; [congruence|discriminate].
Qed.

Lemma at_root_path d c : Forall Name d -> Name c -> at_root (path_of d c) = false.
Proof.
  assert (H : forall n r, Name n -> at_root (n ++ r) = false).
  { intros n r (N & A & _). destruct n as [|x n]; [congruence|]. cbn [app at_root].
    destruct (Ascii.eqb_spec x SLASH) as [->|]; [exfalso; apply A; now left|reflexivity]. }
  intros F N. destruct d as [|x d]; cbn [path_of].
  - rewrite <- (app_nil_r c). now apply H.
  - apply Forall_cons_iff in F. now apply H.
Qed.

Lemma split_deep d c n : Forall Name d -> Name c -> NoSlash n -> length (path_of (d ++ [c]) n) <= 4096 ->
  split_path (path_of (d ++ [c]) n) = (Some (path_of d c), n).
Proof.
  intros F N Hn L. unfold split_path. rewrite firstn_all2 by exact L.
  rewrite path_of_snoc. rewrite last_slash_at by (auto using path_of_nonempty).
  pose proof (path_of_nonempty d c F N) as Ne. destruct (path_of d c) as [|x p] eqn:E; [congruence|].
  cbn [length]. f_equal.
  - f_equal. change (S (length p)) with (length (x :: p)). rewrite firstn_app, firstn_all, Nat.sub_diag. cbn [firstn]. apply app_nil_r.
  - change (skipn (length p) (p ++ SLASH :: n)) with (skipn (length p) (p ++ [SLASH] ++ n)).
    change (S (S (length p))) with (S (length (x :: p))).
    change ((x :: p) ++ SLASH :: n) with ((x :: p) ++ [SLASH] ++ n). rewrite app_assoc.
    replace (S (length (x :: p))) with (length ((x :: p) ++ [SLASH])) by (rewrite app_length; cbn; lia).
    rewrite skipn_app, skipn_all, Nat.sub_diag. reflexivity.
Qed.
Lemma split_top n : NoSlash n -> split_path n = (None, n).
Proof.
  intros H. unfold split_path. rewrite last_slash_none; [reflexivity|].
  destruct H as [A C]. split; intros I; [apply A|apply C].
  - rewrite <- (firstn_skipn NAME_MAX n). apply in_or_app. now left.
  - rewrite <- (firstn_skipn NAME_MAX n). apply in_or_app. now left.
Qed.

(** The key of a directory in the tables. *)
Definition dirstr (d : list bytes) : bytes :=
  match rev d with [] => [SLASH] | c :: r => path_of (rev r) c end.
Lemma dirstr_top : dirstr [] = [SLASH].
Proof. reflexivity. Qed.
Lemma dirstr_snoc d c : dirstr (d ++ [c]) = path_of d c.
Proof. unfold dirstr. rewrite rev_app_distr. cbn [rev app]. now rewrite rev_involutive. Qed.

Lemma split_dir d n : Forall Name d -> NoSlash n -> length (path_of d n) <= 4096 ->
  (let '(dir, base) := split_path (path_of d n) in
   (match dir with Some x => x | None => [SLASH] end, base)) = (dirstr d, n).
Proof.
  intros F N L. destruct d as [|c d _] using rev_ind.
  - cbn [path_of]. now rewrite split_top.
  - apply Forall_app in F. destruct F as [F Fc]. apply Forall_cons_iff in Fc. destruct Fc as [Nc _].
    rewrite split_deep by assumption. now rewrite dirstr_snoc.
Qed.

Lemma app_slash_inj a b x y : NoSlash a -> NoSlash b -> a ++ SLASH :: x = b ++ SLASH :: y -> a = b /\ x = y.
Proof.
  revert b. induction a as [|c a IH]; intros [|e b] Ha Hb E; cbn [app] in E.
  - injection E as ->. now split.
  - exfalso. injection E as E1 _. apply (proj1 Hb). now left.
  - exfalso. injection E as E1 _. apply (proj1 Ha). now left.
  - injection E as <- E. apply noslash_char in Ha. apply noslash_char in Hb.
    destruct (IH b (proj2 Ha) (proj2 Hb) E) as [-> ->]. now split.
Qed.
Lemma path_of_inj : forall d d' c c', Forall Name d -> Forall Name d' -> NoSlash c -> NoSlash c' ->
  path_of d c = path_of d' c' -> d = d' /\ c = c'.
Proof.
  induction d as [|x d IH]; intros [|x' d'] c c' F F' N N' E; cbn [path_of] in E.
  - now split.
  - exfalso. apply (proj1 N). rewrite E. apply in_or_app. right. now left.
  - exfalso. apply (proj1 N'). rewrite <- E. apply in_or_app. right. now left.
  - apply Forall_cons_iff in F. apply Forall_cons_iff in F'. destruct F as [X F], F' as [X' F'].
    cbn [app] in E. apply app_slash_inj in E; [|now apply name_noslash..]. destruct E as [-> E].
    destruct (IH d' c c' F F' N N' E) as [-> ->]. now split.
Qed.
Lemma dirstr_inj d d' : Forall Name d -> Forall Name d' -> dirstr d = dirstr d' -> d = d'.
Proof.
  intros F F'. destruct d as [|c d _] using rev_ind; destruct d' as [|c' d' _] using rev_ind.
  - reflexivity.
  - rewrite dirstr_snoc, dirstr_top. intros E. exfalso. apply Forall_app in F'. destruct F' as [F' Fc].
    apply Forall_cons_iff in Fc. pose proof (at_root_path d' c' F' (proj1 Fc)) as R. rewrite <- E in R. discriminate.
  - rewrite dirstr_snoc, dirstr_top. intros E. exfalso. apply Forall_app in F. destruct F as [F Fc].
    apply Forall_cons_iff in Fc. pose proof (at_root_path d c F (proj1 Fc)) as R. rewrite E in R. discriminate.
  - rewrite !dirstr_snoc. intros E. apply Forall_app in F. apply Forall_app in F'. destruct F as [F Fc], F' as [F' Fc'].
    apply Forall_cons_iff in Fc. apply Forall_cons_iff in Fc'.
    apply path_of_inj in E; [|assumption..| |]; [|apply name_noslash; tauto..]. destruct E as [-> ->]. reflexivity.
Qed.

Lemma dirstr_root d : Forall Name d -> at_root (dirstr d) = match d with [] => true | _ => false end.
Proof.
  intros F. destruct d as [|c d _] using rev_ind; [reflexivity|]. rewrite dirstr_snoc.
  apply Forall_app in F. destruct F as [F Fc]. apply Forall_cons_iff in Fc. rewrite at_root_path by tauto.
  destruct d; reflexivity.
Qed.

(** ** tables *)

Lemma find_app t u p : find_mask (t ++ u) p = match find_mask t p with Some m => Some m | None => find_mask u p end.
Proof. induction t as [|[q m] t IH]; [reflexivity|]. cbn [app find_mask]. destruct (beq q p); [reflexivity|apply IH]. Qed.
Lemma find_add local t p m q v : find_mask (add_mask local t p m) q = Some v ->
  (q = p /\ v = m) \/ (local <> [] /\ find_mask t q = Some v).
Proof.
  unfold add_mask. destruct local as [|e l].
  - cbn [find_mask]. destruct (beq_spec p q) as [->|]; [|discriminate]. intros E. injection E as ->. now left.
  - rewrite find_app. destruct (find_mask t q) as [w|] eqn:F.
    + intros E. right. split; [discriminate|]. congruence.
    + cbn [find_mask]. destruct (beq_spec p q) as [->|]; [|discriminate]. intros E. injection E as ->. now left.
Qed.
Lemma find_add_here local t p m : find_mask (add_mask local t p m) p = Some (match local with [] => m | _ => match find_mask t p with Some w => w | None => m end end).
Proof.
  unfold add_mask. destruct local as [|e l]; [cbn; now rewrite beq_refl|]. rewrite find_app.
  destruct (find_mask t p); [reflexivity|]. cbn [find_mask]. now rewrite beq_refl.
Qed.
Lemma find_add_keep local t p m q v : local <> [] -> find_mask t q = Some v -> find_mask (add_mask local t p m) q = Some v.
Proof. intros L F. unfold add_mask. destruct local; [congruence|]. now rewrite find_app, F. Qed.
Lemma add_nonempty local t p m : add_mask local t p m <> [].
Proof. unfold add_mask. destruct local; [discriminate|]. destruct t; discriminate. Qed.

(** ** nearest masks *)

Definition MaskLen (pr : primitives) (fs : list entry) : Prop := forall f, In f fs -> length (n_mask f) = p_len pr.
Lemma nearest_len {pr : primitives} fs d m : MaskLen pr fs -> Nearest pr fs d m -> length m = p_len pr.
Proof.
  intros M N. induction N as [d m (f & I & _ & _ & <-)| |]; [now apply M|assumption|apply repeat_length].
Qed.
Lemma above_refl d : Above d d.
Proof. exists []. now rewrite app_nil_r. Qed.
Lemma above_up a d c : Above a d -> Above a (d ++ [c]).
Proof. intros (x & ->). exists (x ++ [c]). now rewrite app_assoc. Qed.
Lemma above_snoc a d c : Above a (d ++ [c]) -> a = d ++ [c] \/ Above a d.
Proof.
  intros (x & E). destruct x as [|y x _] using rev_ind.
  - left. now rewrite app_nil_r in E.
  - right. rewrite app_assoc in E. apply app_inj_tail in E. destruct E as [-> _]. now exists x.
Qed.

(** A directory component as [mask_key] sees it. *)
Definition GoodDir (d : list bytes) : Prop :=
  Forall Name d /\ Forall (fun c => caseeq c PACKAGE_MO = false /\ caseeq c PACKAGE_MOC = false) d.
Lemma gooddir_snoc d c : GoodDir (d ++ [c]) -> GoodDir d /\ Name c /\ caseeq c PACKAGE_MO = false /\ caseeq c PACKAGE_MOC = false.
Proof.
  intros [F G]. apply Forall_app in F. apply Forall_app in G. destruct F as [F Fc], G as [G Gc].
  apply Forall_cons_iff in Fc. apply Forall_cons_iff in Gc. destruct Fc as [Fc _], Gc as [Gc _].
  split; [now split|]. tauto.
Qed.

(** [xor] with the mask of a parent that starts from zeros. *)
Lemma xor_zeros_l {pr} m : length m = p_len pr -> xor (zeros pr) m = m.
Proof.
  unfold zeros. intros <-. induction m as [|x m IH]; [reflexivity|]. cbn [length repeat xor]. rewrite IH.
  f_equal. destruct x. unfold NUL, Ascii.zero. cbn [bxor]. now rewrite !xorb_false_l.
Qed.

Definition TableOk (pr : primitives) (fs : list entry) (t : table) : Prop :=
  forall a m, Forall Name a -> find_mask t (dirstr a) = Some m -> Nearest pr fs a m.

Lemma mask_key_S {pr : primitives} f t rel key rnd : mask_key pr (S f) t rel key rnd =
  (let '(path, base) := (let '(dir, base) := split_path rel in (match dir with Some d => d | None => [SLASH] end, base)) in
      if caseeq base PACKAGE_MO then
        match find_mask t path with
        | Some _ => Ok ((-1)%Z, t, key)
        | None =>
            do (ret, t1, key1) <- (if at_root path then Ok (0%Z, t, key) else mask_key pr f t path key rnd) ;
            if (ret =? 0)%Z then Ok (1%Z, add_mask t t1 path rnd, key1) else Ok ((-1)%Z, t1, key1)
        end
      else
        match find_mask t path with
        | Some m => Ok (0%Z, t, xor key m)
        | None =>
            do (ret, t1, m) <- (if at_root path then Ok (0%Z, t, zeros pr) else mask_key pr f t path (zeros pr) rnd) ;
            if (ret =? 0)%Z then Ok (0%Z, add_mask t t1 path m, xor key m) else Ok ((-1)%Z, t1, key)
        end).
Proof. cbn [mask_key]. destruct (split_path rel) as [dir base]. reflexivity. Qed.
Arguments mask_key : simpl never.

(** The mask of directory [d], as found for something in it. *)
Lemma mask_dir {pr : primitives} fs rnd (ML : MaskLen pr fs) : forall d c fuel t key,
  GoodDir d -> NoSlash c -> caseeq c PACKAGE_MO = false ->
  length (path_of d c) <= 4096 -> length d < fuel ->
  TableOk pr fs t ->
  (forall a m, Above a d -> HasMask fs a m -> exists m', find_mask t (dirstr a) = Some m') ->
  exists t' m, mask_key pr fuel t (path_of d c) key rnd = Ok (0%Z, t', xor key m) /\
    Nearest pr fs d m /\ t' <> [] /\ TableOk pr fs t' /\
    (exists m', find_mask t' (dirstr d) = Some m') /\
    (forall p v, t <> [] -> find_mask t p = Some v -> find_mask t' p = Some v) /\
    (forall p v, find_mask t' p = Some v -> find_mask t p = Some v \/ exists a, Above a d /\ p = dirstr a).
Proof.
  induction d as [|c0 d IH] using rev_ind; intros c fuel t key Gd Nc Cc Len Fu Tok Pk.
  - destruct fuel as [|f]; [cbn in Fu; lia|]. rewrite mask_key_S, split_dir by (auto; apply Gd).
    cbn iota beta. rewrite Cc.
    destruct (find_mask t (dirstr [])) as [m|] eqn:Fi.
    + exists t, m. split; [reflexivity|]. split; [now apply Tok; [constructor|]|].
      split; [intros ->; discriminate|]. split; [exact Tok|]. split; [now exists m|]. split; [auto|]. auto.
    + rewrite dirstr_top in *. change (at_root [SLASH]) with true. cbn [bind Z.eqb].
      assert (Np : NoPackage fs []).
      { intros m Hm. destruct (Pk [] m (above_refl []) Hm) as (m' & E). rewrite dirstr_top in E. congruence. }
      exists (add_mask t t [SLASH] (zeros pr)), (zeros pr). split; [reflexivity|].
      split; [now apply Near_top|]. split; [apply add_nonempty|]. split; [|split; [|split]].
      * intros a m Fa E. apply find_add in E. destruct E as [[E ->]|[_ E]]; [|now apply Tok].
        rewrite <- dirstr_top in E. apply dirstr_inj in E; [|exact Fa|constructor]. subst a. now apply Near_top.
      * rewrite find_add_here. eexists; reflexivity.
      * intros p v. apply find_add_keep.
      * intros p v E. apply find_add in E. destruct E as [[-> ->]|[_ E]]; [|now left]. right. exists []. split; [apply above_refl|reflexivity].
  - destruct fuel as [|f]; [lia|].
    destruct (gooddir_snoc d c0 Gd) as (Gd' & N0 & C0 & _).
    rewrite mask_key_S, split_dir by (auto; apply Gd). cbn iota beta. rewrite Cc.
    destruct (find_mask t (dirstr (d ++ [c0]))) as [m|] eqn:Fi.
    + exists t, m. split; [reflexivity|]. split; [apply Tok; [apply Gd|exact Fi]|].
      split; [intros ->; discriminate|]. split; [exact Tok|]. split; [now exists m|]. split; auto.
    + rewrite dirstr_root by apply Gd. replace (match d ++ [c0] with [] => true | _ => false end) with false by (destruct d; reflexivity).
      rewrite dirstr_snoc in *.
      assert (Np : NoPackage fs (d ++ [c0])).
      { intros m Hm. destruct (Pk _ m (above_refl _) Hm) as (m' & E). rewrite dirstr_snoc in E. congruence. }
      destruct (IH c0 f t (zeros pr) Gd' (name_noslash _ N0) C0) as (t1 & m & E & Ne & T1 & Tok1 & _ & Keep & New).
      { rewrite path_of_snoc, app_length in Len. lia. }
      { rewrite app_length in Fu. cbn in Fu. lia. }
      { exact Tok. }
      { intros a m Ha. apply Pk. now apply above_up. }
      rewrite E. cbn [bind Z.eqb]. rewrite xor_zeros_l by (eapply nearest_len; eassumption).
      assert (Ne' : Nearest pr fs (d ++ [c0]) m) by now apply Near_up.
      exists (add_mask t t1 (path_of d c0) m), m. split; [reflexivity|].
      split; [exact Ne'|]. split; [apply add_nonempty|]. split; [|split; [|split]].
      * intros a m' Fa E'. apply find_add in E'. destruct E' as [[E' ->]|[_ E']]; [|now apply Tok1].
        rewrite <- dirstr_snoc in E'. apply dirstr_inj in E'; [|exact Fa|apply Gd]. now subst a.
      * rewrite find_add_here. eexists; reflexivity.
      * intros p v Tn Fp. apply find_add_keep; [exact Tn|]. now apply Keep.
      * intros p v E'. apply find_add in E'. destruct E' as [[-> ->]|[_ E']].
        -- right. exists (d ++ [c0]). split; [apply above_refl|now rewrite dirstr_snoc].
        -- destruct (New p v E') as [O|(a & Ha & ->)]; [now left|]. right. exists a. split; [now apply above_up|reflexivity].
Qed.

(** ** encryption of a library *)

Definition MaskInv (pr : primitives) (fs done : list entry) (t : table) : Prop :=
  TableOk pr fs t /\
  (forall a v, Forall Name a -> find_mask t (dirstr a) = Some v -> exists g, In g done /\ Above a (n_dir g)) /\
  (forall g, In g done -> IsPackage g -> exists m, find_mask t (dirstr (n_dir g)) = Some m) /\
  (done <> [] -> t <> []).

Lemma good_mask_len {pr : primitives} fs : Forall (GoodEntry pr) fs -> MaskLen pr fs.
Proof. intros F f I. rewrite Forall_forall in F. apply (F f I). Qed.

Lemma gooddir_entry {pr : primitives} f : GoodEntry pr f -> GoodDir (n_dir f).
Proof. intros (A & _ & C & _). now split. Qed.

Lemma package_caseeq f : IsPackage f -> caseeq (n_name f) PACKAGE_MO = true.
Proof. intros ->. reflexivity. Qed.

(** Packages above a file come before it. *)
Lemma packages_before fs done f rest : PackageFirst fs -> fs = done ++ f :: rest ->
  forall p, In p fs -> IsPackage p -> Above (n_dir p) (n_dir f) -> p = f \/ In p done.
Proof.
  intros PF E p I P A. rewrite E in I. apply in_app_iff in I. destruct I as [I|[I|I]]; [now right|now left|].
  exfalso. apply in_split in I. destruct I as (l1 & l2 & ->).
  apply (PF (done ++ f :: l1) p l2) with (g := f); [|exact P| |exact A].
  - rewrite E, <- app_assoc. reflexivity.
  - apply in_app_iff. right. now left.
Qed.

Lemma above_length a d : Above a d -> length a <= length d.
Proof. intros (x & ->). rewrite app_length. lia. Qed.
Lemma above_antisym a b : Above a b -> Above b a -> a = b.
Proof.
  intros (x & E) (y & E2). subst b. rewrite <- app_assoc in E2. rewrite <- (app_nil_r a) in E2 at 1. apply app_inv_head in E2.
  symmetry in E2. apply app_eq_nil in E2. destruct E2 as [-> _]. now rewrite app_nil_r.
Qed.

Lemma path_length d n : length d + length n <= length (path_of d n).
Proof. induction d as [|x d IH]; [cbn; lia|]. cbn [path_of length app]. rewrite app_length. cbn [length]. lia. Qed.

Lemma mask_entry {pr : primitives} fs done f rest t key :
  Forall (GoodEntry pr) fs -> PackageFirst fs -> fs = done ++ f :: rest -> MaskInv pr fs done t ->
  exists flag t' key', mask_key pr (S (length (path_of (n_dir f) (n_name f)))) t (path_of (n_dir f) (n_name f)) key (n_mask f)
      = Ok (flag, t', key') /\
    MaskInv pr fs (done ++ [f]) t' /\
    ((IsPackage f /\ flag = 1%Z) \/ (~ IsPackage f /\ flag = 0%Z)) /\
    FileKey pr fs key f key'.
Proof.
  intros GF PF E (Tok & Touched & Pkgs & Tn).
  assert (If : In f fs) by (rewrite E; apply in_app_iff; right; now left).
  pose proof (good_mask_len fs GF) as ML.
  assert (Ge : GoodEntry pr f) by (rewrite Forall_forall in GF; now apply GF).
  pose proof (gooddir_entry f Ge) as Gd. destruct Ge as (Fd & Nn & _ & Case & Len & _ & Lm & _).
  assert (Dp : IsPackage f \/ ~ IsPackage f) by (unfold IsPackage; destruct (beq_spec (n_name f) (B "package.mo")); tauto).
  destruct Dp as [P|P].
  - (* a package file *)
    rewrite mask_key_S, split_dir by (auto using name_noslash; lia). cbn iota beta. rewrite package_caseeq by exact P.
    destruct (find_mask t (dirstr (n_dir f))) as [v|] eqn:Fi.
    { exfalso. destruct (Touched _ v Fd Fi) as (g & Ig & Ag). apply (PF done f rest E P g Ig Ag). }
    assert (Here : HasMask fs (n_dir f) (n_mask f)) by (exists f; auto).
    (* adding the mask of this package *)
    assert (Add : forall t1, TableOk pr fs t1 ->
      (forall p v, t <> [] -> find_mask t p = Some v -> find_mask t1 p = Some v) ->
      (forall p v, find_mask t1 p = Some v -> find_mask t p = Some v \/ exists a, Above a (n_dir f) /\ p = dirstr a) ->
      MaskInv pr fs (done ++ [f]) (add_mask t t1 (dirstr (n_dir f)) (n_mask f))).
    { intros t1 Tok1 Keep New. split; [|split; [|split]].
      - intros a m Fa Ea. apply find_add in Ea. destruct Ea as [[Ea ->]|[_ Ea]]; [|now apply Tok1].
        apply dirstr_inj in Ea; [|assumption..]. subst a. now apply Near_here.
      - intros a v Fa Ea. apply find_add in Ea. destruct Ea as [[Ea ->]|[_ Ea]].
        + apply dirstr_inj in Ea; [|assumption..]. subst a. exists f. split; [apply in_app_iff; right; now left|apply above_refl].
        + destruct (New _ _ Ea) as [O|(b & Hb & Eb)].
          * destruct (Touched a v Fa O) as (g & Ig & Ag). exists g. split; [apply in_app_iff; now left|exact Ag].
          * exists f. split; [apply in_app_iff; right; now left|]. apply dirstr_inj in Eb; [now subst a|exact Fa|].
            destruct Hb as (x & Hx). rewrite Hx in Fd. apply Forall_app in Fd. tauto.
      - intros g Ig Pg. apply in_app_iff in Ig. destruct Ig as [Ig|[<-|[]]].
        + destruct (Pkgs g Ig Pg) as (m & Em). exists m. apply find_add_keep; [|apply Keep; [|exact Em]]; intros ->; discriminate.
        + rewrite find_add_here. eexists; reflexivity.
      - intros _. apply add_nonempty. }
    rewrite dirstr_root by exact Fd.
    assert (Dd : n_dir f = [] \/ exists d c0, n_dir f = d ++ [c0]).
    { destruct (n_dir f) as [|c0 d _] using rev_ind; [now left|right; now exists d, c0]. }
    destruct Dd as [Ed|(d & c0 & Ed)].
    + rewrite Ed in Add |- *. cbn [bind Z.eqb]. do 3 eexists. split; [reflexivity|]. split; [apply Add; auto|]. split; [now left|].
      apply K_top; [exact P|exact Ed].
    + rewrite Ed in Add, Len, Gd, Fd |- *.
      replace (match d ++ [c0] with [] => true | _ => false end) with false by (destruct d; reflexivity).
      destruct (gooddir_snoc d c0 Gd) as (Gd' & N0 & C0 & _). rewrite dirstr_snoc in Add |- *.
      destruct (mask_dir fs (n_mask f) ML d c0 (length (path_of (d ++ [c0]) (n_name f))) t key Gd' (name_noslash _ N0) C0)
        as (t1 & m & Em & Ne & _ & Tok1 & _ & Keep & New).
      { rewrite path_of_snoc, app_length in Len. lia. }
      { pose proof (path_length (d ++ [c0]) (n_name f)) as L. rewrite app_length in L. cbn in L. lia. }
      { exact Tok. }
      { intros a v Ha (p & Ip & Pp & Dp & _).
        destruct (packages_before fs done f rest PF E p Ip Pp) as [->|Id].
        - rewrite Dp, Ed. now apply above_up.
        - exfalso. rewrite Dp in Ed. subst a. apply above_length in Ha. rewrite app_length in Ha. cbn in Ha. lia.
        - destruct (Pkgs p Id Pp) as (m' & Em'). rewrite Dp in Em'. now exists m'. }
      rewrite Em. cbn [bind Z.eqb]. do 3 eexists. split; [reflexivity|]. split; [|split; [now left|]].
      * apply Add; auto. intros p v Ep. destruct (New p v Ep) as [O|(a & Ha & Ea)]; [now left|]. right. exists a. split; [now apply above_up|exact Ea].
      * now apply (K_package fs key f d c0 m P Ed).
  - (* any other file *)
    assert (Cf : caseeq (n_name f) PACKAGE_MO = false) by (destruct (caseeq (n_name f) PACKAGE_MO) eqn:Q; [exfalso; auto|reflexivity]).
    destruct (mask_dir fs (n_mask f) ML (n_dir f) (n_name f) (S (length (path_of (n_dir f) (n_name f)))) t key Gd (name_noslash _ Nn) Cf)
      as (t1 & m & Em & Ne & T1 & Tok1 & _ & Keep & New).
    { lia. }
    { pose proof (path_length (n_dir f) (n_name f)). lia. }
    { exact Tok. }
    { intros a v Ha (p & Ip & Pp & Dp & _).
      destruct (packages_before fs done f rest PF E p Ip Pp) as [->|Id]; [now rewrite Dp|contradiction|].
      destruct (Pkgs p Id Pp) as (m' & Em'). rewrite Dp in Em'. now exists m'. }
    rewrite Em. do 3 eexists. split; [reflexivity|]. split; [|split; [now right|now apply K_ordinary]].
    split; [exact Tok1|]. split; [|split].
    + intros a v Fa Ea. destruct (New _ _ Ea) as [O|(b & Hb & Eb)].
      * destruct (Touched a v Fa O) as (g & Ig & Ag). exists g. split; [apply in_app_iff; now left|exact Ag].
      * exists f. split; [apply in_app_iff; right; now left|]. apply dirstr_inj in Eb; [now subst a|exact Fa|].
        destruct Hb as (x & Hx). rewrite Hx in Fd. apply Forall_app in Fd. tauto.
    + intros g Ig Pg. apply in_app_iff in Ig. destruct Ig as [Ig|[<-|[]]]; [|contradiction].
      destruct (Pkgs g Ig Pg) as (m' & Em'). exists m'. apply Keep; [|exact Em']. intros ->; discriminate.
    + intros _. exact T1.
Qed.

Lemma filekey_len {pr : primitives} fs key f k : MaskLen pr fs -> length key = 32 -> FileKey pr fs key f k -> length k = 32.
Proof.
  intros ML Lk [m _ N|d c m _ _ N|]; [| |exact Lk]; now rewrite xor_length.
Qed.

Lemma encrypt_all_ok pr K fs : GoodPrimitives pr -> length K = 32 -> Forall (GoodEntry pr) fs -> PackageFirst fs ->
  forall rest done t, fs = done ++ rest -> MaskInv pr fs done t ->
  exists outs, encrypt_all pr K t (map source_of rest) = Ok (Some outs) /\ Forall2 (EncryptedAs pr K fs) rest outs.
Proof.
  intros G LK GF PF. induction rest as [|f rest IH]; intros done t E I.
  - exists []. split; [reflexivity|constructor].
  - destruct (mask_entry fs done f rest t K GF PF E I) as (flag & t' & key' & Em & I' & Fl & FK).
    assert (Ge : GoodEntry pr f).
    { rewrite Forall_forall in GF. apply GF. rewrite E. apply in_app_iff. right. now left. }
    assert (Lk : length key' = 32) by (eapply filekey_len; eauto using good_mask_len).
    destruct Ge as (_ & _ & _ & _ & _ & Li & Lm & _).
    destruct (encrypt_with_sealed pr key' (n_iv f) (n_data f) (if (flag =? 0)%Z then None else Some (n_mask f)) G Lk Li) as (out & Eo & So).
    { destruct (flag =? 0)%Z; [discriminate|]. intros m Q. injection Q as <-. exact Lm. }
    destruct (IH (done ++ [f]) t') as (outs & Er & Fr).
    { now rewrite <- app_assoc. }
    { exact I'. }
    exists (out :: outs). split.
    + cbn [map encrypt_all]. unfold cr_encrypt. cbn [source_of f_rel f_iv f_mask f_data]. rewrite Em. cbn [bind].
      assert (Nf : (flag <? 0)%Z = false) by (destruct Fl as [[_ ->]|[_ ->]]; reflexivity).
      rewrite Nf, Eo. cbn [bind]. rewrite Er. reflexivity.
    + constructor; [|exact Fr]. exists key'. destruct Fl as [[P ->]|[P ->]]; cbn [Z.eqb] in So.
      * exists (n_data f ++ n_mask f). split; [exact FK|]. split; [now apply P_package|exact So].
      * exists (n_data f). split; [exact FK|]. split; [now apply P_ordinary|]. now rewrite app_nil_r in So.
Qed.

Lemma encrypt_library pr K fs : GoodPrimitives pr -> length K = 32 -> GoodLibrary pr fs -> PackageFirst fs ->
  exists outs, encrypt_all pr K [] (map source_of fs) = Ok (Some outs) /\ Forall2 (EncryptedAs pr K fs) fs outs.
Proof.
  intros G LK [GF _] PF. apply (encrypt_all_ok pr K fs G LK GF PF fs [] []); [reflexivity|].
  split; [intros a m _ E; discriminate|]. split; [intros a v _ E; discriminate|]. split; [intros g []|congruence].
Qed.
