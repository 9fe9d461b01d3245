(** Encryption on Windows: the same as with slashes. *)
From Verif Require Import Base BaseProofs ArgsModel ManifestModel WireModel CryptModel CryptSpec MaskProofs PackageModel PackageSpec TreeProofs CopyProofs EncProofs
  PackCopyModel WinPackModel WinPackSpec WinPackProofs.

(** Slashes become backslashes. *)
Definition bk (s : bytes) : bytes := map (fun c => if Ascii.eqb c SLASH then BSLASH else c) s.
Definition Clean (s : bytes) : Prop := ~ In BSLASH s /\ at_root s = false.
(** The keys of tables. *)
Definition bkey (p : bytes) : bytes := if beq p [SLASH] then [SLASH] else bk p.
Definition bkt (t : table) : table := map (fun e => (bkey (fst e), snd e)) t.
Definition CleanKey (p : bytes) : Prop := p = [SLASH] \/ Clean p.
Definition CleanTable (t : table) : Prop := Forall (fun e => CleanKey (fst e)) t.

Lemma bk_app a b : bk (a ++ b) = bk a ++ bk b. Proof. apply map_app. Qed.
Lemma bk_length a : length (bk a) = length a. Proof. apply map_length. Qed.
Lemma bk_noslash a : ~ In SLASH a -> bk a = a.
Proof.
  induction a as [|c a IH]; intros H; [reflexivity|]. cbn [bk map]. fold (bk a). rewrite IH by (intros X; apply H; now right).
  destruct (Ascii.eqb_spec c SLASH) as [->|]; [exfalso; apply H; now left|reflexivity].
Qed.
Lemma bk_none a : ~ In SLASH (bk a).
Proof.
  intros H. apply in_map_iff in H. destruct H as (c & E & _). destruct (Ascii.eqb c SLASH) eqn:Ec; [discriminate E|]. subst c. discriminate Ec.
Qed.
Lemma bk_inj a : forall b, ~ In BSLASH a -> ~ In BSLASH b -> bk a = bk b -> a = b.
Proof.
  induction a as [|c a IH]; intros [|e b] Ha Hb H; [reflexivity|discriminate|discriminate|]. cbn [bk map] in H. fold (bk a) (bk b) in H.
  injection H as Hc H. f_equal.
  - destruct (Ascii.eqb_spec c SLASH) as [->|N1], (Ascii.eqb_spec e SLASH) as [->|N2]; [reflexivity| | |exact Hc].
    + exfalso. apply Hb. now left.
    + exfalso. apply Ha. now left.
  - apply IH; [intros X; apply Ha; now right|intros X; apply Hb; now right|exact H].
Qed.
Lemma bkey_inj p q : CleanKey p -> CleanKey q -> bkey p = bkey q -> p = q.
Proof.
  unfold bkey. intros Hp Hq. destruct (beq p [SLASH]) eqn:Ep; destruct (beq q [SLASH]) eqn:Eq.
  - apply beq_true in Ep, Eq. congruence.
  - intros H. exfalso. apply (bk_none q). rewrite <- H. now left.
  - intros H. exfalso. apply (bk_none p). rewrite H. now left.
  - apply beq_false in Ep, Eq. destruct Hp as [|[Hp _]]; [contradiction|]. destruct Hq as [|[Hq _]]; [contradiction|]. now apply bk_inj.
Qed.
Lemma find_mask_bk t p : CleanTable t -> CleanKey p -> find_mask (bkt t) (bkey p) = find_mask t p.
Proof.
  induction t as [|[q m] t IH]; intros T P; [reflexivity|]. apply Forall_cons_iff in T. destruct T as [Q T]. cbn [bkt map find_mask fst snd] in *.
  fold (bkt t). rewrite IH by assumption. destruct (beq q p) eqn:E.
  - apply beq_true in E. subst. now rewrite beq_refl.
  - apply beq_false in E. destruct (beq (bkey q) (bkey p)) eqn:E'; [|reflexivity]. apply beq_true in E'. now apply bkey_inj in E'.
Qed.
Lemma add_mask_bk a t p m : add_mask (bkt a) (bkt t) (bkey p) m = bkt (add_mask a t p m).
Proof. destruct a as [|e a]; [reflexivity|]. cbn [add_mask bkt map]. now rewrite map_app. Qed.
Lemma add_mask_clean a t p m : CleanTable t -> CleanKey p -> CleanTable (add_mask a t p m).
Proof. intros T P. destruct a; cbn [add_mask]; [apply Forall_cons; [exact P|constructor]|]. apply Forall_app. split; [exact T|]. apply Forall_cons; [exact P|constructor]. Qed.

Lemma is_slash_bk c : is_slash (if Ascii.eqb c SLASH then BSLASH else c) = is_slash c.
Proof. destruct (Ascii.eqb_spec c SLASH) as [->|]; reflexivity. Qed.
Lemma last_slash_bk s : last_slash (bk s) = last_slash s.
Proof.
  induction s as [|c s IH]; [reflexivity|]. cbn [bk map]. fold (bk s). rewrite !last_slash_cons, IH. destruct (last_slash s); [|reflexivity].
  destruct s as [|y s]; [reflexivity|]. cbn [bk map]. now rewrite is_slash_bk.
Qed.
Lemma firstn_bk n s : firstn n (bk s) = bk (firstn n s). Proof. apply firstn_map. Qed.
Lemma skipn_bk n s : skipn n (bk s) = bk (skipn n s). Proof. apply skipn_map. Qed.
Lemma split_bk s : split_path (bk s) = (option_map bk (fst (split_path s)), bk (snd (split_path s))).
Proof.
  unfold split_path. rewrite firstn_bk, last_slash_bk. destruct (last_slash _); [reflexivity|]. cbn [fst snd option_map]. now rewrite firstn_bk, skipn_bk.
Qed.
Lemma split_clean s : Clean s -> match fst (split_path s) with Some d => Clean d | None => True end.
Proof.
  intros [H R]. unfold split_path. destruct (last_slash _); [exact I|]. cbn [fst]. split.
  - intros X. apply H. rewrite <- (firstn_skipn (S n) s). apply in_or_app. now left.
  - destruct s; [reflexivity|]. exact R.
Qed.
Lemma lower_slash c : lower c = SLASH -> c = SLASH.
Proof.
  unfold lower. destruct (_ && _) eqn:E; [|easy]. intros H. exfalso. apply andb_true_iff in E. destruct E as [E1 E2].
  apply Nat.leb_le in E1, E2. apply (f_equal nat_of_ascii) in H. unfold ch in H. rewrite nat_ascii_embedding in H by lia. change (nat_of_ascii SLASH) with 47 in H. lia.
Qed.
Lemma caseeq_bk s k : forallb (fun c => negb (is_slash (lower c))) k = true -> caseeq (bk s) k = caseeq s k.
Proof.
  unfold caseeq. revert k. induction s as [|c s IH]; intros [|e k] H; [reflexivity|reflexivity|reflexivity|]. cbn [forallb] in H. apply andb_true_iff in H. destruct H as [He H].
  cbn [bk map beq]. fold (bk s). rewrite IH by exact H. f_equal. destruct (Ascii.eqb_spec c SLASH) as [->|]; [|reflexivity].
  apply negb_true_iff in He. unfold is_slash in He. apply orb_false_iff in He. destruct He as [He1 He2]. rewrite Ascii.eqb_sym in He1, He2.
  change (lower SLASH) with SLASH. change (lower BSLASH) with BSLASH. now rewrite He1, He2.
Qed.
Lemma at_root_bk s : Clean s -> at_root (bk s) = false.
Proof.
  intros [H R]. destruct s as [|c s]; [reflexivity|]. cbn [bk map at_root] in *. destruct (Ascii.eqb_spec c SLASH) as [->|N]; [discriminate|]. now apply Ascii.eqb_neq.
Qed.
Lemma bkey_clean p : Clean p -> bkey p = bk p.
Proof. intros [_ R]. unfold bkey. destruct (beq p [SLASH]) eqn:E; [|reflexivity]. apply beq_true in E. subst. discriminate. Qed.

Lemma mask_key_step pr f t rel key rnd : mask_key pr (S f) t rel key rnd =
  let '(dir, base) := split_path rel in
  let path := match dir with Some d => d | None => [SLASH] end in
  if caseeq base PACKAGE_MO then
    match find_mask t path with
    | Some _ => Ok ((-1)%Z, t, key)
    | None =>
        do (ret, t1, key1) <- (if at_root path then Ok (0%Z, t, key) else mask_key pr f t path key rnd) ;
        if (ret =? 0)%Z then Ok (1%Z, add_mask t t1 path rnd, key1) else Ok ((-1)%Z, t1, key1)
    end
  else
    match find_mask t path with
    | Some m => Ok (0%Z, t, xor key m)
    | None =>
        do (ret, t1, m) <- (if at_root path then Ok (0%Z, t, zeros pr) else mask_key pr f t path (zeros pr) rnd) ;
        if (ret =? 0)%Z then Ok (0%Z, add_mask t t1 path m, xor key m) else Ok ((-1)%Z, t1, key)
    end.
Proof. reflexivity. Qed.
Definition bk3 (r : outcome (Z * table * bytes)) : outcome (Z * table * bytes) := do (z, t, k) <- r ; Ok (z, bkt t, k).
Lemma mask_key_bk pr : forall fuel t rel key rnd, Clean rel -> CleanTable t ->
  mask_key pr fuel (bkt t) (bk rel) key rnd = bk3 (mask_key pr fuel t rel key rnd) /\
  forall z t' k, mask_key pr fuel t rel key rnd = Ok (z, t', k) -> CleanTable t'.
Proof.
  induction fuel as [|f IH]; intros t rel key rnd C T; [split; [reflexivity|discriminate]|].
  rewrite !mask_key_step, split_bk. pose proof (split_clean rel C) as D. destruct (split_path rel) as [dir base]. cbn [fst snd] in *.
  rewrite caseeq_bk by reflexivity.
  set (path := match dir with Some d => d | None => [SLASH] end).
  assert (Ep : match option_map bk dir with Some d => d | None => [SLASH] end = bkey path).
  { destruct dir as [d|]; cbn [option_map]; [symmetry; now apply bkey_clean|reflexivity]. }
  rewrite Ep. assert (CK : CleanKey path) by (destruct dir as [d|]; [right; exact D|now left]).
  rewrite find_mask_bk by assumption.
  assert (Er : at_root (bkey path) = at_root path).
  { destruct dir as [d|]; [|reflexivity]. subst path. rewrite bkey_clean by exact D. rewrite at_root_bk by exact D. symmetry. apply D. }
  rewrite Er.
  assert (Rec : forall k0, at_root path = false -> mask_key pr f (bkt t) (bkey path) k0 rnd = bk3 (mask_key pr f t path k0 rnd) /\
     forall z t' k, mask_key pr f t path k0 rnd = Ok (z, t', k) -> CleanTable t').
  { intros k0 R. destruct dir as [d|]; [|discriminate R]. subst path. rewrite bkey_clean by exact D. now apply IH. }
  destruct (caseeq base PACKAGE_MO).
  - destruct (find_mask t path) as [m|]; [split; [reflexivity|intros z t' k [= _ <- _]; exact T]|].
    destruct (at_root path).
    + cbn [bind]. change (0 =? 0)%Z with true. cbv iota. cbn [bk3 bind]. rewrite add_mask_bk. split; [reflexivity|]. intros z t' k [= _ <- _]. now apply add_mask_clean.
    + destruct (Rec key eq_refl) as [-> Ct]. destruct (mask_key pr f t path key rnd) as [[[z1 t1] k1]|u|]; [|split; [reflexivity|discriminate]..].
      cbn [bk3 bind]. specialize (Ct _ _ _ eq_refl). destruct (z1 =? 0)%Z; cbn [bk3 bind].
      * rewrite add_mask_bk. split; [reflexivity|]. intros z t' k [= _ <- _]. now apply add_mask_clean.
      * split; [reflexivity|]. intros z t' k [= _ <- _]. exact Ct.
  - destruct (find_mask t path) as [m|]; [split; [reflexivity|intros z t' k [= _ <- _]; exact T]|].
    destruct (at_root path).
    + cbn [bind]. change (0 =? 0)%Z with true. cbv iota. cbn [bk3 bind]. rewrite add_mask_bk. split; [reflexivity|]. intros z t' k [= _ <- _]. now apply add_mask_clean.
    + destruct (Rec (zeros pr) eq_refl) as [-> Ct]. destruct (mask_key pr f t path (zeros pr) rnd) as [[[z1 t1] k1]|u|]; [|split; [reflexivity|discriminate]..].
      cbn [bk3 bind]. specialize (Ct _ _ _ eq_refl). destruct (z1 =? 0)%Z; cbn [bk3 bind].
      * rewrite add_mask_bk. split; [reflexivity|]. intros z t' k [= _ <- _]. now apply add_mask_clean.
      * split; [reflexivity|]. intros z t' k [= _ <- _]. exact Ct.
Qed.
Lemma cr_encrypt_bk pr K t rel iv rnd file : Clean rel -> CleanTable t ->
  cr_encrypt pr K (bkt t) (bk rel) iv rnd file = (do (t1, o) <- cr_encrypt pr K t rel iv rnd file ; Ok (bkt t1, o)) /\
  forall t1 o, cr_encrypt pr K t rel iv rnd file = Ok (t1, o) -> CleanTable t1.
Proof.
  intros C T. unfold cr_encrypt. rewrite bk_length. destruct (mask_key_bk pr (S (length rel)) t rel K rnd C T) as [-> Ct].
  destruct (mask_key pr (S (length rel)) t rel K rnd) as [[[z t1] k]|u|]; [|split; [reflexivity|discriminate]..]. cbn [bk3 bind].
  specialize (Ct _ _ _ eq_refl). destruct (z <? 0)%Z; [split; [reflexivity|intros ? ? [= <- _]; exact Ct]|].
  destruct (encrypt_with _ _ _ _ _) as [out|u|]; cbn [bind]; [split; [reflexivity|intros ? ? [= <- _]; exact Ct]|split; [reflexivity|discriminate]..].
Qed.

Lemma slashed_bk p : Forall Name p -> backslashed p = bk (slashed p).
Proof.
  induction p as [|n p IH]; intros F; [reflexivity|]. apply Forall_cons_iff in F. destruct F as [(_ & Fn & _) F]. destruct p as [|m p].
  - cbn [backslashed slashed]. symmetry. now apply bk_noslash.
  - rewrite backslashed_cons, slashed_cons by discriminate. rewrite !bk_app, (bk_noslash n Fn), <- IH by exact F. reflexivity.
Qed.
Lemma path_clean d n : Forall Name d -> Name n -> Clean (path_of d n).
Proof.
  intros F N. split; [|now apply at_root_path]. intros H. induction d as [|c d IH]; cbn [path_of] in H.
  - now apply (proj1 (proj2 (proj2 N))).
  - apply Forall_cons_iff in F. destruct F as [Fc F]. apply in_app_or in H. destruct H as [H|H]; [now apply (proj1 (proj2 (proj2 Fc)))|].
    destruct H as [H|H]; [discriminate H|]. now apply IH.
Qed.

Definition bkf {A} (r : outcome (bool * table * A)) : outcome (bool * table * A) := do (ok, t, a) <- r ; Ok (ok, bkt t, a).
Lemma fit_long n s : n <= length s -> fit n s = Blocked.
Proof. intros H. unfold fit. apply Nat.ltb_ge in H. now rewrite H. Qed.
Lemma bk_fit n s : fit n (bk s) = (do _ <- fit n s ; Ok (bk s)).
Proof. unfold fit. rewrite bk_length. now destruct (_ <? _). Qed.

Lemma encrypt_file_bk pr K w v top rd n x es tbl : SameDraws w v -> Forall Name rd -> Name n -> CleanTable tbl ->
  encrypt_file pr K v top (bk (path_of rd n)) n x es (bkt tbl) = bkf (encrypt_file pr K w top (path_of rd n) n x es tbl) /\
  forall ok t1 l, encrypt_file pr K w top (path_of rd n) n x es tbl = Ok (ok, t1, l) -> CleanTable t1.
Proof.
  intros (O1 & O2 & _ & _ & Dr) F N T. unfold encrypt_file, fit. rewrite !app_length, bk_length.
  destruct (length top + (length [SLASH] + length (path_of rd n)) <? LONG_FILE_NAME_MAX); [|split; [reflexivity|discriminate]]. cbn [bind]. rewrite !app_length, bk_length.
  destruct (length top + (length [SLASH] + length (path_of rd n)) + length (B "c") <? LONG_FILE_NAME_MAX); [|split; [reflexivity|discriminate]]. cbn [bind].
  rewrite !O1, !O2. cbn [andb]. destruct (match lookup es (n ++ B "c") with Some (Folder _) => false | _ => true end); [|split; [reflexivity|discriminate]].
  destruct x as [d|fs|]; [|split; [reflexivity|intros ? ? ? [= _ <- _]; exact T]..].
  assert (Fp : Forall Name (rd ++ [n])) by (apply Forall_app; split; [exact F|repeat constructor; exact (proj1 N) || apply N]).
  destruct (Dr (rd ++ [n]) Fp) as (D1 & D2 & D3). rewrite (slashed_bk _ Fp), slashed_path in D1, D2, D3. rewrite D1, D2, D3.
  destruct (w_encrypts w (path_of rd n)); [|split; [reflexivity|intros ? ? ? [= _ <- _]; exact T]].
  destruct (cr_encrypt_bk pr K tbl (path_of rd n) (w_iv w (path_of rd n)) (firstn (p_len pr) (w_mask w (path_of rd n))) d (path_clean rd n F N) T) as [-> Ct].
  destruct (cr_encrypt _ _ _ _ _ _ _) as [[t1 o]|u|]; [|split; [reflexivity|discriminate]..]. cbn [bind]. specialize (Ct _ _ eq_refl).
  destruct o as [out|]; (split; [reflexivity|intros ? ? ? [= _ <- _]; exact Ct]).
Qed.

Definition encwin_one (pr : primitives) (K : bytes) (w : world) (top : bytes) (rel : option bytes) (es : entries) (n : bytes) (x : tree) (tbl : table)
  : outcome (bool * table * tree * list (bytes * bytes)) :=
  if caseeq n PACKAGE_MO then Ok (true, tbl, x, [])
  else
    do p <- fit (MAX_PATH_LENGTH + 1) (rel_join_win rel n) ;
    match x with
    | Folder _ => do (ok, tbl1, x1) <- encrypt_win pr K w top (Some p) x tbl ; Ok (ok, tbl1, x1, [])
    | Reg _ => if is_modelica n then
                 do (ok, tbl1, new) <- encrypt_file pr K w top p n x es tbl ; Ok (ok, tbl1, x, new)
               else Ok (true, tbl, x, [])
    | Other => Ok (true, tbl, x, [])
    end.
Definition encwin_list (pr : primitives) (K : bytes) (w : world) (top : bytes) (rel : option bytes) (es : entries)
  : entries -> table -> outcome (bool * table * entries * list (bytes * bytes)) :=
  fix go (l : entries) (tbl : table) : outcome (bool * table * entries * list (bytes * bytes)) :=
    match l with
    | [] => Ok (true, tbl, [], [])
    | (n, x) :: r =>
        do (ok, tbl1, x1, new1) <- encwin_one pr K w top rel es n x tbl ;
        if ok then
          do (ok2, tbl2, r2, new2) <- go r tbl1 ;
          Ok (ok2, tbl2, (n, x1) :: r2, new1 ++ new2)
        else Ok (false, tbl1, (n, x1) :: r, new1)
    end.
Lemma encwin_cons pr K w top rel es n x r tbl : encwin_list pr K w top rel es ((n, x) :: r) tbl =
  do (ok, tbl1, x1, new1) <- encwin_one pr K w top rel es n x tbl ;
  if ok then
    do (ok2, tbl2, r2, new2) <- encwin_list pr K w top rel es r tbl1 ;
    Ok (ok2, tbl2, (n, x1) :: r2, new1 ++ new2)
  else Ok (false, tbl1, (n, x1) :: r, new1).
Proof. reflexivity. Qed.
Lemma encwin_folder pr K w top rel es tbl : encrypt_win pr K w top rel (Folder es) tbl =
  do full <- fit (MAX_PATH_LENGTH + 1) (match rel with Some r => top ++ [BSLASH] ++ r | None => top end) ;
  do _ <- fit (MAX_PATH_LENGTH + 1) (full ++ B "\*.*") ;
  if w_opendir w Encrypting full then
    do pkg <- fit (MAX_PATH_LENGTH + 1) (full ++ B "\package.mo") ;
    do prel <- fit (MAX_PATH_LENGTH + 1) (rel_join_win rel PACKAGE_MO) ;
    do (ok, tbl1, new1) <-
      match lookup_any_case es PACKAGE_MO with
      | Some x => if w_open w pkg then encrypt_file pr K w top prel PACKAGE_MO x es tbl else Ok (true, tbl, [])
      | None => Ok (true, tbl, [])
      end ;
    if ok then
      do (ok2, tbl2, es2, new2) <- encwin_list pr K w top rel es es tbl1 ;
      Ok (ok2, tbl2, Folder (set_files (new1 ++ new2) es2))
    else Ok (false, tbl1, Folder (set_files new1 es))
  else Ok (false, tbl, Folder es).
Proof. reflexivity. Qed.

Lemma lookup_case es : (forall n x, In (n, x) es -> caseeq n PACKAGE_MO = true -> n = PACKAGE_MO) -> lookup_any_case es PACKAGE_MO = lookup es PACKAGE_MO.
Proof.
  unfold lookup_any_case. induction es as [|[m u] r IH]; intros H; [reflexivity|]. cbn [find lookup fst]. destruct (caseeq m PACKAGE_MO) eqn:E.
  - rewrite (H m u (or_introl eq_refl) E), beq_refl. reflexivity.
  - destruct (beq m PACKAGE_MO) eqn:E'; [|apply IH; intros n x I; apply (H n x); now right]. apply beq_true in E'. subst. discriminate E.
Qed.
Lemma rel_join_bk rd n : Name n -> rel_join_win (option_map bk (relstr rd)) n = bk (path_of rd n).
Proof.
  intros (_ & N & _). rewrite <- rel_join_path. destruct (relstr rd) as [r|]; cbn [option_map rel_join rel_join_win]; [|now rewrite bk_noslash].
  now rewrite !bk_app, (bk_noslash n N).
Qed.
Lemma package_name : Name PACKAGE_MO.
Proof.
  assert (X : forall c, existsb (Ascii.eqb c) PACKAGE_MO = false -> ~ In c PACKAGE_MO).
  { intros c E H. assert (Y : existsb (Ascii.eqb c) PACKAGE_MO = true) by (apply existsb_exists; exists c; split; [exact H|apply Ascii.eqb_refl]). congruence. }
  split; [discriminate|]. split; [|split]; apply X; vm_compute; reflexivity.
Qed.

Definition bk4 (r : outcome (bool * table * entries * list (bytes * bytes))) := do (ok, t, a, b) <- r ; Ok (ok, bkt t, a, b).
Lemma encrypt_bk pr K w v top : SameDraws w v -> forall t rd tbl es, t = Folder es -> Proper t -> WinNames t -> Spelt t -> Forall Name rd -> CleanTable tbl ->
  encrypt_win pr K v top (option_map bk (relstr rd)) t (bkt tbl) = bkf (encrypt_dir pr K w top (relstr rd) t tbl) /\
  forall ok t1 x, encrypt_dir pr K w top (relstr rd) t tbl = Ok (ok, t1, x) -> CleanTable t1.
Proof.
  intros SD. pose proof SD as (O1 & O2 & P1 & P2 & _). induction t as [d| |es IH] using tree_induction; intros rd tbl fs E P W Sp F T; [discriminate|discriminate|]. clear fs E.
  rewrite encwin_folder, encrypt_folder. apply proper_folder in P. destruct P as [ND P].
  assert (HN : forall n x, In (n, x) es -> Name n /\ (caseeq n PACKAGE_MO = true -> n = PACKAGE_MO) /\ Proper x /\ WinNames x /\ Spelt x).
  { intros n x I. inversion W as [| |es' HW]; inversion Sp as [| |es'' HS]; subst. destruct (P n x I) as [(A1 & A2 & A3 & _) Px]. destruct (HW n x I) as [B1 Wx].
    destruct (HS n x I) as [C1 Sx]. split; [split; [exact A1|split; [exact A2|now split]]|]. split; [exact C1|now repeat split]. }
  rewrite lookup_case by (intros n x I; exact (proj1 (proj2 (HN n x I)))).
  assert (Lf : length (match option_map bk (relstr rd) with Some r => top ++ [BSLASH] ++ r | None => top end) = length (match relstr rd with Some r => top ++ [SLASH] ++ r | None => top end)).
  { destruct (relstr rd); cbn [option_map]; [|reflexivity]. rewrite !app_length, bk_length. reflexivity. }
  revert Lf. generalize (match option_map bk (relstr rd) with Some r => top ++ [BSLASH] ++ r | None => top end) (match relstr rd with Some r => top ++ [SLASH] ++ r | None => top end).
  intros f1 f2 Lf. destruct (le_lt_dec (MAX_PATH_LENGTH + 1) (length f2)) as [Hf|Hf].
  { rewrite (fit_long _ f2 Hf), (fit_long _ f1) by now rewrite Lf. split; [reflexivity|discriminate]. }
  rewrite (fit_short _ f2 Hf), (fit_short _ f1) by now rewrite Lf. cbn [bind]. rewrite P2, P1.
  destruct (le_lt_dec (MAX_PATH_LENGTH + 1) (length f2 + 11)) as [Hg|Hg].
  { rewrite (fit_long _ (f2 ++ B "/package.mo")) by (rewrite app_length; exact Hg). rewrite (fit_long _ (f1 ++ B "\package.mo")) by (rewrite app_length, Lf; exact Hg).
    split; [|discriminate]. unfold fit. now destruct (_ <? _). }
  rewrite (fit_short _ (f2 ++ B "/package.mo")) by (rewrite app_length; exact Hg). rewrite (fit_short _ (f1 ++ B "\package.mo")) by (rewrite app_length, Lf; exact Hg).
  rewrite (fit_short _ (f1 ++ B "\*.*")) by (rewrite app_length, Lf; change (length (B "\*.*")) with 4; clear - Hg; lia). cbn [bind].
  rewrite (rel_join_bk rd PACKAGE_MO package_name), rel_join_path, bk_fit.
  destruct (fit (MAX_PATH_LENGTH + 1) (path_of rd PACKAGE_MO)) as [pp|u|] eqn:Fp; [|split; [reflexivity|discriminate]..]. apply fit_ok in Fp. destruct Fp as [-> _]. cbn [bind].
  assert (Hpk : exists r : outcome (bool * table * list (bytes * bytes)),
    match lookup es PACKAGE_MO with
    | Some x => if w_open w (f2 ++ B "/package.mo") then encrypt_file pr K w top (path_of rd PACKAGE_MO) PACKAGE_MO x es tbl else Ok (true, tbl, [])
    | None => Ok (true, tbl, []) end = r /\
    match lookup es PACKAGE_MO with
    | Some x => if w_open v (f1 ++ B "\package.mo") then encrypt_file pr K v top (bk (path_of rd PACKAGE_MO)) PACKAGE_MO x es (bkt tbl) else Ok (true, bkt tbl, [])
    | None => Ok (true, bkt tbl, []) end = bkf r /\ forall ok t1 l, r = Ok (ok, t1, l) -> CleanTable t1).
  { eexists. split; [reflexivity|]. destruct (lookup es PACKAGE_MO) as [x|]; [|split; [reflexivity|intros ? ? ? [= _ <- _]; exact T]].
    rewrite O1, O2. apply (encrypt_file_bk pr K w v top rd PACKAGE_MO x es tbl SD F package_name T). }
  destruct Hpk as (r & -> & -> & Cr). destruct r as [[[ok1 t1] new1]|u|]; [|split; [reflexivity|discriminate]..]. cbn [bkf bind]. specialize (Cr _ _ _ eq_refl).
  destruct ok1; cbn [andb]; [|split; [reflexivity|intros ? ? ? [= _ <- _]; exact Cr]].
  assert (G : forall l tbl, (forall n x, In (n, x) l -> In (n, x) es) -> CleanTable tbl ->
    encwin_list pr K v top (option_map bk (relstr rd)) es l (bkt tbl) = bk4 (enc_list pr K w top (relstr rd) es l tbl) /\
    forall ok t1 a b, enc_list pr K w top (relstr rd) es l tbl = Ok (ok, t1, a, b) -> CleanTable t1).
  { clear - IH HN F SD. induction l as [|[n x] l IHl]; intros tbl I T; [split; [reflexivity|intros ? ? ? ? [= _ <- _ _]; exact T]|].
    rewrite encwin_cons, enc_list_cons. assert (I' : forall m y, In (m, y) l -> In (m, y) es) by (intros m y H; apply I; now right).
    assert (One : encwin_one pr K v top (option_map bk (relstr rd)) es n x (bkt tbl) = (do (ok, t, a, b) <- enc_one pr K w top (relstr rd) es n x tbl ; Ok (ok, bkt t, a, b)) /\
      forall ok t1 a b, enc_one pr K w top (relstr rd) es n x tbl = Ok (ok, t1, a, b) -> CleanTable t1).
    { assert (Ix : In (n, x) es) by (apply I; now left). destruct (HN n x Ix) as (Nn & _ & Px & Wx & Sx). unfold encwin_one, enc_one.
      destruct (caseeq n PACKAGE_MO); [split; [reflexivity|intros ? ? ? ? [= _ <- _ _]; exact T]|].
      rewrite rel_join_bk by exact Nn. rewrite rel_join_path, bk_fit. destruct (fit (MAX_PATH_LENGTH + 1) (path_of rd n)) as [pp|u|] eqn:Fp; [|split; [reflexivity|discriminate]..].
      apply fit_ok in Fp. destruct Fp as [-> _]. cbn [bind]. destruct x as [d|fs|].
      - destruct (is_modelica n); [|split; [reflexivity|intros ? ? ? ? [= _ <- _ _]; exact T]].
        destruct (encrypt_file_bk pr K w v top rd n (Reg d) es tbl SD F Nn T) as [-> Cx].
        destruct (encrypt_file _ _ _ _ _ _ _ _ _) as [[[ok1 t1] l1]|u|]; [|split; [reflexivity|discriminate]..]. cbn [bkf bind].
        split; [reflexivity|]. intros ? ? ? ? [= _ <- _ _]. now apply (Cx ok1 t1 l1).
      - assert (F' : Forall Name (rd ++ [n])) by (apply Forall_app; split; [exact F|now constructor]).
        destruct (IH n (Folder fs) Ix (rd ++ [n]) tbl fs eq_refl Px Wx Sx F' T) as [Ex Cx]. rewrite relstr_snoc in Ex, Cx. cbn [option_map] in Ex. rewrite Ex.
        destruct (encrypt_dir _ _ _ _ _ _ _) as [[[ok1 t1] x1]|u|]; [|split; [reflexivity|discriminate]..]. cbn [bkf bind].
        split; [reflexivity|]. intros ? ? ? ? [= _ <- _ _]. now apply (Cx ok1 t1 x1).
      - split; [reflexivity|intros ? ? ? ? [= _ <- _ _]; exact T]. }
    destruct One as [-> C1]. destruct (enc_one pr K w top (relstr rd) es n x tbl) as [[[[ok1 t1] x1] new]|u|]; [|split; [reflexivity|discriminate]..].
    cbn [bind]. specialize (C1 _ _ _ _ eq_refl). destruct ok1; [|split; [reflexivity|intros ? ? ? ? [= _ <- _ _]; exact C1]].
    destruct (IHl t1 I' C1) as [-> C2]. destruct (enc_list pr K w top (relstr rd) es l t1) as [[[[ok2 t2] x2] new2]|u|]; [|split; [reflexivity|discriminate]..].
    cbn [bk4 bind]. split; [reflexivity|]. intros ? ? ? ? [= _ <- _ _]. now apply (C2 ok2 t2 x2 new2). }
  destruct (G es t1 (fun _ _ H => H) Cr) as [-> C2]. destruct (enc_list pr K w top (relstr rd) es es t1) as [[[[ok2 t2] x2] new2]|u|]; [|split; [reflexivity|discriminate]..].
  cbn [bk4 bkf bind]. split; [reflexivity|]. intros ? ? ? [= _ <- _]. now apply (C2 ok2 t2 x2 new2).
Qed.
