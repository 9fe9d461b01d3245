(** Proofs about the debug output. *)
From Verif Require Import Base BaseProofs WireModel CryptModel CryptSpec CbcProofs MaskProofs DemaskProofs LogModel LogSpec.

Arguments demask_log : simpl never.
Arguments mask_log : simpl never.
Arguments decrypt_log : simpl never.
Arguments store_log : simpl never.

Lemma lbind_snd {A C} (m : logged A) (f : A -> logged C) : snd (lbind m f) = bind (snd m) (fun a => snd (f a)).
Proof. unfold lbind. now destruct (snd m). Qed.
Lemma bind_ext {A C} (o : outcome A) (f g : A -> outcome C) : (forall a, f a = g a) -> bind o f = bind o g.
Proof. intros H. destruct o; cbn; auto. Qed.

(** ** Results are the same *)

Lemma mask_log_S g pr f t rel key rnd : mask_log g pr (S f) t rel key rnd =
  tell (say g (B "mlle_mask_key: got key for " ++ rel ++ B " ") ++ log_key g pr key)
      (let '(dir, base) := split_path rel in
       let path := match dir with Some d => d | None => [SLASH] end in
       if caseeq base PACKAGE_MO then
         match find_mask t path with
         | Some _ => (say Release (B "Found key mask in the table while working on " ++ rel ++ B "; package.mo must be encrypted first"), Ok ((-1)%Z, t, key))
         | None =>
             lbind (if at_root path then ([], Ok (0%Z, t, key)) else mask_log g pr f t path key rnd) (fun '(ret, t1, key1) =>
             if (ret =? 0)%Z
             then (say g (B "mlle_mask_key: generated and stored mask for " ++ path ++ B " ") ++ log_key g pr rnd, Ok (1%Z, add_mask t t1 path rnd, key1))
             else (say Release (B "Unexpected key mask output when processing " ++ path), Ok ((-1)%Z, t1, key1)))
         end
       else
         match find_mask t path with
         | Some m => (say g (B "mlle_mask_key: applied key mask for " ++ rel ++ B " ") ++ log_key g pr (xor key m), Ok (0%Z, t, xor key m))
         | None =>
             lbind (if at_root path then ([], Ok (0%Z, t, zeros pr)) else mask_log g pr f t path (zeros pr) rnd) (fun '(ret, t1, m) =>
             if (ret =? 0)%Z
             then (say g (B "mlle_mask_key: storing mask based on parent for " ++ path ++ B " ") ++ log_key g pr m
                   ++ say g (B "mlle_mask_key: applied key mask for " ++ rel ++ B " ") ++ log_key g pr (xor key m), Ok (0%Z, add_mask t t1 path m, xor key m))
             else (say Release (B "Unexpected key mask output when processing " ++ path), Ok ((-1)%Z, t1, key)))
         end).
Proof. reflexivity. Qed.
Lemma mask_erase g pr rnd : forall fuel t rel key, snd (mask_log g pr fuel t rel key rnd) = mask_key pr fuel t rel key rnd.
Proof.
  induction fuel as [|f IH]; intros t rel key; [reflexivity|]. rewrite mask_log_S, mask_key_S. cbn [tell snd]. destruct (split_path rel) as [dir base]. cbv zeta.
  destruct (caseeq base PACKAGE_MO); (destruct (find_mask t _); [reflexivity|]); rewrite lbind_snd.
  all: destruct (at_root _); cbn [snd bind]; [reflexivity|rewrite IH; apply bind_ext; intros [[ret t1] k1]; now destruct (ret =? 0)%Z].
Qed.
Lemma cr_encrypt_erase g pr K t rel iv rnd file : snd (cr_encrypt_log g pr K t rel iv rnd file) = cr_encrypt pr K t rel iv rnd file.
Proof. unfold cr_encrypt_log, cr_encrypt. rewrite lbind_snd, mask_erase. apply bind_ext. now intros [[flag t1] key]. Qed.
Lemma encrypt_all_erase g pr K : forall fs t, snd (encrypt_all_log g pr K t fs) = encrypt_all pr K t fs.
Proof.
  induction fs as [|f fs IH]; intros t; [reflexivity|]. cbn [encrypt_all_log encrypt_all]. rewrite lbind_snd, cr_encrypt_erase. apply bind_ext. intros [t1 [out|]]; [|reflexivity].
  rewrite lbind_snd, IH. now apply bind_ext.
Qed.

Lemma decrypt_erase g pr K dm dm' t rel file : (forall t rel key, snd (dm t rel key) = dm' t rel key) -> snd (decrypt_log g pr K dm t rel file) = decrypt_with pr K dm' t rel file.
Proof.
  intros H. unfold decrypt_log, decrypt_with. rewrite lbind_snd, H. apply bind_ext. intros [[flag t1] key]. destruct (_ <? _); [reflexivity|]. cbv zeta. destruct (_ <? 0)%Z; [reflexivity|].
  destruct (evp_decrypt _ _ _ _) as [out|]; [|reflexivity]. destruct (beq _ _); [|reflexivity]. destruct (flag =? 0)%Z; [reflexivity|]. destruct (_ <? 0)%Z; [reflexivity|].
  rewrite lbind_snd. reflexivity.
Qed.
Lemma demask_log_S g f pr K disk basedir t rel key : demask_log g (S f) pr K disk basedir t rel key =
  (let dm := demask_log g f pr K disk basedir in
      let applied k := say g (B "mlle_demask_key: applied mask for " ++ rel) ++ log_key g pr k in
      tell (say g (B "mlle_demask_key: " ++ rel) ++ log_key g pr key)
      (let '(dir, base) := split_path rel in
       if caseeq base PACKAGE_MOC then
         match dir with
         | None => ([], Ok (1%Z, t, key))
         | Some d => lbind (dm t d key) (fun '(ret, t1, key1) => ([], Ok ((if (ret <? 0)%Z then (-1)%Z else 1%Z), t1, key1)))
         end
       else
         match find_mask t (match dir with Some d => d | None => [SLASH] end) with
         | Some m => (applied (xor key m), Ok (0%Z, t, xor key m))
         | None =>
             if NAME_MAX <? match dir with Some d => length d + 13 | None => 12 end then ([], UB OobWrite)
             else
               let pkg := match dir with Some d => d ++ B "/package.moc" | None => PACKAGE_MOC end in
               match disk (snprintf NAME_MAX (basedir ++ [SLASH] ++ pkg)) with
               | None => dm t pkg key
               | Some content =>
                   lbind (decrypt_log g pr K dm t pkg content) (fun '(t1, res, out) =>
                   if (0 <? res)%Z
                   then let k := xor key (firstn (p_len pr) (skipn (Z.to_nat res) out)) in (applied k, Ok (0%Z, t1, k))
                   else ([], Ok ((-1)%Z, t1, key)))
               end
         end)).
Proof. reflexivity. Qed.
Lemma demask_erase g pr K disk basedir : forall fuel t rel key, snd (demask_log g fuel pr K disk basedir t rel key) = demask_key fuel pr K disk basedir t rel key.
Proof.
  induction fuel as [|f IH]; intros t rel key; [reflexivity|]. rewrite demask_log_S, demask_S. cbv zeta. cbn [tell snd]. destruct (split_path rel) as [dir base].
  destruct (caseeq base PACKAGE_MOC).
  - destruct dir; [|reflexivity]. rewrite lbind_snd, IH. apply bind_ext. now intros [[ret t1] k1].
  - destruct (find_mask t _); [reflexivity|]. destruct (NAME_MAX <? _); [reflexivity|]. destruct (disk _) as [content|]; [|apply IH].
    rewrite lbind_snd, (decrypt_erase g pr K _ (demask_key f pr K disk basedir)) by (intros; apply IH). apply bind_ext. intros [[t1 res] out]. now destruct (0 <? res)%Z.
Qed.
Lemma cr_decrypt_erase g pr K disk basedir t rel file : snd (cr_decrypt_log g pr K disk basedir t rel file) = cr_decrypt pr K disk basedir t rel file.
Proof. unfold cr_decrypt_log, cr_decrypt. rewrite lbind_snd, (decrypt_erase g pr K _ (demask_key (2 * length rel + 4) pr K disk basedir)) by (intros; apply demask_erase). apply bind_ext. now intros [[t1 res] out]. Qed.
Lemma decrypt_all_erase g pr K disk basedir : forall reqs t, snd (decrypt_all_log g pr K disk basedir t reqs) = decrypt_all pr K disk basedir t reqs.
Proof.
  induction reqs as [|[rel file] reqs IH]; intros t; [reflexivity|]. cbn [decrypt_all_log decrypt_all]. rewrite lbind_snd, cr_decrypt_erase. apply bind_ext. intros [t1 o].
  rewrite lbind_snd, IH. now apply bind_ext.
Qed.

(** ** Lines *)

Lemma lbind_lines {A C} (P : bytes -> Prop) (m : logged A) (f : A -> logged C) : Forall P (fst m) -> (forall a, snd m = Ok a -> Forall P (fst (f a))) -> Forall P (fst (lbind m f)).
Proof. intros H1 H2. unfold lbind. destruct (snd m) eqn:E; cbn [fst]; [|exact H1..]. apply Forall_app. split; [exact H1|now apply H2]. Qed.
Lemma last_slash_split : forall s i, last_slash s = S i -> exists c, is_slash c = true /\ s = firstn (S i) s ++ c :: skipn (S (S i)) s.
Proof.
  induction s as [|x r IH]; intros i H; [discriminate|]. rewrite last_slash_cons in H. destruct (last_slash r) as [|j] eqn:E.
  - destruct r as [|y r']; [discriminate|]. destruct (is_slash y) eqn:Y; [|discriminate]. injection H as <-. exists y. now split.
  - injection H as <-. destruct (IH j eq_refl) as (c & Hc & Er). exists c. split; [exact Hc|]. cbn [firstn skipn app]. f_equal. exact Er.
Qed.
Lemma split_path_some rel d b : split_path rel = (Some d, b) -> exists c, In c [SLASH; BSLASH] /\ rel = d ++ c :: b.
Proof.
  unfold split_path. remember NAME_MAX as N eqn:EN. clear EN. destruct (last_slash (firstn N rel)) as [|i] eqn:E; [discriminate|]. intros H.
  assert (d = firstn (S i) rel /\ b = skipn (S (S i)) rel) as [-> ->] by (split; congruence). clear H.
  destruct (last_slash_split _ _ E) as (c & Hc & Er). exists c. split.
  - unfold is_slash in Hc. apply orb_prop in Hc. destruct Hc as [H|H]; apply Ascii.eqb_eq in H; subst c; cbn; auto.
  - assert (Li : S (S i) <= length (firstn N rel)).
    { clear - Er. remember (firstn N rel) as s eqn:Q. clear Q. apply (f_equal (@length _)) in Er. rewrite app_length, firstn_length in Er. cbn [length] in Er. rewrite skipn_length in Er. lia. }
    rewrite <- (firstn_skipn N rel). clear - Er Li. remember (firstn N rel) as a eqn:Ea. remember (skipn N rel) as z eqn:Ez. clear Ea Ez.
    rewrite firstn_app, skipn_app. replace (S i - length a) with 0 by lia. replace (S (S i) - length a) with 0 by lia. cbn [firstn]. rewrite app_nil_r.
    change (skipn 0 z) with z. rewrite app_comm_cons, app_assoc. f_equal. exact Er.
Qed.
Lemma part_trans rel p q : Part rel p -> Part p q -> Part rel q.
Proof. intros H. induction 1 as [|d c n _ IH I|d _ IH|]; [exact H|exact (Part_dir _ d c n IH I)|now apply Part_package|apply Part_top]. Qed.
Lemma decrypt_lines pr K dm t rel0 rel file : Part rel0 rel -> (forall t key, Forall (Line rel0) (fst (dm t rel key))) -> Forall (Line rel0) (fst (decrypt_log Release pr K dm t rel file)).
Proof.
  intros P H. apply lbind_lines; [apply H|]. intros [[flag t1] key] _. destruct (_ <? _); [constructor|]. cbv zeta. destruct (_ <? 0)%Z; [constructor|].
  destruct (evp_decrypt _ _ _ _) as [out|]; [|constructor]. destruct (beq _ _); [|constructor]. destruct (flag =? 0)%Z; [constructor|]. destruct (_ <? 0)%Z; [constructor|].
  apply lbind_lines; [|constructor]. unfold store_log. cbn [fst]. destruct (store_mask _ _ _) as [t2| |]; [|constructor..]. destruct (_ =? _); [constructor|].
  cbn [say log_key app]. apply Forall_cons; [|constructor]. rewrite <- !app_assoc. now apply Line_stored.
Qed.
Lemma demask_lines pr K disk basedir rel0 : forall fuel t rel key, Part rel0 rel -> Forall (Line rel0) (fst (demask_log Release fuel pr K disk basedir t rel key)).
Proof.
  induction fuel as [|f IH]; intros t rel key P; [constructor|]. rewrite demask_log_S. cbv zeta. cbn [tell fst]. apply Forall_app. split.
  { cbn [say log_key app]. apply Forall_cons; [|constructor]. rewrite <- !app_assoc. now apply Line_asked. }
  assert (A : forall k, Forall (Line rel0) (say Release (B "mlle_demask_key: applied mask for " ++ rel) ++ log_key Release pr k)).
  { intros k. cbn [say log_key app]. apply Forall_cons; [|constructor]. rewrite <- !app_assoc. now apply Line_applied. }
  destruct (split_path rel) as [dir base] eqn:Es.
  assert (Pd : forall d, dir = Some d -> Part rel0 d). { intros d ->. destruct (split_path_some _ _ _ Es) as (c & Hc & E). rewrite E in P. exact (Part_dir _ d c base P Hc). }
  destruct (caseeq base PACKAGE_MOC).
  - destruct dir as [d|]; [|constructor]. apply lbind_lines; [apply IH; now apply Pd|]. intros [[ret t1] k1] _. constructor.
  - destruct (find_mask t _); [apply A|]. destruct (NAME_MAX <? _); [constructor|].
    assert (Pp : Part rel0 (match dir with Some d => d ++ B "/package.moc" | None => PACKAGE_MOC end)) by (destruct dir as [d|]; [apply Part_package; now apply Pd|apply Part_top]).
    destruct (disk _) as [content|]; [|now apply IH]. apply lbind_lines; [apply decrypt_lines; [exact Pp|intros; now apply IH]|]. intros [[t1 res] out] _. destruct (0 <? res)%Z; [apply A|constructor].
Qed.
Lemma cr_decrypt_lines pr K disk basedir t rel file : Forall (Line rel) (fst (cr_decrypt_log Release pr K disk basedir t rel file)).
Proof. apply lbind_lines; [apply decrypt_lines; [apply Part_self|intros; apply demask_lines; apply Part_self]|]. intros [[t1 res] out] _. constructor. Qed.
Lemma session_lines pr K disk basedir : forall reqs t, Forall (fun l => exists rel file, In (rel, file) reqs /\ Line rel l) (fst (decrypt_all_log Release pr K disk basedir t reqs)).
Proof.
  induction reqs as [|[rel file] reqs IH]; intros t; [constructor|]. cbn [decrypt_all_log]. apply lbind_lines.
  - eapply Forall_impl; [|apply cr_decrypt_lines]. intros l H. exists rel, file. split; [now left|exact H].
  - intros [t1 o] _. apply lbind_lines; [|constructor]. eapply Forall_impl; [|apply IH]. intros l (r & fl & I & H). exists r, fl. split; [now right|exact H].
Qed.

(** Nothing is written without a log. *)
Lemma lbind_none {A C} (m : logged A) (f : A -> logged C) : fst m = [] -> (forall a, fst (f a) = []) -> fst (lbind m f) = [].
Proof. intros H1 H2. unfold lbind. destruct (snd m); cbn [fst]; rewrite ?H1, ?H2; reflexivity. Qed.
Lemma decrypt_off pr K dm t rel file : (forall t rel key, fst (dm t rel key) = []) -> fst (decrypt_log Off pr K dm t rel file) = [].
Proof.
  intros H. apply lbind_none; [apply H|]. intros [[flag t1] key]. destruct (_ <? _); [reflexivity|]. cbv zeta. destruct (_ <? 0)%Z; [reflexivity|].
  destruct (evp_decrypt _ _ _ _) as [out|]; [|reflexivity]. destruct (beq _ _); [|reflexivity]. destruct (flag =? 0)%Z; [reflexivity|]. destruct (_ <? 0)%Z; [reflexivity|].
  apply lbind_none; [|reflexivity]. unfold store_log. cbn [fst]. destruct (store_mask _ _ _) as [t2| |]; [|reflexivity..]. now destruct (_ =? _).
Qed.
Lemma demask_off pr K disk basedir : forall fuel t rel key, fst (demask_log Off fuel pr K disk basedir t rel key) = [].
Proof.
  induction fuel as [|f IH]; intros t rel key; [reflexivity|]. rewrite demask_log_S. cbv zeta. cbn [tell fst say log_key app]. destruct (split_path rel) as [dir base].
  destruct (caseeq base PACKAGE_MOC).
  - destruct dir as [d|]; [|reflexivity]. apply lbind_none; [apply IH|]. now intros [[ret t1] k1].
  - destruct (find_mask t _); [reflexivity|]. destruct (NAME_MAX <? _); [reflexivity|]. destruct (disk _) as [content|]; [|apply IH].
    apply lbind_none; [apply decrypt_off; intros; apply IH|]. intros [[t1 res] out]. now destruct (0 <? res)%Z.
Qed.
Lemma session_off pr K disk basedir : forall reqs t, fst (decrypt_all_log Off pr K disk basedir t reqs) = [].
Proof.
  induction reqs as [|[rel file] reqs IH]; intros t; [reflexivity|]. cbn [decrypt_all_log]. apply lbind_none.
  - apply lbind_none; [apply decrypt_off; intros; apply demask_off|]. now intros [[t1 res] out].
  - intros [t1 o]. apply lbind_none; [apply IH|reflexivity].
Qed.

(** ** Keys *)

Lemma hex_nibble n : n < 16 -> digit (hex_digit n) = Some n.
Proof. intros H. do 16 (destruct n as [|n]; [reflexivity|]). lia. Qed.
Lemma hex_read c : exists a b, hex_byte c = [a; b] /\ digit a = Some (nat_of_ascii c / 16) /\ digit b = Some (nat_of_ascii c mod 16).
Proof.
  exists (hex_digit (nat_of_ascii c / 16)), (hex_digit (nat_of_ascii c mod 16)). split; [reflexivity|]. pose proof (nat_ascii_bounded c). split; apply hex_nibble.
  - apply Nat.div_lt_upper_bound; lia.
  - apply Nat.mod_upper_bound. lia.
Qed.
Lemma hex_value c : ch (16 * (nat_of_ascii c / 16) + nat_of_ascii c mod 16) = c.
Proof. rewrite <- Nat.div_mod by lia. apply ascii_nat_embedding. Qed.
Lemma read_hex_key : forall key fuel, key <> [] -> length key <= fuel -> read_hex fuel (hex_key key ++ [LF]) = Some key.
Proof.
  induction key as [|c key IH]; intros fuel N L; [congruence|]. destruct fuel as [|f]; [cbn in L; lia|]. destruct (hex_read c) as (a & b & E & Da & Db).
  destruct key as [|c' key].
  - cbn [hex_key]. rewrite E. cbn [app read_hex]. rewrite Da, Db, Ascii.eqb_refl, hex_value. reflexivity.
  - change (hex_key (c :: c' :: key)) with (hex_byte c ++ [ch 58] ++ hex_key (c' :: key)). rewrite E. rewrite <- !app_assoc. cbn [app]. remember (hex_key (c' :: key) ++ [LF]) as r eqn:Er.
    assert (Nr : r <> []) by (rewrite Er; destruct (hex_key (c' :: key)); discriminate).
    cbn [read_hex]. rewrite Da, Db. destruct r as [|y r']; [congruence|]. rewrite Ascii.eqb_refl, hex_value, IH; [reflexivity|discriminate|cbn in *; lia].
Qed.
Lemma hex_key_length key : length key <= length (hex_key key).
Proof. induction key as [|c [|c' key] IH]; [cbn; lia..|]. change (hex_key (c :: c' :: key)) with (hex_byte c ++ [ch 58] ++ hex_key (c' :: key)). rewrite !app_length. cbn [length] in *. lia. Qed.
Lemma read_log_key pr K : 0 < p_len pr -> p_len pr <= length K -> exists line, log_key Debug pr K = [line] /\ read_key line = Some (firstn (p_len pr) K).
Proof.
  intros P L. eexists. split; [reflexivity|]. assert (L' : p_len pr = length (firstn (p_len pr) K)) by (rewrite firstn_length; lia).
  remember (firstn (p_len pr) K) as key eqn:Q. clear Q L. rename L' into L. unfold read_key. change (firstn 5 (B "key: " ++ hex_key key ++ [LF])) with (B "key: "). rewrite beq_refl.
  change (skipn 5 (B "key: " ++ hex_key key ++ [LF])) with (hex_key key ++ [LF]). apply read_hex_key; [intros ->; cbn in L; lia|]. rewrite !app_length. pose proof (hex_key_length key). lia.
Qed.
Lemma decrypt_shows pr K disk basedir t rel file : 0 < p_len pr -> p_len pr <= length K -> exists line, In line (fst (cr_decrypt_log Debug pr K disk basedir t rel file)) /\ read_key line = Some (firstn (p_len pr) K).
Proof.
  intros P L. destruct (read_log_key pr K P L) as (line & E & R). exists line. split; [|exact R].
  assert (I1 : In line (fst (demask_log Debug (2 * length rel + 4) pr K disk basedir t rel K))).
  { replace (2 * length rel + 4) with (S (2 * length rel + 3)) by lia. rewrite demask_log_S. cbv zeta. cbn [tell fst]. rewrite E. apply in_app_iff. left. apply in_app_iff. right. now left. }
  assert (LB : forall A C (m : logged A) (f : A -> logged C), In line (fst m) -> In line (fst (lbind m f))).
  { intros A C m f I. unfold lbind. destruct (snd m); cbn [fst]; [|exact I..]. apply in_app_iff. now left. }
  apply LB. unfold decrypt_log. apply LB. exact I1.
Qed.
Lemma encrypt_shows pr K t rel iv rnd file : 0 < p_len pr -> p_len pr <= length K -> exists line, In line (fst (cr_encrypt_log Debug pr K t rel iv rnd file)) /\ read_key line = Some (firstn (p_len pr) K).
Proof.
  intros P L. destruct (read_log_key pr K P L) as (line & E & R). exists line. split; [|exact R].
  assert (LB : forall A C (m : logged A) (f : A -> logged C), In line (fst m) -> In line (fst (lbind m f))).
  { intros A C m f I. unfold lbind. destruct (snd m); cbn [fst]; [|exact I..]. apply in_app_iff. now left. }
  apply LB. rewrite mask_log_S. cbn [tell fst]. rewrite E. apply in_app_iff. left. apply in_app_iff. right. now left.
Qed.

(** ** Packaging: the output depends on names only *)

Lemma find_same t1 t2 p : map fst t1 = map fst t2 -> (find_mask t1 p = None <-> find_mask t2 p = None).
Proof.
  revert t2. induction t1 as [|[q m] t1 IH]; intros [|[q' m'] t2] E; try discriminate; [tauto|]. cbn [map fst] in E. injection E as <- E. cbn [find_mask]. destruct (beq q p); [split; discriminate|now apply IH].
Qed.
Lemma add_same l1 l2 t1 t2 p m1 m2 : map fst l1 = map fst l2 -> map fst t1 = map fst t2 -> map fst (add_mask l1 t1 p m1) = map fst (add_mask l2 t2 p m2).
Proof. intros El Et. unfold add_mask. destruct l1, l2; try discriminate; [reflexivity|]. rewrite !map_app, Et. reflexivity. Qed.
Lemma xor_len a : forall b, length (xor a b) = length a.
Proof. induction a as [|x a IH]; intros [|y b]; cbn [xor length]; auto. Qed.
(** Both end alike. *)
Definition Alike (n1 n2 : nat) (m1 m2 : logged (Z * table * bytes)) : Prop :=
  fst m1 = fst m2 /\ ((exists r (t1 t2 : table) k1 k2, snd m1 = Ok (r, t1, k1) /\ snd m2 = Ok (r, t2, k2) /\ map fst t1 = map fst t2 /\ length k1 = n1 /\ length k2 = n2) \/ (snd m1 = Blocked /\ snd m2 = Blocked)).
Lemma alike_bind a b n1 n2 m1 m2 f1 f2 : Alike a b m1 m2 ->
  (forall r (u1 u2 : table) j1 j2, map fst u1 = map fst u2 -> length j1 = a -> length j2 = b -> Alike n1 n2 (f1 (r, u1, j1)) (f2 (r, u2, j2))) -> Alike n1 n2 (lbind m1 f1) (lbind m2 f2).
Proof.
  intros [R1 [(r & u1 & u2 & j1 & j2 & S1 & S2 & Eu & L1 & L2)|[S1 S2]]] H; unfold lbind; rewrite S1, S2; [|split; [exact R1|now right]].
  destruct (H r u1 u2 j1 j2 Eu L1 L2) as [H1 H2]. split; [cbn [fst]; now rewrite R1, H1|exact H2].
Qed.
Lemma alike_ok n1 n2 l r (t1 t2 : table) k1 k2 : map fst t1 = map fst t2 -> length k1 = n1 -> length k2 = n2 -> Alike n1 n2 (l, Ok (r, t1, k1)) (l, Ok (r, t2, k2)).
Proof. intros E L1 L2. split; [reflexivity|]. left. exists r, t1, t2, k1, k2. auto. Qed.
Lemma mask_alike pr1 pr2 rnd1 rnd2 : forall fuel t1 t2 rel k1 k2, map fst t1 = map fst t2 ->
  Alike (length k1) (length k2) (mask_log Release pr1 fuel t1 rel k1 rnd1) (mask_log Release pr2 fuel t2 rel k2 rnd2).
Proof.
  induction fuel as [|f IH]; intros t1 t2 rel k1 k2 E; [split; [reflexivity|now right]|]. rewrite !mask_log_S. cbn [log_key]. rewrite !app_nil_r.
  assert (T : forall l m1 m2 n1 n2, Alike n1 n2 m1 m2 -> Alike n1 n2 (tell l m1) (tell l m2)).
  { intros l m1 m2 n1 n2 [H1 H2]. split; [cbn [tell fst]; now rewrite H1|exact H2]. }
  apply T. destruct (split_path rel) as [dir base]. cbv zeta. set (path := match dir with Some d => d | None => [SLASH] end). pose proof (find_same t1 t2 path E) as Fs.
  destruct (caseeq base PACKAGE_MO).
  - destruct (find_mask t1 path) as [m1|], (find_mask t2 path) as [m2|]; [now apply alike_ok|now pose proof (proj2 Fs eq_refl)|now pose proof (proj1 Fs eq_refl)|].
    apply (alike_bind (length k1) (length k2)); [destruct (at_root path); [now apply alike_ok|now apply IH]|]. intros r u1 u2 j1 j2 Eu L1 L2.
    destruct (r =? 0)%Z; apply alike_ok; auto using add_same.
  - destruct (find_mask t1 path) as [m1|], (find_mask t2 path) as [m2|]; [apply alike_ok; auto using xor_len|now pose proof (proj2 Fs eq_refl)|now pose proof (proj1 Fs eq_refl)|].
    apply (alike_bind (length (zeros pr1)) (length (zeros pr2))); [destruct (at_root path); [now apply alike_ok|now apply IH]|]. intros r u1 u2 j1 j2 Eu L1 L2.
    destruct (r =? 0)%Z; apply alike_ok; auto using add_same, xor_len.
Qed.
Lemma encrypt_runs pr key iv file (mask : option bytes) : GoodPrimitives pr -> length key = 32 -> length iv = 16 -> (forall m, mask = Some m -> length m = p_len pr) ->
  exists out, encrypt_with pr key iv file mask = Ok out.
Proof. intros G L Li Lm. destruct (encrypt_with_sealed pr key iv file mask G L Li Lm) as (out & E & _). now exists out. Qed.
Lemma packaging_alike pr1 pr2 K1 K2 : GoodPrimitives pr1 -> GoodPrimitives pr2 -> length K1 = 32 -> length K2 = 32 ->
  forall fs1 fs2 t1 t2, map f_rel fs1 = map f_rel fs2 -> map fst t1 = map fst t2 ->
  Forall (fun f => length (f_iv f) = 16 /\ length (f_mask f) = p_len pr1) fs1 -> Forall (fun f => length (f_iv f) = 16 /\ length (f_mask f) = p_len pr2) fs2 ->
  fst (encrypt_all_log Release pr1 K1 t1 fs1) = fst (encrypt_all_log Release pr2 K2 t2 fs2).
Proof.
  intros G1 G2 L1 L2. induction fs1 as [|f1 fs1 IH]; intros [|f2 fs2] t1 t2 En Et F1 F2; try discriminate; [reflexivity|]. cbn [map] in En. injection En as Er En.
  apply Forall_cons_iff in F1, F2. destruct F1 as [[I1 M1] F1], F2 as [[I2 M2] F2]. cbn [encrypt_all_log]. unfold cr_encrypt_log. rewrite Er.
  destruct (mask_alike pr1 pr2 (f_mask f1) (f_mask f2) (S (length (f_rel f2))) t1 t2 (f_rel f2) K1 K2 Et) as [R1 [(r & u1 & u2 & j1 & j2 & S1 & S2 & Eu & N1 & N2)|[S1 S2]]].
  2:{ unfold lbind. rewrite S1, S2. cbn [fst snd]. now rewrite R1. }
  rewrite L1 in N1. rewrite L2 in N2.
  destruct (encrypt_runs pr1 j1 (f_iv f1) (f_data f1) (if (r =? 0)%Z then None else Some (f_mask f1)) G1 N1 I1) as (o1 & E1). { destruct (r =? 0)%Z; [discriminate|]. now intros m [= <-]. }
  destruct (encrypt_runs pr2 j2 (f_iv f2) (f_data f2) (if (r =? 0)%Z then None else Some (f_mask f2)) G2 N2 I2) as (o2 & E2). { destruct (r =? 0)%Z; [discriminate|]. now intros m [= <-]. }
  unfold lbind. rewrite S1, S2, E1, E2. cbn [bind fst snd]. rewrite R1. destruct (r <? 0)%Z; cbn [fst snd]; [reflexivity|].
  pose proof (IH fs2 u1 u2 En Eu F1 F2) as H. f_equal. destruct (snd (encrypt_all_log Release pr1 K1 u1 fs1)), (snd (encrypt_all_log Release pr2 K2 u2 fs2)); cbn [fst]; rewrite ?app_nil_r; exact H.
Qed.
