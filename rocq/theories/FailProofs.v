(** Proofs about the decryptor when calls fail. *)
From Verif Require Import Base BaseProofs WireModel CryptModel CryptSpec CbcProofs MaskProofs DemaskProofs CryptProofs MemModel MemSpec MemProofs FailModel FailMem FailSpec.
From Coq Require Import Permutation.

Definition vt {A} (m : T A) (post : A -> Prop) : Prop := forall n, post (snd (fst (m n))).
Lemma v_bind {A C} (m : T A) (f : A -> T C) mid post : vt m mid -> (forall a, mid a -> vt (f a) post) -> vt (tbind m f) post.
Proof.
  intros H1 H2 n. unfold tbind. specialize (H1 n). destruct (m n) as [[t1 a] n1]. cbn [fst snd] in H1. specialize (H2 a H1 n1).
  destruct (f a n1) as [[t2 b] n2]. exact H2.
Qed.
Lemma v_ret {A} (a : A) (post : A -> Prop) : post a -> vt (tret a) post.
Proof. intros H n. exact H. Qed.
Lemma v_call {C} (ok : oracle) (f : bool -> T C) (post : C -> Prop) : (forall n, vt (f (ok n)) post) -> vt (tbind (call ok) f) post.
Proof. intros H n. unfold tbind, call. specialize (H n (S n)). destruct (f (ok n) (S n)) as [[t b] n']. exact H. Qed.
Lemma v_obtain {C} (ok : oracle) (f : option res -> T C) (post : C -> Prop) : (forall n, vt (f (if ok n then Some (Block n) else None)) post) -> vt (tbind (obtain ok) f) post.
Proof. intros H n. unfold tbind, obtain. specialize (H n (S n)). destruct (ok n); destruct (f _ (S n)) as [[t b] n']; exact H. Qed.
Lemma v_malloc {C} (f : option res -> T C) (post : C -> Prop) : (forall n, vt (f (Some (Block n))) post) -> vt (tbind (malloc true) f) post.
Proof. intros H n. unfold tbind, malloc. specialize (H n (S n)). destruct (f _ (S n)) as [[t b] n']; exact H. Qed.
Lemma v_fopen {C} (f : res -> T C) (post : C -> Prop) : (forall n, vt (f (Stream n)) post) -> vt (tbind fopen f) post.
Proof. intros H n. unfold tbind, fopen. specialize (H n (S n)). destruct (f _ (S n)) as [[t b] n']; exact H. Qed.
Lemma v_touch {C} p (f : unit -> T C) (post : C -> Prop) : vt (f tt) post -> vt (tbind (touch p) f) post.
Proof. intros H n. unfold tbind, touch. specialize (H n). destruct p; destruct (f tt n) as [[t b] n']; exact H. Qed.
Lemma v_release {C} p (f : unit -> T C) (post : C -> Prop) : vt (f tt) post -> vt (tbind (release p) f) post.
Proof. intros H n. unfold tbind, release. specialize (H n). destruct p; destruct (f tt n) as [[t b] n']; exact H. Qed.
Lemma v_fbind {A C} (m : F A) (f : A -> F C) (mid : outcome A -> Prop) post :
  vt m mid -> (forall a, mid (Ok a) -> vt (f a) post) -> (forall k, mid (UB k) -> post (UB k)) -> (mid Blocked -> post Blocked) -> vt (fbind m f) post.
Proof.
  intros H1 H2 H3 H4. apply (v_bind _ _ mid); [exact H1|]. intros [a|k|] Q; [now apply H2|apply v_ret; auto..].
Qed.
Lemma v_weak {A} (m : T A) (post post' : A -> Prop) : vt m post -> (forall a, post a -> post' a) -> vt m post'.
Proof. intros H W n. apply W, H. Qed.
Lemma v_assoc {A C E} (m : T A) (f : A -> T C) (g : C -> T E) post :
  vt (tbind m (fun a => tbind (f a) g)) post -> vt (tbind (tbind m f) g) post.
Proof.
  intros H n. specialize (H n). unfold tbind in *. destruct (m n) as [[t1 a] n1].
  destruct (f a n1) as [[t2 b] n2]. destruct (g b n2) as [[t3 c] n3]. exact H.
Qed.
Lemma v_skip {A C} (a : A) (f : A -> T C) post : vt (f a) post -> vt (tbind (tret a) f) post.
Proof. intros H n. specialize (H n). unfold tbind, tret. destruct (f a n) as [[t b] n']. exact H. Qed.

Ltac vs := repeat first [apply v_touch | apply v_release].

Definition rmap {A C} (g : A -> C) (o : outcome A) : outcome C := match o with Ok a => Ok (g a) | UB k => UB k | Blocked => Blocked end.
Lemma find_plain t p : find_mask (plain t) p = match find_item t p with Some (m, _) => Some m | None => None end.
Proof. induction t as [|[[q m] b] t IH]; [reflexivity|]. cbn [plain map fst find_mask find_item]. destruct (beq q p); [reflexivity|exact IH]. Qed.
Lemma plain_app t u : plain (t ++ u) = plain t ++ plain u. Proof. apply map_app. Qed.

(** ** reading *)
Lemma error_new_v {C} (ok : oracle) (f : _ -> T C) (post : C -> Prop) : (forall e, (e = None -> exists n, ok n = false) -> vt (f e) post) -> vt (tbind (f_error_new ok) f) post.
Proof.
  intros H. unfold f_error_new. apply v_assoc, v_obtain. intros n. destruct (ok n) eqn:O.
  - apply v_assoc. vs. apply v_assoc, v_obtain. intros n1. apply v_assoc. vs. apply v_skip, H. discriminate.
  - apply v_skip, H. intros _. now exists n.
Qed.
Lemma error_free_v {C} e (f : unit -> T C) (post : C -> Prop) : vt (f tt) post -> vt (tbind (f_error_free e) f) post.
Proof.
  intros H. destruct e as [[o t]|]; [|now apply v_skip]. cbn [f_error_free]. apply v_assoc. vs. apply v_assoc. vs. exact H.
Qed.
(** Either the file is read, or an error is reported, or the error object could not be made. *)
Lemma read_v ok file : vt (f_read ok file) (fun '(b, e) =>
  (exists p c, b = Some (p, c) /\ file = Some c /\ e = None) \/
  (b = None /\ (e <> None \/ exists n, ok n = false) /\ (file = None \/ exists n, ok n = false))).
Proof.
  assert (Fail : (file = None \/ exists n, ok n = false) -> vt (take e <- f_error_new ok ; tret (@None (res * bytes), e))
    (fun '(b, e) => (exists p c, b = Some (p, c) /\ file = Some c /\ e = None) \/
      (b = None /\ (e <> None \/ exists n, ok n = false) /\ (file = None \/ exists n, ok n = false)))).
  { intros W. apply error_new_v. intros e He. apply v_ret. right. split; [reflexivity|]. split; [|exact W].
    destruct e as [e|]; [left; discriminate|right; auto]. }
  destruct file as [content|]; cbn [f_read]; [|apply Fail; now left].
  apply v_call. intros n1. destruct (ok n1) eqn:O1; [|apply Fail; right; now exists n1].
  apply v_fopen. intros s. apply v_call. intros n2. destruct (ok n2) eqn:O2; [|apply Fail; right; now exists n2].
  apply v_obtain. intros n3. destruct (ok n3) eqn:O3; [|apply Fail; right; now exists n3].
  vs. apply v_call. intros n4. destruct (ok n4) eqn:O4.
  - vs. apply v_ret. left. now exists (Block n3), content.
  - apply error_new_v. intros e He. vs. apply v_ret. right. split; [reflexivity|]. split; right; now exists n4.
Qed.

(** ** opening *)
Lemma cbc_opens pr key n : forall chain s, length s = n * BLOCK ->
  exists cs bs, concat cs = s /\ Forall (fun c => length c = 16) cs /\ CbcOpen pr key chain cs bs /\ concat bs = cbc_decrypt pr key n chain s.
Proof.
  induction n as [|n IH]; intros chain s L.
  - destruct s; [|discriminate]. exists [], []. repeat split; constructor.
  - destruct (IH (firstn BLOCK s) (skipn BLOCK s)) as (cs & bs & E & Fa & O & Eb); [rewrite skipn_length; cbn in L; unfold BLOCK in *; lia|].
    exists (firstn BLOCK s :: cs), (xor (p_dec pr key (firstn BLOCK s)) chain :: bs). cbn [concat cbc_decrypt]. rewrite E, Eb. split; [apply firstn_skipn|].
    split; [constructor; [rewrite firstn_length; cbn in L; unfold BLOCK in *; lia|exact Fa]|]. split; [now constructor|reflexivity].
Qed.
Lemma unpad_inv s o : unpad s = Some o -> exists k, 1 <= k <= 16 /\ s = o ++ repeat (ch k) k.
Proof.
  unfold unpad. destruct (last_byte s) as [c|]; [|discriminate]. cbn zeta.
  destruct ((1 <=? nat_of_ascii c) && (nat_of_ascii c <=? BLOCK) && beq (skipn (length s - nat_of_ascii c) s) (repeat c (nat_of_ascii c))) eqn:E; [|discriminate].
  intros [= <-]. apply andb_true_iff in E. destruct E as [E Eb]. apply andb_true_iff in E. destruct E as [E1 E2]. apply Nat.leb_le in E1, E2. apply beq_true in Eb.
  exists (nat_of_ascii c). split; [unfold BLOCK in E2; lia|]. unfold ch. rewrite ascii_nat_embedding, <- Eb. now rewrite firstn_skipn.
Qed.
Lemma opens_file pr key file out : (0 <=? to_int (zlen file - Z.of_nat BLOCK - Z.of_nat MAC_LEN))%Z = true -> BLOCK <= length file + 1 ->
  evp_decrypt pr key (firstn BLOCK (file ++ [NUL])) (firstn (Z.to_nat (to_int (zlen file - Z.of_nat BLOCK - Z.of_nat MAC_LEN))) (skipn BLOCK file)) = Some out ->
  beq (mac_of pr key (firstn BLOCK (file ++ [NUL]) ++ out)) (skipn (length file - MAC_LEN) file) = true ->
  (zlen file < 2^31)%Z -> Opens pr key file out.
Proof.
  intros X L D M Lt. apply Z.leb_le in X. apply beq_true in M.
  assert (Lf : 48 <= length file).
  { destruct (Nat.le_gt_cases 48 (length file)) as [|Q]; [assumption|]. exfalso. unfold to_int, zlen, BLOCK, MAC_LEN in X.
    rewrite Z.mod_small in X; change (2^31)%Z with 2147483648%Z in *; change (2^32)%Z with 4294967296%Z in *; lia. }
  assert (Ti : to_int (zlen file - Z.of_nat BLOCK - Z.of_nat MAC_LEN) = (zlen file - 48)%Z).
  { unfold to_int, BLOCK, MAC_LEN. unfold zlen in *. change (2^31)%Z with 2147483648%Z in *. change (2^32)%Z with 4294967296%Z in *. rewrite Z.mod_small; lia. }
  rewrite Ti in *. replace (Z.to_nat (zlen file - 48)) with (length file - 48) in D by (unfold zlen; lia).
  assert (Fi : firstn BLOCK (file ++ [NUL]) = firstn BLOCK file).
  { rewrite firstn_app. replace (BLOCK - length file) with 0 by (unfold BLOCK; lia). cbn [firstn]. apply app_nil_r. }
  rewrite Fi in *. unfold evp_decrypt in D. set (ct := firstn (length file - 48) (skipn BLOCK file)) in *.
  destruct ((length ct =? 0) || negb (length ct mod BLOCK =? 0)) eqn:Q; [discriminate|]. apply orb_false_iff in Q. destruct Q as [_ Q].
  apply negb_false_iff, Nat.eqb_eq in Q.
  destruct (cbc_opens pr key (length ct / BLOCK) (firstn BLOCK file) ct) as (cs & bs & E & Fa & O & Eb).
  { rewrite Nat.mul_comm. apply Nat.div_exact; [discriminate|exact Q]. }
  rewrite <- Eb in D. destruct (unpad_inv _ _ D) as (k & Hk & Ek).
  exists (firstn BLOCK file), cs, bs, k. split.
  { rewrite E. change Mac with mac_of. rewrite M. rewrite <- (firstn_skipn BLOCK file) at 1. f_equal.
    rewrite <- (firstn_skipn (length file - 48) (skipn BLOCK file)) at 1. fold ct. f_equal. rewrite skipn_twice. f_equal. unfold BLOCK, MAC_LEN. lia. }
  split; [rewrite firstn_length; unfold BLOCK; lia|]. auto.
Qed.

Definition const (flag : Z) (t : table) (key : bytes) : table -> bytes -> bytes -> outcome (Z * table * bytes) := fun _ _ _ => Ok (flag, t, key).

Lemma store_v ok t rel mask : vt (f_store ok t rel mask) (fun o =>
  match o with
  | Ok (Some t2) => store_mask (plain t) rel mask = Ok (plain t2)
  | Ok None => exists n, ok n = false
  | UB k => store_mask (plain t) rel mask = UB k
  | Blocked => False
  end).
Proof.
  unfold f_store, store_mask. destruct (_ <? 0)%Z; [now apply v_ret|]. destruct (_ <=? _)%Z; [now apply v_ret|]. rewrite find_plain.
  destruct (find_item t _) as [[m b]|]; [vs; now apply v_ret|]. apply v_obtain. intros n. destruct (ok n) eqn:O.
  - vs. apply v_ret. now rewrite plain_app.
  - apply v_ret. now exists n.
Qed.

(** (a file longer than any buffer need not open.) *)
Definition Opened (pr : primitives) (key file : bytes) : Prop := (zlen file < 2^31)%Z -> exists data, Opens pr key file data.

(** What follows once the key is known: as without failures, or -1 with the table as it was. *)
Lemma open_v ok pr K cc hc flag t rel key ip file outp :
  vt (f_open ok pr cc hc flag t rel key (ip, file) outp) (fun o =>
    match o with
    | Ok (t2, r, out, _) =>
        (r = (-1)%Z /\ t2 = t /\ ((exists n, ok n = false) \/ decrypt_with pr K (const flag (plain t) key) (plain t) rel file = Ok (plain t, (-1)%Z, []) /\ out = [])) \/
        (decrypt_with pr K (const flag (plain t) key) (plain t) rel file = Ok (plain t2, r, out) /\ Opened pr key file)
    | UB k => decrypt_with pr K (const flag (plain t) key) (plain t) rel file = UB k /\ (length file < 15 \/ Opened pr key file)
    | Blocked => False
    end).
Proof.
  unfold f_open, decrypt_with, const. cbn [bind].
  destruct (length file + 1 <? BLOCK) eqn:Lb.
  { apply v_ret. split; [reflexivity|]. left. apply Nat.ltb_lt in Lb. unfold BLOCK in Lb. lia. }
  apply Nat.ltb_ge in Lb.
  assert (Fail : forall mac, (exists n, ok n = false) -> vt (fret (t, (-1)%Z, [] : bytes, mac : option res)) (fun o =>
    match o with
    | Ok (t2, r, out, _) =>
        (r = (-1)%Z /\ t2 = t /\ ((exists n, ok n = false) \/ decrypt_with pr K (const flag (plain t) key) (plain t) rel file = Ok (plain t, (-1)%Z, []) /\ out = [])) \/
        (decrypt_with pr K (const flag (plain t) key) (plain t) rel file = Ok (plain t2, r, out) /\ Opened pr key file)
    | UB k => decrypt_with pr K (const flag (plain t) key) (plain t) rel file = UB k /\ (length file < 15 \/ Opened pr key file)
    | Blocked => False
    end)).
  { intros mac W. apply v_ret. left. split; [reflexivity|]. split; [reflexivity|now left]. }
  unfold decrypt_with, const in Fail. cbn [bind] in Fail. rewrite (proj2 (Nat.ltb_ge _ _) Lb) in Fail.
  vs. apply v_call. intros n1. destruct (ok n1) eqn:O1; [|apply Fail; now exists n1].
  apply v_obtain. intros n2. destruct (ok n2) eqn:O2; [|apply Fail; now exists n2].
  vs. apply v_call. intros n3. destruct (ok n3) eqn:O3; [|apply Fail; now exists n3].
  apply v_call. intros n4. destruct (ok n4) eqn:O4; [|apply Fail; now exists n4].
  vs. apply v_call. intros n5. destruct (ok n5) eqn:O5; [|apply Fail; now exists n5]. cbn [andb].
  rewrite Z.ltb_antisym in *. destruct (0 <=? to_int _)%Z eqn:X; cbn [negb] in *.
  2:{ apply v_ret. left. auto 6. }
  apply v_call. intros n6. destruct (evp_decrypt pr key _ _) as [out|] eqn:De.
  2:{ apply v_ret. left. auto 6. }
  destruct (ok n6) eqn:O6; [|apply Fail; now exists n6]. vs. apply v_call. intros n7. destruct (ok n7) eqn:O7; [|apply Fail; now exists n7].
  apply v_call. intros n8. vs. destruct (ok n8) eqn:O8; [|apply Fail; now exists n8]. cbn [andb].
  destruct (beq (mac_of pr key _) _) eqn:M.
  2:{ apply v_ret. left. auto 6. }
  assert (Op : Opened pr key file) by (intros Lt; exists out; exact (opens_file pr key file out X Lb De M Lt)).
  destruct (flag =? 0)%Z; [apply v_ret; right; split; [reflexivity|exact Op]|].
  destruct (_ <? 0)%Z; [apply v_ret; split; [reflexivity|right; exact Op]|]. vs.
  eapply v_fbind; [apply store_v| | |intros []].
  - intros [t2|] St; [apply v_ret; right; split; [now rewrite St|exact Op]|now apply Fail].
  - intros k St. split; [now rewrite St|right; exact Op].
Qed.

(** ** without failures *)
Definition never : oracle := fun _ => true.

Lemma decrypt_value pr K (dm : cached -> bytes -> bytes -> F (Z * cached * bytes)) dm' t rel i file o :
  vt (dm t rel K) (fun v => rmap (fun '(r, t1, k) => (r, plain t1, k)) v = dm' (plain t) rel K) ->
  vt (f_decrypt never pr K dm t rel (Some (i, file)) o)
     (fun v => rmap (fun '(t1, r, out) => (plain t1, r, out)) v = decrypt_with pr K dm' (plain t) rel file).
Proof.
  intros D. unfold f_decrypt. apply v_obtain. intros n1. apply v_obtain. intros n2. cbn [never]. vs.
  eapply v_fbind; [exact D| | |].
  - intros [[flag t1] key] E. cbn [rmap] in E. eapply v_fbind; [apply (open_v never pr K)| | |intros []].
    + intros [[[t2 r] out] mac] Q. vs. apply v_ret. cbn [rmap]. unfold decrypt_with at 1. rewrite <- E. cbn [bind].
      destruct Q as [(-> & -> & [[x X]|[Q ->]])|[Q _]]; [discriminate X| |]; unfold decrypt_with, const in Q; cbn [bind] in Q; symmetry; exact Q.
    + intros k [Q _]. cbn [rmap]. unfold decrypt_with at 1. rewrite <- E. cbn [bind]. unfold decrypt_with, const in Q; cbn [bind] in Q; symmetry; exact Q.
  - intros k E. cbn [rmap] in *. unfold decrypt_with. now rewrite <- E.
  - intros E. cbn [rmap] in *. unfold decrypt_with. now rewrite <- E.
Qed.

Lemma demask_value pr K disk basedir : forall fuel t rel key,
  vt (f_demask fuel never pr K disk basedir t rel key)
     (fun v => rmap (fun '(r, t1, k) => (r, plain t1, k)) v = demask_key fuel pr K disk basedir (plain t) rel key).
Proof.
  induction fuel as [|f IH]; intros t rel key; [now apply v_ret|]. rewrite demask_S. cbn [f_demask]. cbn zeta.
  destruct (split_path rel) as [dir base]. destruct (caseeq base PACKAGE_MOC).
  - destruct dir as [d|]; [|now apply v_ret]. eapply v_fbind; [apply IH| | |]; cbn [rmap].
    + intros [[ret t1] key1] E. apply v_ret. rewrite <- E. reflexivity.
    + intros k E. now rewrite <- E.
    + intros E. now rewrite <- E.
  - rewrite find_plain. destruct (find_item t _) as [[m b]|]; [vs; now apply v_ret|].
    destruct (NAME_MAX <? _); [now apply v_ret|].
    set (pkg := match dir with Some d => d ++ B "/package.moc" | None => PACKAGE_MOC end). clearbody pkg.
    eapply v_bind; [apply read_v|]. intros [buf err] Q. cbn beta iota.
    destruct Q as [(p & c & -> & Ef & ->)|(-> & [Q|[x X]] & [Ef|[y Y]])]; try discriminate X; try discriminate Y.
    + rewrite Ef. apply v_obtain. intros n. cbn [never]. eapply v_fbind; [apply decrypt_value, IH| | |]; cbn [rmap].
      * intros [[t1 r] text] E. vs. rewrite <- E. cbn [bind]. destruct (0 <? r)%Z; now apply v_ret.
      * intros k E. now rewrite <- E.
      * intros E. now rewrite <- E.
    + rewrite Ef. destruct err as [e|]; [|congruence]. eapply v_fbind; [apply IH| | |auto]; cbn [rmap].
      * intros [[r t1] k1] E. apply error_free_v, v_ret. exact E.
      * intros k E. exact E.
Qed.

Lemma request_value pr K disk basedir t rel file :
  vt (f_request never pr K disk basedir t rel file)
     (fun v => rmap (fun '(t1, a) => (plain t1, a)) v = cr_decrypt pr K disk basedir (plain t) rel file).
Proof.
  unfold f_request, cr_decrypt. apply v_malloc. intros n1. apply v_malloc. intros n2.
  eapply v_fbind; [apply decrypt_value, demask_value| | |]; cbn [rmap].
  - intros [[t1 r] out] E. vs. apply v_ret. rewrite <- E. reflexivity.
  - intros k E. now rewrite <- E.
  - intros E. now rewrite <- E.
Qed.
Lemma requests_value pr K disk basedir : forall reqs t,
  vt (f_requests never pr K disk basedir t reqs) (fun v => rmap snd v = decrypt_all pr K disk basedir (plain t) reqs).
Proof.
  induction reqs as [|[rel file] reqs IH]; intros t; cbn [f_requests decrypt_all]; [now apply v_ret|].
  eapply v_fbind; [apply request_value| | |]; cbn [rmap].
  - intros [t1 a] E. rewrite <- E. cbn [bind]. eapply v_fbind; [apply IH| | |]; cbn [rmap].
    + intros [t2 answers] E2. apply v_ret. cbn [snd] in E2. now rewrite <- E2.
    + intros k E2. now rewrite <- E2.
    + intros E2. now rewrite <- E2.
  - intros k E. now rewrite <- E.
  - intros E. now rewrite <- E.
Qed.

(** ** with failures *)

(** What the table holds: masks of directories, each once. *)
Definition CacheOk (fs : list entry) (t : table) : Prop :=
  (forall p m, In (p, m) t -> exists a, Forall Name a /\ p = dirstr a /\ HasMask fs a m) /\ NoDup (map fst t).
Lemma find_in t p m : find_mask t p = Some m -> In (p, m) t.
Proof.
  induction t as [|[q v] t IH]; [discriminate|]. cbn [find_mask]. destruct (beq_spec q p) as [->|]; [intros [= ->]; now left|intros H; right; auto].
Qed.
Lemma find_none_in t p : find_mask t p = None -> ~ In p (map fst t).
Proof.
  induction t as [|[q v] t IH]; [auto|]. cbn [find_mask map fst]. destruct (beq_spec q p) as [|N]; [discriminate|]. intros H [E|I]; [contradiction|now apply IH].
Qed.
Lemma cacheok_cache fs t : CacheOk fs t -> Cache fs t.
Proof.
  intros [H _] a m F E. apply find_in in E. destruct (H _ _ E) as (b & Fb & Eb & Hb). apply dirstr_inj in Eb; [now subst b|assumption..].
Qed.
Lemma cacheok_add fs t d m : Forall Name d -> CacheOk fs t -> HasMask fs d m ->
  CacheOk fs (match find_mask t (dirstr d) with Some _ => t | None => t ++ [(dirstr d, m)] end).
Proof.
  intros Fd [H N] Hm. destruct (find_mask t (dirstr d)) eqn:E; [now split|]. split.
  - intros p v I. apply in_app_iff in I. destruct I as [I|[[= <- <-]|[]]]; [now apply H|]. now exists d.
  - rewrite map_app. cbn [map fst]. apply (Permutation_NoDup (Permutation_cons_append _ _)). constructor; [now apply find_none_in|exact N].
Qed.

Definition Within (s : option (list bytes)) (d : list bytes) : Prop := match s with None => True | Some a => Above a d end.

Lemma nearest_key {pr} fs K d s key : NearestDir fs d s -> KeyFrom fs K s key -> exists m, Nearest pr fs d m /\ key = xor K m.
Proof.
  intros N. induction N as [d m H|d c s H N IH|H]; intros KF.
  - inversion KF as [|d' m' H' E1 E2]; subst. exists m'. split; [now apply Near_here|reflexivity].
  - destruct (IH KF) as (m & Ne & ->). exists m. split; [now apply Near_up|reflexivity].
  - inversion KF; subst. exists (repeat NUL (p_len pr)). split; [now apply Near_top|now rewrite xor_zeros].
Qed.
Lemma masked_key {pr} fs K f s key : MaskedBy fs f s -> KeyFrom fs K s key -> FileKey pr fs K f key.
Proof.
  intros [s' P N|d c s' P E N|P E] KF.
  - destruct (nearest_key (pr := pr) fs K _ _ _ N KF) as (m & Ne & ->). now apply K_ordinary.
  - destruct (nearest_key (pr := pr) fs K _ _ _ N KF) as (m & Ne & ->). now apply (K_package fs K f d c m).
  - inversion KF; subst. now apply K_top.
Qed.
Lemma sealed_length pr key iv data out : GoodPrimitives pr -> length key = 32 -> length iv = 16 -> Sealed pr key iv data out ->
  48 <= length out /\ length out <= length data + 64.
Proof.
  intros G Lk Li (bs & cs & (k & Hk & Eb & Fb) & C & ->). pose proof (proj1 (proj2 G) (firstn (p_len pr) key) (iv ++ data)) as Lm.
  fold (Mac pr key (iv ++ data)) in Lm. rewrite !app_length, Lm, Li.
  assert (Lc : length (concat cs) = length (concat bs)).
  { clear - G Lk Fb C Li. revert Li Fb. generalize iv. induction C as [|chain b bs cs C IH]; intros iv Li Fb; [reflexivity|].
    apply Forall_cons_iff in Fb. destruct Fb as [Lb Fb]. cbn [concat]. rewrite !app_length.
    rewrite (IH (p_enc pr key (xor b chain))); [|apply G; [exact Lk|now rewrite xor_length]|exact Fb].
    rewrite (proj2 (proj1 G key (xor b chain) Lk ltac:(now rewrite xor_length))). lia. }
  rewrite Lc, Eb, app_length, repeat_length. lia.
Qed.

Lemma f_demask_package f ok pr K disk basedir t d key : Forall Name d -> length (path_of d PACKAGE_MOC) <= 4096 ->
  f_demask (S f) ok pr K disk basedir t (path_of d PACKAGE_MOC) key =
  match d with
  | [] => fret (1%Z, t, key)
  | _ => go (ret, t1, key1) <- f_demask f ok pr K disk basedir t (dirstr d) key ;
         fret ((if (ret <? 0)%Z then (-1)%Z else 1%Z), t1, key1)
  end.
Proof.
  intros F L. cbn [f_demask]. cbn zeta. destruct d as [|c d _] using rev_ind.
  - cbn [path_of]. rewrite (split_top _ noslash_package). reflexivity.
  - apply Forall_app in F. destruct F as [F Fc]. apply Forall_cons_iff in Fc. destruct Fc as [Nc _].
    rewrite split_deep by (auto using noslash_package). rewrite caseeq_refl, dirstr_snoc.
    destruct (d ++ [c]) eqn:E; [destruct d; discriminate|]. reflexivity.
Qed.
Lemma f_demask_other f ok pr K disk basedir t d c key : Forall Name d -> NoSlash c -> caseeq c PACKAGE_MOC = false ->
  length (path_of d c) <= 4096 ->
  f_demask (S f) ok pr K disk basedir t (path_of d c) key =
  match find_item t (dirstr d) with
  | Some (m, b) => take _ <- touch (Some b) ; fret (0%Z, t, xor key m)
  | None =>
      if NAME_MAX <? match d with [] => 12 | _ => length (dirstr d) + 13 end then tret (UB OobWrite)
      else
        let dm := f_demask f ok pr K disk basedir in
        let pkg := path_of d PACKAGE_MOC in
        take (buf, err) <- f_read ok (disk (snprintf NAME_MAX (basedir ++ [SLASH] ++ pkg))) ;
        match err with
        | Some _ =>
            go r <- dm t pkg key ;
            take _ <- f_error_free err ;
            fret r
        | None =>
            take out <- obtain ok ;
            match buf, out with
            | Some (fb, content), Some o =>
                go (t1, res, text) <- f_decrypt ok pr K dm t pkg (Some (fb, content)) o ;
                take _ <- touch out ;
                take _ <- release (Some fb) ;
                take _ <- release out ;
                if (0 <? res)%Z
                then fret (0%Z, t1, xor key (firstn (p_len pr) (skipn (Z.to_nat res) text)))
                else fret ((-1)%Z, t1, key)
            | _, _ =>
                take _ <- release (match buf with Some (fb, _) => Some fb | None => None end) ;
                take _ <- release out ;
                fret ((-1)%Z, t, key)
            end
        end
  end.
Proof.
  intros F N C L. cbn [f_demask]. cbn zeta. destruct d as [|x d _] using rev_ind.
  - cbn [path_of] in *. rewrite (split_top _ N), C. reflexivity.
  - pose proof (pkg_path (d ++ [x]) ltac:(destruct d; discriminate)) as Ep.
    apply Forall_app in F. destruct F as [F Fc]. apply Forall_cons_iff in Fc. destruct Fc as [Nc _].
    rewrite split_deep by auto. rewrite C, Ep, dirstr_snoc.
    destruct (d ++ [x]) eqn:E; [destruct d; discriminate|]. reflexivity.
Qed.

(** A crash comes from a failure. *)
Definition Crash (ok : oracle) (k : ub) : Prop := k = NullDeref /\ exists n, ok n = false.

(** The package file of a directory. *)
Definition PkgPost (ok : oracle) (fs : list entry) (K : bytes) (d : list bytes) (v : outcome (Z * cached * bytes)) : Prop :=
  match v with
  | Ok (ret, t', key') => CacheOk fs (plain t') /\ ret <> 0%Z /\
      exists s, KeyFrom fs K s key' /\ (s = None \/ exists d' c, d = d' ++ [c] /\ Within s d')
  | UB k => Crash ok k
  | Blocked => False
  end.
Definition OtherPost (ok : oracle) (fs : list entry) (K : bytes) (d : list bytes) (v : outcome (Z * cached * bytes)) : Prop :=
  match v with
  | Ok (ret, t', key') => CacheOk fs (plain t') /\ exists s, KeyFrom fs K s key' /\ Within s d /\ (s = Some d -> ret = 0%Z)
  | UB k => Crash ok k
  | Blocked => False
  end.

(** Decrypting a file of the library with a key found before. *)
Lemma decrypt_v ok pr K fs moc dm t rel f i o (post : outcome (cached * Z * bytes) -> Prop) s_of :
  GoodPrimitives pr -> length K = 32 -> GoodLibrary pr fs -> In f fs -> EncryptedAs pr K fs f (moc f) -> WrongKeysDetected pr K fs moc ->
  vt (dm t rel K) (fun v => match v with Ok (ret, t', key') => CacheOk fs (plain t') /\ exists s, KeyFrom fs K s key' /\ s_of ret s
                                    | UB k => Crash ok k | Blocked => False end) ->
  (forall k, Crash ok k -> post (UB k)) ->
  (forall t2 out, CacheOk fs (plain t2) -> post (Ok (t2, (-1)%Z, out))) ->
  (forall ret t1 s key, CacheOk fs (plain t1) -> KeyFrom fs K s key -> s_of ret s -> MaskedBy fs f s -> FileKey pr fs K f key ->
     match decrypt_with pr K (const ret (plain t1) key) (plain t1) rel (moc f) with
     | Ok (p2, r, out) => forall t2, plain t2 = p2 -> post (Ok (t2, r, out))
     | _ => False
     end) ->
  vt (f_decrypt ok pr K dm t rel (Some (i, moc f)) o) post.
Proof.
  intros G LK GL If Enc W D PU PF PO. unfold f_decrypt. apply v_obtain. intros n1. apply v_obtain. intros n2.
  destruct (ok n1) eqn:O1; [|apply v_ret, PU; split; [reflexivity|now exists n1]].
  destruct (ok n2) eqn:O2; [|apply v_ret, PU; split; [reflexivity|now exists n2]]. vs.
  eapply v_fbind; [exact D| |exact PU|intros []].
  intros [[ret t1] key] (C1 & s & KF & So).
  assert (Len : 48 <= length (moc f) /\ (zlen (moc f) < 2^31)%Z).
  { destruct Enc as (k & data & FK & Pay & Se). pose proof (good_mask_len fs (proj1 GL)) as ML.
    pose proof (filekey_len fs K _ k ML LK FK) as Lk.
    assert (Ge : GoodEntry pr f) by (destruct GL as [GF _]; rewrite Forall_forall in GF; now apply GF).
    destruct Ge as (_ & _ & _ & _ & _ & Li & Lm & Ld). destruct (sealed_length pr k _ _ _ G Lk Li Se) as [A1 A2]. split; [exact A1|].
    destruct G as (_ & _ & Ln). destruct Pay; unfold zlen in *; [|rewrite app_length in A2]; change (2^31)%Z with 2147483648%Z in *; lia. }
  destruct Len as [Lf Lz].
  assert (Op : Opened pr key (moc f) -> MaskedBy fs f s /\ FileKey pr fs K f key).
  { intros Q. destruct (Q Lz) as (data & Q'). pose proof (W f s key data If KF Q') as Mb. split; [exact Mb|now apply (masked_key fs K f s)]. }
  eapply v_fbind; [apply (open_v ok pr K)| | |intros []].
  - intros [[[t2 r] out] mac] [(-> & -> & _)|(Q & Od)]; vs; apply v_ret; [now apply PF|].
    destruct (Op Od) as [Mb FK]. specialize (PO ret t1 s key C1 KF So Mb FK). rewrite Q in PO. now apply PO.
  - intros k [Q [Sh|Od]]; [exfalso; lia|]. destruct (Op Od) as [Mb FK]. specialize (PO ret t1 s key C1 KF So Mb FK). rewrite Q in PO. contradiction.
Qed.

Lemma fail_dirs ok pr K fs basedir disk moc :
  GoodPrimitives pr -> length K = 32 -> GoodLibrary pr fs -> Installed pr K fs basedir disk moc -> WrongKeysDetected pr K fs moc ->
  forall d, GoodDir d -> PkgFits basedir d ->
  (forall fuel t, 2 * length d < fuel -> CacheOk fs (plain t) ->
     vt (f_demask fuel ok pr K disk basedir t (path_of d PACKAGE_MOC) K) (PkgPost ok fs K d)) /\
  (forall fuel t c, 2 * length d + 1 < fuel -> CacheOk fs (plain t) ->
     NoSlash c -> caseeq c PACKAGE_MOC = false -> length (path_of d c) <= 4096 ->
     vt (f_demask fuel ok pr K disk basedir t (path_of d c) K) (OtherPost ok fs K d)).
Proof.
  intros G LK GL Ins W. pose proof (good_mask_len fs (proj1 GL)) as ML.
  (* from the package file to other names *)
  assert (Step : forall d, GoodDir d -> PkgFits basedir d ->
    (forall fuel t, 2 * length d < fuel -> CacheOk fs (plain t) ->
       vt (f_demask fuel ok pr K disk basedir t (path_of d PACKAGE_MOC) K) (PkgPost ok fs K d)) ->
    forall fuel t c, 2 * length d + 1 < fuel -> CacheOk fs (plain t) ->
     NoSlash c -> caseeq c PACKAGE_MOC = false -> length (path_of d c) <= 4096 ->
     vt (f_demask fuel ok pr K disk basedir t (path_of d c) K) (OtherPost ok fs K d)).
  { intros d Gd Fit PA fuel t c Fu C Nc Cc Lc. destruct fuel as [|f]; [lia|]. rewrite f_demask_other by (auto; apply Gd).
    pose proof (cacheok_cache fs _ C d) as Ca. pose proof (find_plain t (dirstr d)) as Fp.
    destruct (find_item t (dirstr d)) as [[m b]|].
    { vs. apply v_ret. split; [exact C|]. exists (Some d). pose proof (Ca m (proj1 Gd) Fp) as H. split; [now constructor|]. split; [apply above_refl|auto]. }
    assert (Fits : (NAME_MAX <? match d with [] => 12 | _ => length (dirstr d) + 13 end) = false).
    { destruct d as [|y ys] eqn:E; [reflexivity|]. rewrite <- E in *. apply Nat.ltb_ge.
      unfold PkgFits in Fit. rewrite pkg_path in Fit by (rewrite E; discriminate). rewrite app_length in Fit. cbn [length B String.list_ascii_of_string] in Fit.
      unfold NAME_MAX. lia. }
    rewrite Fits. cbn zeta. eapply v_bind; [apply read_v|]. intros [buf err] Q. cbn beta iota.
    assert (Keep : forall t', CacheOk fs (plain t') -> OtherPost ok fs K d (Ok ((-1)%Z, t', K))).
    { intros t' C'. split; [exact C'|]. exists None. split; [constructor|]. split; [exact I|discriminate]. }
    rewrite snprintf_fits in Q by (unfold PkgFits in Fit; rewrite !app_length; cbn [length]; unfold NAME_MAX; lia).
    destruct Ins as (_ & Here & Gone).
    destruct err as [e|].
    - destruct Q as [(p & co & -> & Ef & X)|(-> & _)]; [discriminate|].
      eapply v_fbind; [apply PA; [lia|exact C]| |auto|auto].
      intros [[ret t'] key'] (C' & Nz & s & KF & St). apply error_free_v, v_ret. split; [exact C'|]. exists s. split; [exact KF|].
      destruct St as [->|(d' & c' & Ed & Wi)]; [now split|]. destruct s as [a|]; [|now split]. split.
      + cbn [Within] in *. rewrite Ed. now apply above_up.
      + intros [= ->]. cbn [Within] in Wi. apply above_length in Wi. rewrite Ed, app_length in Wi. cbn in Wi. lia.
    - apply v_obtain. intros n. destruct buf as [[fb content]|]; [|vs; apply v_ret, Keep, C].
      destruct (ok n); [|vs; apply v_ret, Keep, C].
      destruct Q as [(q & co & [= <- <-] & Ef & _)|(X & _)]; [|discriminate].
      destruct (haspackage_dec fs d) as [(p & Ip & P & Ep)|Np].
      2:{ exfalso. pose proof (Gone d (proj1 Gd) Np) as Gn. change (B "package.moc") with PACKAGE_MOC in Gn. congruence. }
      destruct (Here p Ip) as [Enc Dk]. unfold moc_path in Dk. rewrite Ep, P in Dk. change (B "package.mo" ++ B "c") with PACKAGE_MOC in Dk.
      rewrite Dk in Ef. injection Ef as <-.
      eapply v_fbind with (mid := fun v => match v with Ok (t2, r, out) => CacheOk fs (plain t2) /\ (r = (-1)%Z \/ r = zlen (n_data p) /\ out = n_data p ++ n_mask p)
        | UB k => Crash ok k | Blocked => False end); [| |auto|intros []].
      + eapply (decrypt_v ok pr K fs moc _ t _ p) with (s_of := fun ret (s : option (list bytes)) => ret <> 0%Z); try assumption.
        * eapply v_weak; [apply PA; [lia|exact C]|]. intros [[[ret t'] key']|k|]; [|auto|auto]. intros (C' & Nz & s & KF & _). split; [exact C'|]. now exists s.
        * auto.
        * intros t2 out C2. split; [exact C2|now left].
        * intros ret t1 s key C1 KF Nz Mb FK. rewrite <- Ep.
          rewrite (decrypt_package pr K fs (const ret (plain t1) key) (plain t1) p (moc p) key ret (plain t1) G LK GL Ip P Enc FK eq_refl Nz).
          intros t2 E2. split; [|now right]. rewrite E2. apply cacheok_add; [rewrite Ep; apply Gd|exact C1|]. now exists p.
      + intros [[t2 r] out] (C2 & Ro). vs. destruct (0 <? r)%Z eqn:R; [|apply v_ret, Keep, C2]. apply v_ret.
        destruct Ro as [->|(-> & ->)]; [discriminate R|]. split; [exact C2|]. exists (Some d).
        unfold zlen. rewrite Nat2Z.id, skipn_app, skipn_all, Nat.sub_diag. cbn [skipn app]. rewrite firstn_all2 by (rewrite (ML p Ip);  lia).
        split; [constructor; now exists p|]. split; [apply above_refl|auto]. }
  induction d as [|c0 d IH] using rev_ind; intros Gd Fit.
  - match goal with |- ?A /\ _ => assert (PA : A) end; [|split; [exact PA|now apply Step]].
    intros fuel t Fu C. destruct fuel as [|f]; [lia|]. rewrite (f_demask_package f ok pr K disk basedir t []) by (auto; cbn; lia).
    apply v_ret. split; [exact C|]. split; [discriminate|]. exists None. split; [constructor|now left].
  - match goal with |- ?A /\ _ => assert (PA : A) end; [|split; [exact PA|now apply Step]].
    destruct (gooddir_snoc d c0 Gd) as (Gd' & N0 & C0 & M0). destruct (IH Gd' (pkgfits_up _ _ _ Fit)) as [_ IHo].
    assert (Ld : length (d ++ [c0]) = S (length d)) by (rewrite app_length; cbn; lia).
    assert (Lf : length (path_of (d ++ [c0]) PACKAGE_MOC) <= 4096) by (unfold PkgFits in Fit; lia).
    assert (Lp : length (path_of d c0) <= 4096) by (rewrite path_of_snoc, app_length in Lf; lia).
    intros fuel t Fu C. destruct fuel as [|f]; [lia|]. rewrite f_demask_package by (auto; apply Gd).
    destruct (d ++ [c0]) as [|y ys] eqn:E; [destruct d; discriminate|]. rewrite <- E in *. rewrite dirstr_snoc.
    eapply v_fbind; [apply IHo; [lia|exact C|now apply name_noslash|exact M0|exact Lp]| |auto|auto].
    intros [[ret t1] key1] (C1 & s & KF & Wi & _). apply v_ret. split; [exact C1|]. split; [destruct (ret <? 0)%Z; discriminate|].
    exists s. split; [exact KF|]. right. now exists d, c0.
Qed.

(** One request. *)
Lemma fail_request ok pr K fs basedir disk moc f t :
  GoodPrimitives pr -> length K = 32 -> GoodLibrary pr fs -> Installed pr K fs basedir disk moc -> WrongKeysDetected pr K fs moc ->
  In f fs -> InPackage fs f -> CacheOk fs (plain t) ->
  vt (f_request ok pr K disk basedir t (moc_path f) (moc f)) (fun v =>
    match v with
    | Ok (t', a) => CacheOk fs (plain t') /\ (a = None \/ a = Some (n_data f))
    | UB k => Crash ok k
    | Blocked => False
    end).
Proof.
  intros G LK GL Ins W If [m0 H0] C. pose proof (good_mask_len fs (proj1 GL)) as ML.
  assert (Ge : GoodEntry pr f) by (destruct GL as [GF _]; rewrite Forall_forall in GF; now apply GF).
  pose proof (gooddir_entry f Ge) as Gd. destruct Ge as (Fd & Nn & _ & Case & Len & Li & Lm & Ld).
  assert (Fit : PkgFits basedir (n_dir f)).
  { destruct H0 as (p & Ip & P & Dp & _). pose proof (proj1 Ins p Ip) as L. rewrite P, Dp in L.
    unfold PkgFits. change PACKAGE_MOC with (B "package.mo" ++ B "c"). rewrite path_moc_length. lia. }
  destruct (fail_dirs ok pr K fs basedir disk moc G LK GL Ins W (n_dir f) Gd Fit) as [Da Db].
  destruct (proj1 (proj2 Ins) f If) as [Enc _].
  pose proof (path_length (n_dir f) (n_name f)) as Lp.
  assert (Lmoc : length (moc_path f) = length (path_of (n_dir f) (n_name f)) + 1) by apply path_moc_length.
  unfold f_request. apply v_malloc. intros n1. apply v_malloc. intros n2.
  eapply v_fbind with (mid := fun v => match v with Ok (t2, r, out) => CacheOk fs (plain t2) /\ (r = (-1)%Z \/ r = zlen (n_data f) /\ exists x, out = n_data f ++ x)
        | UB k => Crash ok k | Blocked => False end); [| |auto|intros []].
  - assert (Dp : IsPackage f \/ ~ IsPackage f) by (unfold IsPackage; destruct (beq_spec (n_name f) (B "package.mo")); tauto).
    destruct Dp as [P|P].
    + assert (Em : moc_path f = path_of (n_dir f) PACKAGE_MOC) by (unfold moc_path; now rewrite P).
      eapply (decrypt_v ok pr K fs moc _ t _ f) with (s_of := fun ret (s : option (list bytes)) => ret <> 0%Z); try assumption.
      * eapply v_weak; [rewrite Em; apply Da; [rewrite <- Em; lia|exact C]|]. intros [[[ret t'] key']|k|]; [|auto|auto]. intros (C' & Nz & s & KF & _). split; [exact C'|]. now exists s.
      * auto.
      * intros t2 out C2. split; [exact C2|now left].
      * intros ret t1 s key C1 KF Nz Mb FK. rewrite Em.
        rewrite (decrypt_package pr K fs (const ret (plain t1) key) (plain t1) f (moc f) key ret (plain t1) G LK GL If P Enc FK eq_refl Nz).
        intros t2 E2. split; [|right; split; [reflexivity|now eexists]]. rewrite E2. apply cacheok_add; [apply Fd|exact C1|]. now exists f.
    + assert (Cf : caseeq (n_name f ++ B "c") PACKAGE_MOC = false).
      { rewrite caseeq_moc. destruct (caseeq (n_name f) PACKAGE_MO) eqn:Q; [exfalso; auto|reflexivity]. }
      eapply (decrypt_v ok pr K fs moc _ t _ f) with (s_of := fun ret (s : option (list bytes)) => s = Some (n_dir f) -> ret = 0%Z); try assumption.
      * eapply v_weak; [unfold moc_path at 2; apply Db; [rewrite Lmoc; lia|exact C|apply noslash_moc; now apply name_noslash|exact Cf|rewrite path_moc_length; lia]|].
        intros [[[ret t'] key']|k|]; [|auto|auto]. intros (C' & s & KF & _ & Z). split; [exact C'|]. now exists s.
      * auto.
      * intros t2 out C2. split; [exact C2|now left].
      * intros ret t1 s key C1 KF Z Mb FK.
        assert (ret = 0%Z) as ->.
        { apply Z. inversion Mb as [s' _ N|d c s' P' E N|P' E]; subst; [|contradiction|contradiction].
          inversion N as [d m H E1 E2|d c s' Np N' E1 E2|Np E1 E2]; subst; [reflexivity| |]; exfalso.
          - apply (Np m0). now rewrite E1.
          - apply (Np m0). now rewrite E1. }
        destruct Enc as (key' & data & FK' & Pay & Se). assert (key' = key) as -> by (eapply filekey_unique; eassumption).
        assert (data = n_data f) as -> by (destruct Pay; [reflexivity|contradiction]).
        pose proof (filekey_len fs K _ key ML LK FK) as Lk.
        rewrite (decrypt_sealed pr K (const 0 (plain t1) key) (plain t1) (moc_path f) key (n_iv f) (n_data f) (moc f) 0%Z (plain t1) G Lk Li) by first [eassumption | lia | reflexivity].
        cbn [Z.eqb]. intros t2 E2. rewrite E2. split; [exact C1|]. right. split; [reflexivity|]. exists []. now rewrite app_nil_r.
  - intros [[t2 r] out] (C2 & Ro). vs. apply v_ret. split; [exact C2|]. destruct Ro as [->|(-> & x & ->)]; [now left|].
    destruct (Z.ltb_spec (zlen (n_data f)) 0) as [X|_]; [unfold zlen in X; lia|]. right. unfold zlen. rewrite Nat2Z.id, firstn_app, firstn_all, Nat.sub_diag.
    cbn [firstn]. now rewrite app_nil_r.
Qed.

Lemma fail_requests ok pr K fs basedir disk moc :
  GoodPrimitives pr -> length K = 32 -> GoodLibrary pr fs -> Installed pr K fs basedir disk moc -> WrongKeysDetected pr K fs moc ->
  forall reqs t, (forall f, In f reqs -> In f fs /\ InPackage fs f) -> CacheOk fs (plain t) ->
  vt (f_requests ok pr K disk basedir t (map (fun f => (moc_path f, moc f)) reqs)) (fun v =>
    match v with
    | Ok (t', answers) => CacheOk fs (plain t') /\ Forall2 (fun f a => a = None \/ a = Some (n_data f)) reqs answers
    | UB k => Crash ok k
    | Blocked => False
    end).
Proof.
  intros G LK GL Ins W. induction reqs as [|f reqs IH]; intros t R C; cbn [map f_requests]; [apply v_ret; split; [exact C|constructor]|].
  destruct (R f (or_introl eq_refl)) as [If Ip].
  eapply v_fbind; [apply (fail_request ok pr K fs basedir disk moc f t G LK GL Ins W If Ip C)| |auto|intros []].
  intros [t1 a] (C1 & Ha). eapply v_fbind; [apply (IH t1 (fun g Ig => R g (or_intror Ig)) C1)| |auto|intros []].
  intros [t2 answers] (C2 & Hr). apply v_ret. split; [exact C2|]. now constructor.
Qed.

(** Afterwards, without failures. *)
Lemma later_requests pr K fs basedir disk moc t reqs :
  GoodPrimitives pr -> length K = 32 -> GoodLibrary pr fs -> Installed pr K fs basedir disk moc ->
  (forall f, In f reqs -> In f fs /\ Readable fs f) -> CacheOk fs (plain t) ->
  vt (f_requests never pr K disk basedir t (map (fun f => (moc_path f, moc f)) reqs)) (fun v => rmap snd v = Ok (map (fun f => Some (n_data f)) reqs)).
Proof.
  intros G LK GL Ins R C. eapply v_weak; [apply requests_value|]. intros v ->.
  now apply (decrypt_session pr K fs basedir disk moc G LK GL Ins reqs (plain t) R), cacheok_cache.
Qed.
(** No more items than package files. *)
Lemma cacheok_bound fs t : CacheOk fs t -> length t <= length (filter (fun f => beq (n_name f) (B "package.mo")) fs).
Proof.
  intros [H N]. rewrite <- (map_length fst t). rewrite <- (map_length (fun f => dirstr (n_dir f)) (filter _ fs)). apply NoDup_incl_length; [exact N|].
  intros p I. apply in_map_iff in I. destruct I as ([q m] & <- & I). destruct (H _ _ I) as (a & _ & -> & g & Ig & P & <- & _). cbn [fst].
  apply in_map_iff. exists g. split; [reflexivity|]. apply filter_In. split; [exact Ig|]. rewrite P. apply beq_refl.
Qed.

(** ** The items of the table are blocks *)
Definition BlocksIn (t : cached) : Prop := Forall (fun r => exists n, r = Block n) (items t).
Definition tt3 (v : outcome (Z * cached * bytes)) : Prop := match v with Ok (_, t, _) => BlocksIn t | _ => True end.
Definition t3 (v : outcome (cached * Z * bytes)) : Prop := match v with Ok (t, _, _) => BlocksIn t | _ => True end.
Definition t4 (v : outcome (cached * Z * bytes * option res)) : Prop := match v with Ok (t, _, _, _) => BlocksIn t | _ => True end.
Definition t2 {A} (v : outcome (cached * A)) : Prop := match v with Ok (t, _) => BlocksIn t | _ => True end.

Lemma store_b ok t rel mask : BlocksIn t -> vt (f_store ok t rel mask) (fun v => match v with Ok (Some t') => BlocksIn t' | _ => True end).
Proof.
  intros Hb. unfold f_store. destruct (_ <? 0)%Z; [now apply v_ret|]. destruct (_ <=? _)%Z; [now apply v_ret|].
  destruct (find_item t _) as [[m b]|]; [vs; now apply v_ret|]. apply v_obtain. intros n. destruct (ok n); [|now apply v_ret].
  vs. apply v_ret. unfold BlocksIn, items. rewrite map_app. apply Forall_app. split; [exact Hb|]. apply Forall_cons; [now exists n|constructor].
Qed.
Lemma open_b ok pr cc hc flag t rel key inp outp : BlocksIn t -> vt (f_open ok pr cc hc flag t rel key inp outp) t4.
Proof.
  intros Hb. destruct inp as [ip file]. unfold f_open. destruct (_ <? BLOCK); [now apply v_ret|]. vs. apply v_call. intros n1. destruct (ok n1); [|now apply v_ret].
  apply v_obtain. intros n2. destruct (ok n2); [|now apply v_ret]. vs. apply v_call. intros n3. destruct (ok n3); [|now apply v_ret].
  apply v_call. intros n4. destruct (ok n4); [|now apply v_ret]. vs. apply v_call. intros n5. destruct (ok n5 && _)%bool; [|now apply v_ret].
  apply v_call. intros n6. destruct (evp_decrypt _ _ _ _) as [out|]; [|now apply v_ret]. destruct (ok n6); [|now apply v_ret]. vs.
  apply v_call. intros n7. destruct (ok n7); [|now apply v_ret]. apply v_call. intros n8. vs. destruct (ok n8 && _)%bool; [|now apply v_ret].
  destruct (flag =? 0)%Z; [now apply v_ret|]. destruct (_ <? 0)%Z; [now apply v_ret|]. vs. eapply v_fbind; [apply store_b, Hb| |intros k _; exact I|intros _; exact I].
  intros [t'|] H; now apply v_ret.
Qed.
Lemma decrypt_b ok pr K dm t rel inp outp : vt (dm t rel K) tt3 -> vt (f_decrypt ok pr K dm t rel inp outp) t3.
Proof.
  intros Hd. unfold f_decrypt. apply v_obtain. intros n1. apply v_obtain. intros n2. destruct (ok n1), (ok n2); try now apply v_ret.
  vs. eapply v_fbind; [exact Hd| |intros k _; exact I|intros _; exact I]. intros [[flag t1] key] Hb. cbn [tt3] in Hb.
  destruct inp as [i|]; [|now apply v_ret]. eapply v_fbind; [apply open_b, Hb| |intros k _; exact I|intros _; exact I].
  intros [[[t' r] out] mac] H. vs. now apply v_ret.
Qed.
Lemma demask_b ok pr K disk basedir : forall fuel t rel key, BlocksIn t -> vt (f_demask fuel ok pr K disk basedir t rel key) tt3.
Proof.
  induction fuel as [|f IH]; intros t rel key Hb; [now apply v_ret|]. cbn [f_demask]. cbn zeta.
  destruct (split_path rel) as [dir base]. destruct (caseeq base PACKAGE_MOC).
  - destruct dir as [d|]; [|now apply v_ret]. eapply v_fbind; [apply IH, Hb| |intros k _; exact I|intros _; exact I]. intros [[ret t1] key1] H. now apply v_ret.
  - destruct (find_item t _) as [[m b]|]; [vs; now apply v_ret|]. destruct (NAME_MAX <? _); [now apply v_ret|].
    eapply v_bind; [apply read_v|]. intros [buf err] _. cbn beta iota. destruct err as [e|].
    + eapply v_fbind; [apply IH, Hb| |intros k _; exact I|intros _; exact I]. intros [[r t1] k1] H. apply error_free_v. now apply v_ret.
    + apply v_obtain. intros n. destruct buf as [[fb content]|]; [|vs; now apply v_ret]. destruct (ok n); [|vs; now apply v_ret].
      eapply v_fbind; [apply decrypt_b, IH, Hb| |intros k _; exact I|intros _; exact I]. intros [[t1 r] text] H. vs. destruct (0 <? r)%Z; now apply v_ret.
Qed.
Lemma requests_b ok pr K disk basedir : forall reqs t, BlocksIn t -> vt (f_requests ok pr K disk basedir t reqs) t2.
Proof.
  induction reqs as [|[rel file] reqs IH]; intros t Hb; cbn [f_requests]; [now apply v_ret|].
  eapply v_fbind with (mid := t2); [| |intros k _; exact I|intros _; exact I].
  - unfold f_request. apply v_malloc. intros i. apply v_malloc. intros j.
    eapply v_fbind; [apply decrypt_b, demask_b, Hb| |intros k _; exact I|intros _; exact I]. intros [[t1 r] out] H. vs. now apply v_ret.
  - intros [t1 a] H. eapply v_fbind; [apply IH, H| |intros k _; exact I|intros _; exact I]. intros [t' l] H'. now apply v_ret.
Qed.

(** ** Sessions *)
Lemma session_v ok pr K disk basedir reqs post : vt (f_requests ok pr K disk basedir [] reqs) post -> vt (f_session ok pr K disk basedir reqs) post.
Proof.
  intros H. unfold f_session. apply v_malloc. intros n. vs. eapply v_fbind; [exact H| |auto|auto]. intros a Q. vs. now apply v_ret.
Qed.
Lemma empty_ok fs : CacheOk fs (plain []).
Proof. split; [intros p m []|constructor]. Qed.

Lemma filter_shorter {A} h (l : list A) : length (filter h l) <= length l.
Proof. induction l as [|x l IH]; [apply Nat.le_refl|]. cbn [filter]. destruct (h x); cbn [length]; lia. Qed.
Lemma session_held ok pr K fs basedir disk moc reqs n :
  GoodPrimitives pr -> length K = 32 -> GoodLibrary pr fs -> Installed pr K fs basedir disk moc -> WrongKeysDetected pr K fs moc ->
  (forall f, In f reqs -> In f fs /\ InPackage fs f) ->
  match f_session ok pr K disk basedir (map (fun f => (moc_path f, moc f)) reqs) n with
  | (trace, Ok _, _) => length (blocks (held trace)) <= length (filter (fun f => beq (n_name f) (B "package.mo")) fs) /\
                        ((forall i, ok i = true) -> streams (held trace) = [])
  | _ => True
  end.
Proof.
  intros G LK GL Ins W R.
  pose proof (session_v _ _ _ _ _ _ _ (fail_requests ok pr K fs basedir disk moc G LK GL Ins W reqs [] R (empty_ok fs)) n) as H1.
  pose proof (session_v _ _ _ _ _ _ _ (requests_b ok pr K disk basedir (map (fun f => (moc_path f, moc f)) reqs) [] (Forall_nil _)) n) as H2.
  pose proof (session_ft ok pr K disk basedir (map (fun f => (moc_path f, moc f)) reqs)) as H3.
  specialize (H3 [] n ltac:(intros x []) (NoDup_nil _)).
  destruct (f_session ok pr K disk basedir _ n) as [[trace [[t answers]|k|]] n']; [|exact I|exact I].
  cbn [fst snd t2] in H1, H2. destruct H3 as (o & P & Q & _). cbn beta iota in P. rewrite !app_nil_r in Q. change (run_mem [] trace) with (held trace) in Q.
  destruct P as (st & [As Ls] & Po). assert (E : Permutation (held trace) (items t ++ st)) by (eapply perm_trans; eassumption).
  assert (Fp : forall h (l l' : list res), Permutation l l' -> Permutation (filter h l) (filter h l')).
  { intros h l l' Pl. induction Pl as [|x l l' Pl IH|x y l|l l' l'' _ IH1 _ IH2]; cbn [filter]; [constructor| | |eapply perm_trans; eassumption].
    - destruct (h x); [now constructor|exact IH].
    - destruct (h x), (h y); try reflexivity. apply perm_swap. }
  split.
  - unfold blocks. rewrite (Permutation_length (Fp _ _ _ E)), filter_app, app_length.
    assert (Zs : filter (fun r => match r with Block _ => true | Stream _ => false end) st = []).
    { clear - As. unfold AllStreams in As. induction As as [|x l Hx _ IH]; [reflexivity|]. destruct x; [contradiction|exact IH]. }
    rewrite Zs. cbn [length]. rewrite Nat.add_0_r. eapply Nat.le_trans; [apply filter_shorter|]. unfold items. rewrite map_length.
    rewrite <- (map_length fst t). exact (cacheok_bound fs (plain t) (proj1 H1)).
  - intros Al. assert (st = []) as -> by (destruct Ls as [Ls|[i Bad]]; [exact Ls|rewrite Al in Bad; discriminate]).
    rewrite app_nil_r in E. assert (Zs : streams (items t) = []).
    { clear - H2. unfold BlocksIn in H2. induction H2 as [|x l [i ->] _ IH]; [reflexivity|exact IH]. }
    pose proof (Permutation_length (Fp (fun r => match r with Stream _ => true | Block _ => false end) _ _ E)) as L. fold (streams (held trace)) (streams (items t)) in L.
    rewrite Zs in L. destruct (streams (held trace)); [reflexivity|discriminate].
Qed.
Lemma session_proper ok pr K disk basedir reqs : Proper (fst (fst (f_session ok pr K disk basedir reqs 0))).
Proof.
  pose proof (session_ft ok pr K disk basedir reqs [] 0 ltac:(intros x []) (NoDup_nil _)) as H.
  destruct (f_session ok pr K disk basedir reqs 0) as [[trace v] n]. destruct H as (o & _ & _ & (k & Sf) & _). cbn [fst].
  intros before m rest E. exact (safe_proper k trace [] Sf before m rest E).
Qed.

(** ** Keys that open a file, computed *)
Definition opens_check (pr : primitives) (key file : bytes) : bool :=
  match evp_decrypt pr key (firstn 16 file) (firstn (length file - 48) (skipn 16 file)) with
  | Some out => beq (Mac pr key (firstn 16 file ++ out)) (skipn (length file - 32) file)
  | None => false
  end.
Lemma cbc_open_value pr key chain cs bs : CbcOpen pr key chain cs bs -> Forall (fun c => length c = 16) cs ->
  cbc_decrypt pr key (length cs) chain (concat cs) = concat bs.
Proof.
  intros O. induction O as [|chain c cs bs O IH]; intros Fa; [reflexivity|]. apply Forall_cons_iff in Fa. destruct Fa as [Lc Fa]. cbn [length concat]. change (cbc_decrypt pr key (S (length cs)) chain (c ++ concat cs)) with (xor (p_dec pr key (firstn BLOCK (c ++ concat cs))) chain ++ cbc_decrypt pr key (length cs) (firstn BLOCK (c ++ concat cs)) (skipn BLOCK (c ++ concat cs))).
  assert (E1 : firstn BLOCK (c ++ concat cs) = c) by (unfold BLOCK; rewrite firstn_app, Lc, Nat.sub_diag, (firstn_all2 c) by lia; apply app_nil_r).
  assert (E2 : skipn BLOCK (c ++ concat cs) = concat cs) by (unfold BLOCK; rewrite skipn_app, Lc, Nat.sub_diag, (skipn_all2 c) by lia; reflexivity).
  rewrite E1, E2, (IH Fa). reflexivity.
Qed.
Lemma opens_checked pr key file data : GoodPrimitives pr -> Opens pr key file data -> opens_check pr key file = true.
Proof.
  intros G (iv & cs & bs & k & -> & Li & Fa & O & Hk & Eb). pose proof (proj1 (proj2 G) (firstn (p_len pr) key) (iv ++ data)) as Lm.
  fold (Mac pr key (iv ++ data)) in Lm. set (mac := Mac pr key (iv ++ data)) in *. pose proof (concat_length cs Fa) as Lc.
  unfold opens_check. rewrite !app_length, Li, Lm.
  assert (E1 : firstn 16 (iv ++ concat cs ++ mac) = iv) by (rewrite firstn_app, Li, Nat.sub_diag, firstn_all2 by lia; apply app_nil_r).
  assert (E2 : skipn 16 (iv ++ concat cs ++ mac) = concat cs ++ mac) by (rewrite skipn_app, Li, Nat.sub_diag, skipn_all2 by lia; reflexivity).
  rewrite E1, E2. replace (16 + (length (concat cs) + 32) - 48) with (length (concat cs)) by lia.
  rewrite firstn_app, Nat.sub_diag, firstn_all. cbn [firstn]. rewrite app_nil_r.
  unfold evp_decrypt. rewrite Lc. rewrite Nat.mod_mul by discriminate.
  destruct cs as [|c cs]; [inversion O; subst; cbn [concat] in Eb; destruct data; destruct k; try discriminate; lia|].
  destruct (length (c :: cs) * BLOCK =? 0) eqn:Z; [apply Nat.eqb_eq in Z; cbn in Z; discriminate|]. cbn [Nat.eqb negb orb].
  rewrite Nat.div_mul by discriminate. rewrite (cbc_open_value pr key iv _ bs O Fa), Eb, (unpad_padded data k Hk).
  fold mac. rewrite app_assoc, skipn_app, skipn_all2 by (rewrite app_length; lia).
  replace (16 + (length (c :: cs) * BLOCK + 32) - 32 - length (iv ++ concat (c :: cs))) with 0 by (rewrite app_length; lia).
  cbn [skipn app]. apply beq_refl.
Qed.
