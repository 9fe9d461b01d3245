(** Proofs about reading files with long paths on Windows. *)
From Verif Require Import Base BaseProofs WireModel LveModel WinReadModel WinReadSpec.
Lemma strncpy_length n s : length (strncpy n s) = n.
Proof. unfold strncpy. rewrite firstn_length, app_length, repeat_length. lia. Qed.
Lemma strncpy_cstr n s : ~ In NUL s -> length s < n -> exists k, strncpy n s = s ++ NUL :: repeat NUL k.
Proof.
  intros N L. unfold strncpy. exists (n - length s - 1). rewrite firstn_app, firstn_all2 by lia. f_equal.
  replace (n - length s) with (S (n - length s - 1)) at 1 by lia. destruct n as [|n]; [lia|]. cbn [repeat firstn].
  f_equal. clear. assert (H : forall a b, b <= a -> firstn b (repeat NUL a) = repeat NUL b).
  { induction a as [|a IH]; intros [|b] Hb; try reflexivity; [lia|]. cbn. f_equal. apply IH. lia. }
  apply H. lia.
Qed.
Lemma exists_nul a b : existsb (Ascii.eqb NUL) (a ++ NUL :: b) = true.
Proof. rewrite existsb_app. cbn [existsb]. rewrite Ascii.eqb_refl. now rewrite orb_true_r. Qed.
Lemma long_name_ok path : ~ In NUL path -> length path <= MAX_LONG - 4 ->
  long_name path = Ok (if (255 <? length path) && negb (beq (firstn 4 path) PREFIX) then PREFIX ++ backslashed path else backslashed path).
Proof.
  intros N L. unfold long_name. destruct ((255 <? length path) && negb (beq (firstn 4 path) PREFIX)).
  - change (firstn 4 (strncpy 5 PREFIX)) with PREFIX.
    rewrite app_length, strncpy_length. destruct (Nat.ltb_spec LONG_SIZE (length PREFIX + (LONG_SIZE - 4))) as [X|_].
    { change (length PREFIX) with 4 in X. unfold LONG_SIZE, MAX_LONG in *. lia. }
    destruct (strncpy_cstr (LONG_SIZE - 4) path N) as (k & ->); [unfold LONG_SIZE, MAX_LONG in *; lia|].
    rewrite app_assoc, exists_nul, cstr_app_nul; [now rewrite map_app|].
    intros I. apply in_app_iff in I. destruct I as [I|I]; [|contradiction]. cbn in I. repeat (destruct I as [I|I]; [discriminate I|]). exact I.
  - rewrite strncpy_length, Nat.ltb_irrefl. destruct (strncpy_cstr LONG_SIZE path N) as (k & ->); [unfold LONG_SIZE, MAX_LONG in *; lia|].
    now rewrite exists_nul, cstr_app_nul.
Qed.

Lemma safe : forall w path, ~ In NUL path -> exists r, read_file_win w path = Ok r.
Proof.
  intros w path N. unfold read_file_win. destruct (r_open w path) as [t|f]; [|eexists; reflexivity].
  destruct (Nat.ltb_spec (MAX_LONG - 4) (length path)) as [|L]; [eexists; reflexivity|].
  rewrite (long_name_ok path N L). cbn [bind]. destruct (r_open w _); eexists; reflexivity.
Qed.
Lemma backslashed_length p : length (backslashed p) = length p. Proof. apply map_length. Qed.
Lemma no_slash p : existsb (Ascii.eqb SLASH) (backslashed p) = false.
Proof. induction p as [|c p IH]; [reflexivity|]. cbn [backslashed map existsb]. fold (backslashed p). rewrite IH, orb_false_r. destruct (Ascii.eqb_spec c SLASH) as [->|N]; [reflexivity|]. destruct (Ascii.eqb_spec SLASH c); congruence. Qed.
Lemma backslashed_idem p : backslashed (backslashed p) = backslashed p.
Proof. unfold backslashed. rewrite map_map. apply map_ext. intros c. destruct (Ascii.eqb_spec c SLASH) as [->|N]; [reflexivity|]. destruct (Ascii.eqb_spec c SLASH); congruence. Qed.
Lemma not_prefixed p : ~ Prefixed p -> beq (firstn 4 p) PREFIX = false.
Proof.
  intros N. apply beq_false. intros E. apply N. exists (skipn 4 p). rewrite <- (firstn_skipn 4 p) at 1. rewrite E. reflexivity.
Qed.
Lemma read_whole w path f data : r_stat w path = inr (zlen data) \/ ((exists t, r_stat w path = inl t) /\ data <> []) ->
  f = {| x_end := zlen data; x_avail := data; x_error := None; x_rewind := true |} -> (forall n, r_alloc w n = true) ->
  read_stream w path f = (inr data, false).
Proof.
  intros St -> A. unfold read_stream. cbn [x_end x_rewind x_error x_avail].
  assert (F : firstn (Z.to_nat (zlen data)) data = data) by (unfold zlen; rewrite Nat2Z.id; apply firstn_all).
  destruct St as [->|((t & ->) & N)].
  - rewrite A, F. reflexivity.
  - destruct (Z.ltb_spec 0 (zlen data)) as [_|X]; [|destruct data; [congruence|unfold zlen in X; cbn [length] in X; lia]].
    cbn [andb]. rewrite A, F. reflexivity.
Qed.

Lemma read_partial : forall w files path, WindowsDisk w files -> ~ In NUL path -> ~ Prefixed path -> ~ Prefixed (backslashed path) ->
  (forall data, length path <= 4092 -> files (backslashed path) = Some data -> data <> [] \/ length path <= 259 ->
     read_file_win w path = Ok (inr data, false)) /\
  (4092 < length path \/ files (backslashed path) = None -> exists text, read_file_win w path = Ok (inl text, false)).
Proof.
  intros w files path (Short & Long & Al & _) N NP NB. pose proof (Short path NP) as Sh. pose proof (Short _ NB) as Sb.
  rewrite backslashed_length, backslashed_idem in Sb.
  destruct (Long (backslashed path)) as [Op (ts & St)]. rewrite no_slash in Op.
  pose proof (not_prefixed path NP) as Pf.
  split.
  - intros data L F D. rewrite F in Sh, Op. destruct (Nat.leb_spec (length path) 259) as [L9|L9].
    + destruct Sh as [O Sz]. unfold read_file_win. rewrite O. now rewrite (read_whole w path _ data (or_introl Sz) eq_refl Al).
    + destruct D as [D|]; [|lia]. destruct Sh as (t & O). unfold read_file_win. rewrite O.
      destruct (Nat.ltb_spec (MAX_LONG - 4) (length path)) as [X|_]; [unfold MAX_LONG in X; lia|].
      rewrite (long_name_ok path N) by (unfold MAX_LONG; lia). rewrite Pf. destruct (Nat.ltb_spec 255 (length path)) as [_|]; [|lia].
      cbn [andb negb bind]. change (PREFIX ++ backslashed path) with (B "\\?\" ++ backslashed path). rewrite Op.
      now rewrite (read_whole w _ _ data (or_intror (conj (ex_intro _ ts St) D)) eq_refl Al).
  - intros D. assert (Sh' : exists t, r_open w path = inl t).
    { destruct (Nat.leb_spec (length path) 259); [|exact Sh]. destruct D as [|D]; [lia|]. now rewrite D in Sh. }
    destruct Sh' as (t & O). unfold read_file_win. rewrite O.
    destruct (Nat.ltb_spec (MAX_LONG - 4) (length path)) as [|L]; [eexists; reflexivity|].
    destruct D as [D|D]; [unfold MAX_LONG in L; lia|]. rewrite D in Op, Sb. rewrite (long_name_ok path N L), Pf.
    assert (Sb' : exists t, r_open w (backslashed path) = inl t) by (destruct (length path <=? 259); exact Sb).
    destruct (Nat.ltb_spec 255 (length path)) as [_|]; cbn [andb negb bind].
    + change (PREFIX ++ backslashed path) with (B "\\?\" ++ backslashed path). destruct Op as (t' & ->). eexists. reflexivity.
    + destruct Sb' as (t' & ->). eexists. reflexivity.
Qed.
Lemma empty_refuted : forall w files path, WindowsDisk w files -> ~ In NUL path -> ~ Prefixed path ->
  259 < length path <= 4092 -> files (backslashed path) = Some [] -> exists text, read_file_win w path = Ok (inl text, true).
Proof.
  intros w files path (Short & Long & Al & _) N NP L F. pose proof (Short path NP) as Sh.
  destruct (Long (backslashed path)) as [Op (ts & St)]. rewrite no_slash, F in Op.
  destruct (Nat.leb_spec (length path) 259) as [|_]; [lia|]. destruct Sh as (t & O). unfold read_file_win. rewrite O.
  destruct (Nat.ltb_spec (MAX_LONG - 4) (length path)) as [X|_]; [unfold MAX_LONG in X; lia|].
  rewrite (long_name_ok path N) by (unfold MAX_LONG; lia). rewrite (not_prefixed path NP). destruct (Nat.ltb_spec 255 (length path)) as [_|]; [|lia].
  cbn [andb negb bind]. change (PREFIX ++ backslashed path) with (B "\\?\" ++ backslashed path). rewrite Op.
  unfold read_stream. rewrite St. eexists. reflexivity.
Qed.
