(** Proofs about CBC mode, chunked encryption and decryption of one file. *)
From Verif Require Import Base BaseProofs WireModel CryptModel CryptSpec.

(** ** xor *)
Lemma bxor_invol a b : bxor (bxor a b) b = a.
Proof.
  destruct a as [a0 a1 a2 a3 a4 a5 a6 a7], b as [b0 b1 b2 b3 b4 b5 b6 b7]. cbn [bxor].
  rewrite !xorb_assoc, !xorb_nilpotent, !xorb_false_r. reflexivity.
Qed.
Lemma bxor_nul a : bxor a NUL = a.
Proof. destruct a. unfold NUL, Ascii.zero. cbn [bxor]. now rewrite !xorb_false_r. Qed.
Lemma xor_length a b : length (xor a b) = length a.
Proof. revert b. induction a as [|x a IH]; intros [|y b]; cbn; [reflexivity..|]. now rewrite IH. Qed.
Lemma xor_invol a b : xor (xor a b) b = a.
Proof.
  revert b. induction a as [|x a IH]; intros [|y b]; [reflexivity..|].
  cbn [xor]. now rewrite bxor_invol, IH.
Qed.
Lemma xor_zeros k : forall n, xor k (repeat NUL n) = k.
Proof.
  induction k as [|x k IH]; intros [|n]; [reflexivity..|]. cbn [length repeat xor]. now rewrite bxor_nul, IH.
Qed.

(** ** streaming *)

Arguments cbc_encrypt : simpl never.
Lemma cbc_S pr key n chain s : cbc_encrypt pr key (S n) chain s =
  (let c := p_enc pr key (xor (firstn BLOCK s) chain) in
   let '(chain', rest, out) := cbc_encrypt pr key n c (skipn BLOCK s) in (chain', rest, c ++ out)).
Proof. reflexivity. Qed.

Lemma cbc_app pr key n m : forall chain s,
  cbc_encrypt pr key (n + m) chain s =
  (let '(c1, r1, o1) := cbc_encrypt pr key n chain s in
   let '(c2, r2, o2) := cbc_encrypt pr key m c1 r1 in (c2, r2, o1 ++ o2)).
Proof.
  induction n as [|n IH]; intros chain s.
  - change (cbc_encrypt pr key 0 chain s) with (chain, s, @nil ascii). cbn [Nat.add].
    destruct (cbc_encrypt pr key m chain s) as [[c r] o]. reflexivity.
  - cbn [Nat.add]. rewrite !cbc_S. cbn zeta.
    rewrite (IH (p_enc pr key (xor (firstn BLOCK s) chain)) (skipn BLOCK s)).
    destruct (cbc_encrypt pr key n _ (skipn BLOCK s)) as [[c1 r1] o1].
    destruct (cbc_encrypt pr key m c1 r1) as [[c2 r2] o2]. now rewrite app_assoc.
Qed.

Lemma cbc_more pr key n : forall chain s t, n * BLOCK <= length s ->
  cbc_encrypt pr key n chain (s ++ t) =
  (let '(c, r, o) := cbc_encrypt pr key n chain s in (c, r ++ t, o)).
Proof.
  induction n as [|n IH]; intros chain s t H; [reflexivity|].
  rewrite !cbc_S. cbn zeta. rewrite firstn_app, skipn_app.
  assert (K : BLOCK - length s = 0) by (cbn in H; unfold BLOCK in *; lia).
  rewrite K. cbn [firstn skipn]. rewrite app_nil_r, IH by (rewrite skipn_length; unfold BLOCK in *; lia).
  destruct (cbc_encrypt pr key n _ (skipn BLOCK s)) as [[c r] o]. reflexivity.
Qed.

Lemma skipn_twice {A} (l : list A) : forall m n, skipn n (skipn m l) = skipn (m + n) l.
Proof.
  induction l as [|x l IH]; intros m n; [now rewrite !skipn_nil|].
  destruct m as [|m]; [reflexivity|]. cbn [skipn Nat.add]. apply IH.
Qed.
Lemma cbc_rest pr key n : forall chain s, snd (fst (cbc_encrypt pr key n chain s)) = skipn (n * BLOCK) s.
Proof.
  induction n as [|n IH]; intros chain s; [reflexivity|]. rewrite cbc_S. cbn zeta.
  specialize (IH (p_enc pr key (xor (firstn BLOCK s) chain)) (skipn BLOCK s)).
  destruct (cbc_encrypt pr key n _ (skipn BLOCK s)) as [[c r] o]. cbn [fst snd] in *. rewrite IH, skipn_twice.
  f_equal.
Qed.

Definition inv (v : evp) : Prop := length (v_rest v) < BLOCK.

Lemma rest_short pr key chain s :
  length (snd (fst (cbc_encrypt pr key (length s / BLOCK) chain s))) < BLOCK.
Proof.
  rewrite cbc_rest, skipn_length. pose proof (Nat.div_mod (length s) BLOCK ltac:(unfold BLOCK; lia)).
  pose proof (Nat.mod_upper_bound (length s) BLOCK ltac:(unfold BLOCK; lia)). lia.
Qed.
Lemma update_inv pr key v d : inv (fst (evp_update pr key v d)).
Proof.
  unfold evp_update, inv. pose proof (rest_short pr key (v_chain v) (v_rest v ++ d)) as H.
  destruct (cbc_encrypt pr key _ (v_chain v) (v_rest v ++ d)) as [[c r] o]. exact H.
Qed.

Lemma update_app pr key v a b :
  evp_update pr key v (a ++ b) =
  (let '(v1, o1) := evp_update pr key v a in let '(v2, o2) := evp_update pr key v1 b in (v2, o1 ++ o2)).
Proof.
  unfold evp_update. rewrite app_assoc. set (s := v_rest v ++ a).
  pose proof (rest_short pr key (v_chain v) s) as RS.
  pose proof (cbc_rest pr key (length s / BLOCK) (v_chain v) s) as RE.
  assert (Bk : BLOCK <> 0) by (unfold BLOCK; lia).
  pose proof (Nat.div_mod (length s) BLOCK Bk) as DM.
  assert (N : length (s ++ b) / BLOCK = length s / BLOCK + length (skipn (length s / BLOCK * BLOCK) s ++ b) / BLOCK).
  { rewrite !app_length, skipn_length.
    replace (length s + length b) with ((length s - length s / BLOCK * BLOCK + length b) + (length s / BLOCK) * BLOCK).
    - rewrite Nat.div_add by exact Bk. lia.
    - pose proof (Nat.mul_div_le (length s) BLOCK Bk). lia. }
  rewrite N, cbc_app.
  rewrite cbc_more by (pose proof (Nat.mul_div_le (length s) BLOCK Bk); lia).
  destruct (cbc_encrypt pr key (length s / BLOCK) (v_chain v) s) as [[c1 r1] o1]. cbn [fst snd] in RS, RE. subst r1.
  cbn [v_rest v_chain].
  destruct (cbc_encrypt pr key _ c1 (skipn (length s / BLOCK * BLOCK) s ++ b)) as [[c2 r2] o2]. reflexivity.
Qed.

Lemma update_nil pr key v : inv v -> evp_update pr key v [] = (v, []).
Proof.
  intros H. unfold evp_update. rewrite app_nil_r, (Nat.div_small (length (v_rest v))) by exact H.
  destruct v; reflexivity.
Qed.

Lemma out_length pr key n : (forall k b, length k = 32 -> length b = 16 -> length (p_enc pr k b) = 16) ->
  length key = 32 -> forall chain s, length chain = 16 -> n * BLOCK <= length s ->
  length (snd (cbc_encrypt pr key n chain s)) = n * BLOCK /\
  length (fst (fst (cbc_encrypt pr key n chain s))) = 16.
Proof.
  intros G K. induction n as [|n IH]; intros chain s C H; [split; [reflexivity|exact C]|].
  rewrite cbc_S. cbn zeta.
  assert (L : length (p_enc pr key (xor (firstn BLOCK s) chain)) = 16).
  { apply G; [exact K|]. rewrite xor_length, firstn_length. cbn in H. unfold BLOCK in *. lia. }
  destruct (IH _ (skipn BLOCK s) L) as [I1 I2]; [rewrite skipn_length; cbn in H; unfold BLOCK in *; lia|].
  destruct (cbc_encrypt pr key n _ (skipn BLOCK s)) as [[c r] o]. cbn [fst snd] in *.
  rewrite app_length, L, I1. split; [reflexivity|exact I2].
Qed.

Definition vinv (v : evp) : Prop := inv v /\ length (v_chain v) = 16.

Lemma update_vinv pr key v d : (forall k b, length k = 32 -> length b = 16 -> length (p_enc pr k b) = 16) ->
  length key = 32 -> vinv v ->
  vinv (fst (evp_update pr key v d)) /\ length (snd (evp_update pr key v d)) <= length d + 15.
Proof.
  intros G K [I C]. split; [split; [apply update_inv|]|].
  - unfold evp_update. pose proof (out_length pr key (length (v_rest v ++ d) / BLOCK) G K (v_chain v) (v_rest v ++ d) C) as [_ L].
    { rewrite Nat.mul_comm. apply Nat.mul_div_le. unfold BLOCK; lia. }
    destruct (cbc_encrypt pr key _ (v_chain v) (v_rest v ++ d)) as [[c r] o]. exact L.
  - unfold evp_update. pose proof (out_length pr key (length (v_rest v ++ d) / BLOCK) G K (v_chain v) (v_rest v ++ d) C) as [L _].
    { rewrite Nat.mul_comm. apply Nat.mul_div_le. unfold BLOCK; lia. }
    destruct (cbc_encrypt pr key _ (v_chain v) (v_rest v ++ d)) as [[c r] o]. cbn [snd] in *. rewrite L.
    pose proof (Nat.mul_div_le (length (v_rest v ++ d)) BLOCK ltac:(unfold BLOCK; lia)) as M.
    rewrite app_length in *. unfold inv, BLOCK in *. lia.
Qed.

Lemma put_chunk_ok pr key v d : (forall k b, length k = 32 -> length b = 16 -> length (p_enc pr k b) = 16) ->
  length key = 32 -> vinv v -> length d <= 256 -> put_chunk pr key v d = Ok (evp_update pr key v d).
Proof.
  intros G K V L. unfold put_chunk. pose proof (proj2 (update_vinv pr key v d G K V)) as U.
  destruct (evp_update pr key v d) as [v' out]. cbn [snd] in U.
  destruct (Nat.ltb_spec CRYPT_BUF_LEN (length out)); [|reflexivity]. unfold CRYPT_BUF_LEN, READ_BUF_LEN in *. lia.
Qed.

Lemma put_chunks_ok pr key ds : (forall k b, length k = 32 -> length b = 16 -> length (p_enc pr k b) = 16) ->
  length key = 32 -> Forall (fun d => length d <= 256) ds -> forall v, vinv v ->
  put_chunks pr key v ds = Ok (evp_update pr key v (concat ds)).
Proof.
  intros G K. induction 1 as [|d ds Hd _ IH]; intros v V; cbn [put_chunks concat].
  - now rewrite update_nil by apply V.
  - rewrite put_chunk_ok by assumption. rewrite update_app.
    pose proof (proj1 (update_vinv pr key v d G K V)) as V1.
    destruct (evp_update pr key v d) as [v1 o1]. cbn [bind fst] in *. rewrite IH by exact V1.
    destruct (evp_update pr key v1 (concat ds)) as [v2 o2]. reflexivity.
Qed.

Lemma reads_ok fuel : forall file, length file <= fuel ->
  concat (reads fuel file) = file /\ Forall (fun d => length d <= 256) (reads fuel file).
Proof.
  induction fuel as [|f IH]; intros file H; cbn [reads].
  - destruct file; [|cbn in H; lia]. split; [reflexivity|]. constructor; [cbn; lia|constructor].
  - destruct (Nat.ltb_spec (length file) READ_BUF_LEN) as [L|L].
    + cbn [concat]. rewrite app_nil_r. split; [reflexivity|]. unfold READ_BUF_LEN in L. constructor; [lia|constructor].
    + unfold READ_BUF_LEN in *. destruct (IH (skipn 256 file)) as [I1 I2]; [rewrite skipn_length; lia|].
      cbn [concat]. rewrite I1, firstn_skipn. split; [reflexivity|]. constructor; [rewrite firstn_length; lia|exact I2].
Qed.

(** ** blocks *)

Fixpoint blocks (n : nat) (s : bytes) : list bytes :=
  match n with O => [] | S n' => firstn BLOCK s :: blocks n' (skipn BLOCK s) end.
Lemma blocks_concat n : forall s, length s = n * BLOCK -> concat (blocks n s) = s /\ Forall (fun b => length b = 16) (blocks n s).
Proof.
  induction n as [|n IH]; intros s H; cbn [blocks concat].
  - destruct s; [|discriminate]. split; [reflexivity|constructor].
  - cbn in H. destruct (IH (skipn BLOCK s)) as [I1 I2]; [rewrite skipn_length; unfold BLOCK in *; lia|].
    rewrite I1, firstn_skipn. split; [reflexivity|]. constructor; [|exact I2].
    rewrite firstn_length. unfold BLOCK in *. lia.
Qed.
Lemma cbc_spec pr key n : forall chain s,
  exists cs, Cbc pr key chain (blocks n s) cs /\ snd (cbc_encrypt pr key n chain s) = concat cs.
Proof.
  induction n as [|n IH]; intros chain s; cbn [blocks].
  - exists []. split; [constructor|reflexivity].
  - rewrite cbc_S. cbn zeta. destruct (IH (p_enc pr key (xor (firstn BLOCK s) chain)) (skipn BLOCK s)) as (cs & C & E).
    destruct (cbc_encrypt pr key n _ (skipn BLOCK s)) as [[c r] o]. cbn [snd] in *.
    exists (p_enc pr key (xor (firstn BLOCK s) chain) :: cs). split; [now constructor|]. cbn [concat]. now rewrite E.
Qed.

Lemma padding_mod n m : n mod BLOCK = m mod BLOCK -> padding n = padding m.
Proof. unfold padding. now intros ->. Qed.
Lemma padding_aligned n : exists q, n + length (padding n) = q * BLOCK.
Proof.
  unfold padding. rewrite repeat_length. pose proof (Nat.mod_upper_bound n BLOCK ltac:(unfold BLOCK; lia)) as U.
  pose proof (Nat.div_mod n BLOCK ltac:(unfold BLOCK; lia)) as DM. exists (S (n / BLOCK)). unfold BLOCK in *. lia.
Qed.
Lemma padding_spec n : exists k, 1 <= k <= 16 /\ padding n = repeat (ch k) k.
Proof.
  exists (BLOCK - n mod BLOCK). pose proof (Nat.mod_upper_bound n BLOCK ltac:(unfold BLOCK; lia)).
  split; [unfold BLOCK in *; lia|reflexivity].
Qed.

Lemma update_rest_mod pr key v d : inv v -> length (v_rest (fst (evp_update pr key v d))) mod BLOCK = (length (v_rest v) + length d) mod BLOCK.
Proof.
  intros I. unfold evp_update. pose proof (cbc_rest pr key (length (v_rest v ++ d) / BLOCK) (v_chain v) (v_rest v ++ d)) as R.
  destruct (cbc_encrypt pr key _ (v_chain v) (v_rest v ++ d)) as [[c r] o]. cbn [fst snd v_rest] in *. rewrite R, skipn_length.
  rewrite <- app_length. set (l := length (v_rest v ++ d)).
  rewrite Nat.mul_comm, <- Nat.mod_eq by (unfold BLOCK; lia). apply Nat.mod_mod. unfold BLOCK; lia.
Qed.

(** C27: what is written. *)
Lemma encrypt_with_sealed pr key iv file mask :
  GoodPrimitives pr -> length key = 32 -> length iv = 16 ->
  (forall m, mask = Some m -> length m = p_len pr) ->
  exists out, encrypt_with pr key iv file mask = Ok out /\
    Sealed pr key iv (file ++ match mask with Some m => m | None => [] end) out.
Proof.
  intros (G & _ & Ln) K I M. assert (G' : forall k b, length k = 32 -> length b = 16 -> length (p_enc pr k b) = 16) by (intros k b H1 H2; now apply G).
  destruct (reads_ok (length file) file (le_n _)) as [R1 R2].
  unfold encrypt_with. fold (file_reads file) in R1, R2. set (v0 := {| v_chain := iv; v_rest := [] |}).
  assert (V0 : vinv v0) by (split; [unfold inv, BLOCK; cbn; lia|exact I]).
  rewrite (put_chunks_ok pr key _ G' K R2 v0 V0). rewrite R1.
  set (tail := match mask with Some m => m | None => [] end).
  destruct (evp_update pr key v0 file) as [v1 o1] eqn:E1. cbn [bind].
  assert (V1 : vinv v1) by (pose proof (proj1 (update_vinv pr key v0 file G' K V0)) as V; rewrite E1 in V; exact V).
  assert (E2 : match mask with Some m => put_chunk pr key v1 m | None => Ok (v1, []) end = Ok (evp_update pr key v1 tail)).
  { unfold tail. destruct mask as [m|]; [apply put_chunk_ok; auto; rewrite (M m eq_refl); lia|].
    now rewrite update_nil by apply V1. }
  rewrite E2. destruct (evp_update pr key v1 tail) as [v2 o2] eqn:E3. cbn [bind].
  assert (All : evp_update pr key v0 (file ++ tail) = (v2, o1 ++ o2)) by (rewrite update_app, E1, E3; reflexivity).
  eexists. split; [reflexivity|].
  set (data := file ++ tail) in *.
  assert (Pd : padding (length (v_rest v2)) = padding (length data)).
  { apply padding_mod. pose proof (update_rest_mod pr key v0 data (proj1 V0)) as U. rewrite All in U. exact U. }
  unfold evp_final. rewrite Pd. destruct (padding_spec (length data)) as (k & Hk & Ek).
  destruct (padding_aligned (length data)) as (q & Eq).
  assert (Fin : evp_update pr key v0 (data ++ padding (length data)) =
                (fst (evp_update pr key v2 (padding (length data))), (o1 ++ o2) ++ snd (evp_update pr key v2 (padding (length data))))).
  { rewrite update_app, All. destruct (evp_update pr key v2 (padding (length data))). reflexivity. }
  set (o3 := snd (evp_update pr key v2 (padding (length data)))) in *.
  assert (Lp : length (data ++ padding (length data)) = q * BLOCK) by (rewrite app_length; exact Eq).
  unfold evp_update in Fin. cbn [v_rest v_chain v0] in Fin. rewrite app_nil_l, Lp, Nat.div_mul in Fin by (unfold BLOCK; lia).
  destruct (cbc_spec pr key q iv (data ++ padding (length data))) as (cs & C & Ec).
  destruct (cbc_encrypt pr key q iv (data ++ padding (length data))) as [[ch' r'] o']. cbn [snd] in Ec.
  assert (Eo : o' = (o1 ++ o2) ++ o3) by congruence.
  exists (blocks q (data ++ padding (length data))), cs. split; [|split].
  - destruct (blocks_concat q _ Lp) as [B1 B2]. exists k. rewrite B1, <- Ek. auto.
  - exact C.
  - rewrite <- Ec, Eo, <- !app_assoc. reflexivity.
Qed.

(** ** decryption *)

Arguments cbc_decrypt : simpl never.
Lemma cbc_decrypt_inverse pr key : GoodPrimitives pr -> length key = 32 ->
  forall bs chain cs, Cbc pr key chain bs cs -> length chain = 16 -> Forall (fun b => length b = 16) bs ->
  cbc_decrypt pr key (length bs) chain (concat cs) = concat bs /\ length (concat cs) = length bs * BLOCK.
Proof.
  intros G K bs chain cs C. induction C as [|chain b bs cs C IH]; intros L F; [split; reflexivity|].
  apply Forall_cons_iff in F. destruct F as [Lb F].
  assert (Lx : length (xor b chain) = 16) by (rewrite xor_length; lia).
  destruct (proj1 G key (xor b chain) K Lx) as [De Le]. destruct (IH Le F) as [I1 I2].
  assert (Fb : firstn BLOCK (p_enc pr key (xor b chain) ++ concat cs) = p_enc pr key (xor b chain)).
  { unfold BLOCK. rewrite <- Le. rewrite firstn_app, Nat.sub_diag, firstn_all. cbn [firstn]. apply app_nil_r. }
  assert (Sb : skipn BLOCK (p_enc pr key (xor b chain) ++ concat cs) = concat cs).
  { unfold BLOCK. rewrite <- Le. rewrite skipn_app, Nat.sub_diag, skipn_all. reflexivity. }
  cbn [length concat]. change (cbc_decrypt pr key (S (length bs)) chain ?s) with
    (xor (p_dec pr key (firstn BLOCK s)) chain ++ cbc_decrypt pr key (length bs) (firstn BLOCK s) (skipn BLOCK s)).
  rewrite Fb, Sb, De, I1, xor_invol by lia. rewrite app_length, I2, Le. split; [reflexivity|]. cbn. reflexivity.
Qed.

Lemma concat_length (bs : list bytes) : Forall (fun b => length b = 16) bs -> length (concat bs) = length bs * BLOCK.
Proof. induction 1 as [|b bs H _ IH]; [reflexivity|]. cbn [concat length]. rewrite app_length, H, IH. reflexivity. Qed.

Lemma last_byte_repeat s c k : 1 <= k -> last_byte (s ++ repeat c k) = Some c.
Proof.
  intros H. destruct k as [|k]; [lia|]. rewrite <- (Nat.add_1_r k), repeat_app, app_assoc. cbn [repeat].
  unfold last_byte. rewrite rev_app_distr. reflexivity.
Qed.
Lemma unpad_padded s k : 1 <= k <= 16 -> unpad (s ++ repeat (ch k) k) = Some s.
Proof.
  intros H. unfold unpad. rewrite last_byte_repeat by lia.
  assert (N : nat_of_ascii (ch k) = k) by (apply nat_ascii_embedding; lia).
  rewrite N, app_length, repeat_length. replace (length s + k - k) with (length s) by lia.
  rewrite skipn_app, skipn_all, Nat.sub_diag. cbn [skipn app]. rewrite firstn_app, firstn_all, Nat.sub_diag. cbn [firstn].
  rewrite app_nil_r, beq_refl. unfold BLOCK.
  destruct (Nat.leb_spec 1 k); [|lia]. destruct (Nat.leb_spec k 16); [|lia]. reflexivity.
Qed.

(** Parts of an encrypted file. *)
Lemma sealed_parts pr key iv data out :
  GoodPrimitives pr -> length key = 32 -> length iv = 16 -> Sealed pr key iv data out ->
  exists ct, out = iv ++ ct ++ Mac pr key (iv ++ data) /\
    evp_decrypt pr key iv ct = Some data /\ length data < length ct <= length data + 16.
Proof.
  intros G K I (bs & cs & (k & Hk & Eb & Fb) & C & ->).
  destruct (cbc_decrypt_inverse pr key G K bs iv cs C I Fb) as [D L].
  pose proof (concat_length bs Fb) as Lb. rewrite Eb, app_length, repeat_length in Lb.
  exists (concat cs). split; [reflexivity|]. split; [|lia].
  unfold evp_decrypt. rewrite L, Nat.mod_mul, Nat.div_mul by (unfold BLOCK; lia).
  destruct (Nat.eqb_spec (length bs * BLOCK) 0); [lia|]. cbn [orb negb Nat.eqb]. rewrite D, Eb. now apply unpad_padded.
Qed.

Lemma to_int_id z : (0 <= z < 2^31)%Z -> to_int z = z.
Proof. intros H. unfold to_int. rewrite Z.mod_small by lia. lia. Qed.

Lemma decrypt_sealed pr K dm t rel key iv data out flag t1 :
  GoodPrimitives pr -> length key = 32 -> length iv = 16 -> (zlen data < 2^31 - 128)%Z ->
  Sealed pr key iv data out -> dm t rel K = Ok (flag, t1, key) ->
  decrypt_with pr K dm t rel out =
    if (flag =? 0)%Z then Ok (t1, zlen data, data)
    else let n := (zlen data - Z.of_nat (p_len pr))%Z in
         if (n <? 0)%Z then UB OobRead
         else bind (store_mask t1 rel (firstn (p_len pr) (skipn (Z.to_nat n) data))) (fun t2 => Ok (t2, n, data)).
Proof.
  intros G Lk Li Ld S E. destruct (sealed_parts pr key iv data out G Lk Li S) as (ct & -> & De & Lc).
  pose proof (proj1 (proj2 G) (firstn (p_len pr) key) (iv ++ data)) as Lm. fold (Mac pr key (iv ++ data)) in Lm. set (mac := Mac pr key (iv ++ data)) in *.
  unfold decrypt_with. rewrite E. cbn [bind].
  assert (Lo : length (iv ++ ct ++ mac) = 16 + length ct + 32) by (rewrite !app_length; lia).
  destruct (Nat.ltb_spec (length (iv ++ ct ++ mac) + 1) BLOCK) as [X|_]; [unfold BLOCK in X; lia|].
  assert (E1 : firstn BLOCK ((iv ++ ct ++ mac) ++ [NUL]) = iv).
  { unfold BLOCK. rewrite <- app_assoc, <- Li, firstn_app, Nat.sub_diag, firstn_all. cbn [firstn]. apply app_nil_r. }
  assert (E2 : (zlen (iv ++ ct ++ mac) - Z.of_nat BLOCK - Z.of_nat MAC_LEN = Z.of_nat (length ct))%Z).
  { unfold zlen. rewrite Lo. unfold BLOCK, MAC_LEN. lia. }
  assert (E3 : to_int (Z.of_nat (length ct)) = Z.of_nat (length ct)).
  { apply to_int_id. unfold zlen in Ld. change (2^31)%Z with 2147483648%Z in *. lia. }
  rewrite E1, E2, E3.
  destruct (Z.ltb_spec (Z.of_nat (length ct)) 0) as [X|_]; [lia|].
  rewrite Nat2Z.id.
  assert (E4 : skipn BLOCK (iv ++ ct ++ mac) = ct ++ mac).
  { unfold BLOCK. rewrite <- Li, skipn_app, Nat.sub_diag, skipn_all. reflexivity. }
  rewrite E4, firstn_app, Nat.sub_diag, firstn_all. cbn [firstn]. rewrite app_nil_r, De.
  assert (E5 : skipn (length (iv ++ ct ++ mac) - MAC_LEN) (iv ++ ct ++ mac) = mac).
  { rewrite app_assoc. replace (length ((iv ++ ct) ++ mac) - MAC_LEN) with (length (iv ++ ct)).
    - rewrite skipn_app, Nat.sub_diag, skipn_all. reflexivity.
    - rewrite (app_length (iv ++ ct)), Lm. unfold MAC_LEN. lia. }
  rewrite E5. change (mac_of pr key (iv ++ data)) with mac. rewrite beq_refl. reflexivity.
Qed.

