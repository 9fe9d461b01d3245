(** Proofs about asprintf(). *)
From Verif Require Import Base ParseModel WireModel AsprintfModel AsprintfSpec.

Lemma block_malloc junk h p : block (snd (malloc junk h)) p = if h_next h =? p then Some junk else block h p.
Proof. unfold block, malloc. cbn [snd h_blocks find fst]. destruct (h_next h =? p); reflexivity. Qed.
Lemma block_fresh h : Proper h -> block h (h_next h) = None.
Proof.
  intros [F _]. unfold block. destruct (find _ _) eqn:E; [|reflexivity]. apply find_some in E. destruct E as [I E]. apply Nat.eqb_eq in E. specialize (F _ I). lia.
Qed.
Lemma find_store p s : forall l q, find (fun b => fst b =? q) (map (fun b : nat * bytes => if fst b =? p then (fst b, s ++ skipn (length s) (snd b)) else b) l) =
  match find (fun b => fst b =? q) l with Some b => Some (if fst b =? p then (fst b, s ++ skipn (length s) (snd b)) else b) | None => None end.
Proof.
  induction l as [|b l IH]; intros q; cbn [map find]; [reflexivity|].
  replace (fst (if fst b =? p then (fst b, s ++ skipn (length s) (snd b)) else b)) with (fst b) by (destruct (fst b =? p); reflexivity).
  destruct (fst b =? q); [reflexivity|apply IH].
Qed.
Lemma block_store p s h q : block (store p s h) q = match block h q with Some b => Some (if q =? p then s ++ skipn (length s) b else b) | None => None end.
Proof.
  unfold block, store. cbn [h_blocks]. rewrite find_store. destruct (find (fun b => fst b =? q) (h_blocks h)) as [b|] eqn:E; [|reflexivity].
  apply find_some in E. destruct E as [_ E]. apply Nat.eqb_eq in E. rewrite E. destruct (q =? p); reflexivity.
Qed.
Lemma find_release p : forall (l : list (nat * bytes)) q, find (fun b => fst b =? q) (filter (fun b => negb (fst b =? p)) l) = if q =? p then None else find (fun b => fst b =? q) l.
Proof.
  induction l as [|b l IH]; intros q; cbn [filter find].
  - destruct (q =? p); reflexivity.
  - destruct (fst b =? p) eqn:E; cbn [negb find].
    + rewrite IH. apply Nat.eqb_eq in E. destruct (q =? p) eqn:F; [reflexivity|]. apply Nat.eqb_neq in F. destruct (Nat.eqb_spec (fst b) q); [congruence|reflexivity].
    + rewrite IH. apply Nat.eqb_neq in E. destruct (Nat.eqb_spec (fst b) q) as [G|G]; [|reflexivity]. destruct (Nat.eqb_spec q p); [congruence|reflexivity].
Qed.
Lemma block_release p h q : block (release p h) q = if q =? p then None else block h q.
Proof. unfold block, release. cbn [h_blocks]. rewrite find_release. destruct (q =? p); reflexivity. Qed.

Lemma proper_malloc junk h : Proper h -> Proper (snd (malloc junk h)).
Proof.
  intros [F N]. unfold malloc. cbn [snd]. split; cbn [h_blocks h_next map fst].
  - intros b [<-|I]; cbn [fst]; [lia|]. specialize (F b I). lia.
  - constructor; [|exact N]. intros I. apply in_map_iff in I. destruct I as (b & E & I). specialize (F b I). lia.
Qed.
Lemma proper_store p s h : Proper h -> Proper (store p s h).
Proof.
  intros [F N]. assert (E : map fst (h_blocks (store p s h)) = map fst (h_blocks h)).
  { unfold store. cbn [h_blocks]. rewrite map_map. apply map_ext. intros b. destruct (fst b =? p); reflexivity. }
  split; [|now rewrite E]. intros b I. apply (in_map fst) in I. rewrite E in I. apply in_map_iff in I. destruct I as (c & <- & I). exact (F c I).
Qed.
Lemma nodup_filter (f : nat * bytes -> bool) l : NoDup (map fst l) -> NoDup (map fst (filter f l)).
Proof.
  induction l as [|b l IH]; intros N; cbn [filter]; [exact N|]. cbn [map] in N. apply NoDup_cons_iff in N. destruct N as [N1 N2].
  destruct (f b); [|now apply IH]. cbn [map]. constructor; [|now apply IH]. intros I. apply N1. apply in_map_iff in I. destruct I as (c & E & I).
  apply filter_In in I. apply in_map_iff. exists c. now split.
Qed.
Lemma proper_release p h : Proper h -> Proper (release p h).
Proof.
  intros [F N]. split; unfold release; cbn [h_blocks h_next]; [|now apply nodup_filter]. intros b I. apply filter_In in I. now apply F.
Qed.

Lemma printed_len t : (zlen t <= INT_MAX)%Z -> printed (Some t) = zlen t.
Proof. intros L. unfold printed. destruct (Z.leb_spec (zlen t) INT_MAX); [reflexivity|lia]. Qed.
Lemma zlen_pos t : (0 <= zlen t)%Z.
Proof. unfold zlen. lia. Qed.
Lemma printed_cases o : printed o = (-1)%Z \/ exists t, o = Some t /\ (zlen t <= INT_MAX)%Z /\ printed o = zlen t.
Proof.
  destruct o as [t|]; [|now left]. unfold printed. destruct (Z.leb_spec (zlen t) INT_MAX); [right; exists t; now repeat split|now left].
Qed.
Lemma printed_bad o : o = None \/ (exists t, o = Some t /\ TooLong t) -> printed o = (-1)%Z.
Proof. intros [->|(t & -> & L)]; [reflexivity|]. unfold printed, TooLong in *. destruct (Z.leb_spec (zlen t) INT_MAX); [lia|reflexivity]. Qed.

(** The second half, once there is a block. *)
Lemma rest given first second strp h t : Sized given -> Proper h -> first = Some t -> (zlen t < INT_MAX)%Z -> forall junk, given (S (length t)) = Some junk ->
  exists h2, vasprintf given first second strp h = Ran (if (printed second =? -1)%Z then ((-1)%Z, strp, release (h_next h) h2) else (printed second, Some (h_next h), h2)) /\
    Proper h2 /\ (forall q, q <> h_next h -> block h2 q = block h q) /\ (second = Some t -> block h2 (h_next h) = Some (t ++ [NUL])).
Proof.
  intros Sz Pr -> L junk G. pose proof (zlen_pos t) as P. unfold vasprintf. rewrite printed_len by lia. cbv zeta.
  destruct (Z.eqb_spec (zlen t) (-1)); [lia|]. assert (E : Z.to_nat (zlen t) = length t) by (unfold zlen; lia). rewrite E, G.
  pose proof (block_malloc junk h) as Bm. pose proof (proper_malloc junk h Pr) as Pm. destruct (malloc junk h) as [p h1] eqn:M. assert (p = h_next h) as -> by (injection M; congruence). cbn [snd] in Bm, Pm.
  destruct (Z.ltb_spec INT_MAX (zlen t + 1)); [lia|]. apply Sz in G. unfold vsnprintf. destruct second as [t2|].
  - rewrite Bm, Nat.eqb_refl. cbn [pred]. assert (Lo : length (firstn (length t) t2 ++ [NUL]) <= length junk) by (rewrite app_length, G, firstn_length; cbn; lia).
    apply Nat.leb_le in Lo. rewrite Lo. eexists. split; [destruct (_ =? -1)%Z; reflexivity|]. split; [now apply proper_store|]. split.
    + intros q N. rewrite block_store, Bm. destruct (Nat.eqb_spec (h_next h) q); [congruence|]. destruct (Nat.eqb_spec q (h_next h)); [congruence|]. now destruct (block h q).
    + intros [= ->]. rewrite block_store, Bm, !Nat.eqb_refl, firstn_all. rewrite skipn_all2 by (rewrite app_length, G; cbn; lia). now rewrite app_nil_r.
  - exists h1. cbn [printed]. split; [reflexivity|]. split; [exact Pm|]. split; [|discriminate]. intros q N. rewrite Bm. destruct (Nat.eqb_spec (h_next h) q); [congruence|reflexivity].
Qed.

Lemma made given t strp h junk : Sized given -> Proper h -> (zlen t < INT_MAX)%Z -> given (S (length t)) = Some junk ->
  exists p h', vasprintf given (Some t) (Some t) strp h = Ran (zlen t, Some p, h') /\ Added h h' p t /\ Proper h'.
Proof.
  intros Sz Pr L G. destruct (rest given (Some t) (Some t) strp h t Sz Pr eq_refl L junk G) as (h2 & E & P2 & O & N). rewrite printed_len in E by lia.
  pose proof (zlen_pos t). destruct (Z.eqb_spec (zlen t) (-1)) in E; [lia|]. exists (h_next h), h2. split; [exact E|]. split; [|exact P2]. split; [now apply block_fresh|]. split; [now apply N|exact O].
Qed.

Lemma not_made given first second strp h : Sized given -> Proper h ->
  (first = None \/ exists t, first = Some t /\ (TooLong t \/ given (S (length t)) = None \/ ((zlen t < INT_MAX)%Z /\ (second = None \/ exists u, second = Some u /\ TooLong u)))) ->
  exists h', vasprintf given first second strp h = Ran ((-1)%Z, strp, h') /\ SameBlocks h h' /\ Proper h'.
Proof.
  intros Sz Pr [->|(t & -> & C)].
  - exists h. split; [reflexivity|]. split; [now intros p|exact Pr].
  - destruct (printed_cases (Some t)) as [E|(u & Eu & L & E)].
    { unfold vasprintf. rewrite E. cbn. exists h. split; [reflexivity|]. split; [now intros p|exact Pr]. }
    injection Eu as <-. destruct C as [C|[C|[L' C]]].
    + unfold TooLong in C. lia.
    + unfold vasprintf. rewrite E. cbv zeta. destruct (Z.eqb_spec (zlen t) (-1)); [pose proof (zlen_pos t); lia|].
      replace (Z.to_nat (zlen t)) with (length t) by (unfold zlen; lia). rewrite C. exists h. split; [reflexivity|]. split; [now intros p|exact Pr].
    + destruct (given (S (length t))) as [junk|] eqn:G.
      * destruct (rest given (Some t) second strp h t Sz Pr eq_refl L' junk G) as (h2 & R & P2 & O & _). rewrite (printed_bad second C) in R. cbn in R. exists (release (h_next h) h2).
        split; [exact R|]. split; [|now apply proper_release]. intros p. rewrite block_release. destruct (Nat.eqb_spec p (h_next h)) as [->|N]; [symmetry; now apply block_fresh|now apply O].
      * unfold vasprintf. rewrite E. cbv zeta. destruct (Z.eqb_spec (zlen t) (-1)); [pose proof (zlen_pos t); lia|].
        replace (Z.to_nat (zlen t)) with (length t) by (unfold zlen; lia). rewrite G. exists h. split; [reflexivity|]. split; [now intros p|exact Pr].
Qed.

Lemma inside given first second strp h : Sized given -> Proper h -> (forall t, first = Some t -> zlen t <> INT_MAX) ->
  exists r, vasprintf given first second strp h = Ran r.
Proof.
  intros Sz Pr N. destruct (printed_cases first) as [E|(t & -> & L & E)].
  - unfold vasprintf. rewrite E. cbn. now eexists.
  - specialize (N t eq_refl). destruct (given (S (length t))) as [junk|] eqn:G.
    + assert (L' : (zlen t < INT_MAX)%Z) by lia. destruct (rest given (Some t) second strp h t Sz Pr eq_refl L' junk G) as (h2 & R & _). rewrite R. now eexists.
    + destruct (not_made given (Some t) second strp h Sz Pr) as (h' & R & _); [right; exists t; split; [reflexivity|right; now left]|]. rewrite R. now eexists.
Qed.

Lemma longest given t second strp h junk : zlen t = INT_MAX -> given (S (length t)) = Some junk -> vasprintf given (Some t) second strp h = Overflow.
Proof.
  intros L G. unfold vasprintf. rewrite printed_len by lia. cbv zeta. destruct (Z.eqb_spec (zlen t) (-1)) as [E|_]; [rewrite L in E; discriminate|].
  replace (Z.to_nat (zlen t)) with (length t) by (unfold zlen; lia). rewrite G. unfold malloc. rewrite L. reflexivity.
Qed.
