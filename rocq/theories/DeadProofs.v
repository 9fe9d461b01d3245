(** Proofs about LVEs that end. *)
From Coq Require Import List Arith Bool Lia.
Import ListNotations.
From Verif Require Import SpawnModel SpawnSpec SpawnProofs SpawnHist SpawnThms DeadModel DeadSpec.

Lemma same_object_spec a b : same_object a b = true <-> a = b.
Proof. destruct a, b; cbn; rewrite ?Nat.eqb_eq; split; intros H; try discriminate H; try congruence. Qed.
Lemma holds_spec t o : holds t o = true <-> Holds t o.
Proof.
  unfold holds, Holds, get. rewrite existsb_exists. split.
  - intros (x & I & E). destruct x as [o'|]; [|discriminate]. apply same_object_spec in E. subst o'. apply (In_nth _ _ None) in I. destruct I as (n & _ & <-). now exists n.
  - intros (n & E). exists (Some o). split; [|now apply same_object_spec]. rewrite <- E. apply nth_In. destruct (Nat.lt_ge_cases n (length t)) as [L|L]; [exact L|].
    rewrite nth_overflow in E by exact L. discriminate.
Qed.
Lemma held_spec s o : held s o = true <-> HeldBySome s o.
Proof.
  unfold held, HeldBySome. rewrite orb_true_iff, holds_spec, existsb_exists. split.
  - intros [H|(l & I & E)]; [now left|right]. apply In_nth_error in I. destruct I as (j & I). destruct (l_fds l) as [t|] eqn:F; [|discriminate].
    exists j, t. split; [now exists l|now apply holds_spec].
  - intros [H|(j & t & (l & I & F) & H)]; [now left|right]. exists l. split; [exact (nth_error_In _ _ I)|]. rewrite F. now apply holds_spec.
Qed.

(** ** A connection *)

(** The LVE, its pipes and the descriptors of the tool. *)
Definition Link (limit : nat) (s : system) (c : connection) (p q : nat) : Prop :=
  Inv limit s /\ (exists l, nth_error (s_lves s) (c_lve c) = Some l /\ l_in l = p /\ l_out l = q) /\
  get (s_tool s) (c_to c) = Some (WriteEnd p) /\ get (s_tool s) (c_from c) = Some (ReadEnd q).
Definition lives (s : system) (j : nat) : bool := match nth_error (s_lves s) j with Some l => match l_fds l with Some _ => true | None => false end | None => false end.
Lemma lives_spec s j : lives s j = true <-> exists tb, Alive s j tb.
Proof.
  unfold lives, Alive. split.
  - destruct (nth_error _ _) as [l|]; [|discriminate]. destruct (l_fds l) as [t|] eqn:F; [|discriminate]. exists t, l. now split.
  - intros (tb & l & -> & ->). reflexivity.
Qed.
Lemma lives_false st j : lives (g_sys st) j = false <-> Gone st j.
Proof.
  unfold Gone. split.
  - intros E tb A. assert (lives (g_sys st) j = true) by (apply lives_spec; eauto). congruence.
  - intros G. destruct (lives (g_sys st) j) eqn:E; [|reflexivity]. apply lives_spec in E. destruct E as [tb A]. now destruct (G tb).
Qed.

Lemma link_read limit s c p q : Link limit s c p q -> held s (WriteEnd q) = true.
Proof. intros (I & (l & H & _ & <-) & _). apply held_spec. left. exact (i_leak _ _ I _ l H). Qed.
Lemma link_write limit s c p q : Link limit s c p q -> held s (ReadEnd p) = lives s (c_lve c).
Proof.
  intros (I & (l & H & <- & _) & _). destruct (lives s (c_lve c)) eqn:Lv.
  - apply held_spec. right. apply lives_spec in Lv. destruct Lv as (tb & l' & H' & F). assert (l' = l) as -> by congruence.
    destruct (i_alive _ _ I _ l tb H F) as (A0 & _). exists (c_lve c), tb. split; [now exists l|now exists 0].
  - destruct (held s (ReadEnd (l_in l))) eqn:Hd; [exfalso|reflexivity]. apply held_spec in Hd.
    destruct Hd as [Ht|(j & tb & (l' & H' & F) & n & Gn)]; [exact (i_noread _ _ I _ l H Ht)|]. destruct (i_alive _ _ I j l' tb H' F) as (A0 & A1 & A2).
    destruct n as [|[|n]].
    + assert (l_in l' = l_in l) as E by congruence. pose proof (in_inj limit s j (c_lve c) l' l I H' H E) as ->.
      assert (lives s (c_lve c) = true) by (apply lives_spec; exists tb, l'; now split). congruence.
    + congruence.
    + destruct (A2 (S (S n)) (ReadEnd (l_in l)) (l_in l) ltac:(lia) Gn eq_refl) as [_ B]. exact (B eq_refl _ l H eq_refl).
Qed.
Lemma link_pipes limit s c p q : Link limit s c p q -> p <> q.
Proof. intros (I & (l & H & <- & <-) & _) E. exact (in_not_out limit s _ _ l l I H H E). Qed.

(** ** What happens outside *)

Lemma ended_lves s j k : nth_error (s_lves (step 0 s (Ended j))) k =
  match nth_error (s_lves s) k with Some l => Some (if k =? j then {| l_fds := None; l_in := l_in l; l_out := l_out l |} else l) | None => None end.
Proof.
  cbn [step s_lves]. destruct (nth_error (s_lves s) j) as [l|] eqn:E.
  - rewrite nth_error_replace. destruct (Nat.eqb_spec k j) as [->|N]; [now rewrite E|]. now destruct (nth_error (s_lves s) k).
  - destruct (Nat.eqb_spec k j) as [->|N]; [now rewrite E|]. now destruct (nth_error (s_lves s) k).
Qed.
Definition keeps (h : happening) (j : nat) : bool := match h with Ends k => negb (k =? j) | Writes _ => true end.
Lemma happen_link limit st h c p q : Link limit (g_sys st) c p q -> Link limit (g_sys (happen st h)) c p q /\
  s_tool (g_sys (happen st h)) = s_tool (g_sys st) /\
  lives (g_sys (happen st h)) (c_lve c) = lives (g_sys st) (c_lve c) && keeps h (c_lve c) /\
  g_box (happen st h) q = g_box st q + (if lives (g_sys st) (c_lve c) then said (c_lve c) [h] else 0).
Proof.
  intros Lk. pose proof Lk as (I & (l & H & Ep & Eq) & G1 & G2). destruct h as [j|j].
  - cbn [happen g_sys g_box keeps said]. split; [|split; [reflexivity|split]].
    + split; [exact (inv_step limit (g_sys st) (Ended j) I)|]. split; [|now split]. rewrite ended_lves, H. eexists. split; [reflexivity|]. now destruct (c_lve c =? j).
    + unfold lives. rewrite ended_lves, H. rewrite (Nat.eqb_sym j). destruct (c_lve c =? j); cbn [l_fds negb]; [now rewrite andb_false_r|now rewrite andb_true_r].
    + destruct (j =? c_lve c), (lives _ _); lia.
  - cbn [keeps said]. rewrite andb_true_r. unfold happen, stdout_of. destruct (nth_error (s_lves (g_sys st)) j) as [l'|] eqn:Hj.
    + destruct (l_fds l') as [t|] eqn:F.
      * destruct (i_alive _ _ I j l' t Hj F) as (_ & A1 & _). rewrite A1. cbn [g_sys g_box]. split; [exact Lk|]. split; [reflexivity|]. split; [reflexivity|].
        unfold refill. destruct (Nat.eqb_spec j (c_lve c)) as [->|N].
        -- assert (l' = l) as -> by congruence. rewrite Eq, Nat.eqb_refl. unfold lives. rewrite H, F. lia.
        -- destruct (Nat.eqb_spec q (l_out l')) as [E|_]; [|destruct (lives _ _); lia]. exfalso. apply N. apply (out_inj limit (g_sys st) j (c_lve c) l' l I Hj H). congruence.
      * split; [exact Lk|]. split; [reflexivity|]. split; [reflexivity|]. destruct (Nat.eqb_spec j (c_lve c)) as [->|N]; [|destruct (lives _ _); lia].
        unfold lives. rewrite Hj, F. lia.
    + split; [exact Lk|]. split; [reflexivity|]. split; [reflexivity|]. destruct (Nat.eqb_spec j (c_lve c)) as [->|N]; [congruence|destruct (lives _ _); lia].
Qed.
Lemma said_app j a b : said j (a ++ b) = said j a + (if forallb (fun h => keeps h j) a then said j b else 0).
Proof.
  induction a as [|[k|k] a IH]; [reflexivity| |]; cbn [app said forallb keeps].
  - destruct (k =? j); [reflexivity|]. exact IH.
  - rewrite IH. cbn [andb]. lia.
Qed.
Lemma happens_link limit hs c p q : forall st, Link limit (g_sys st) c p q -> Link limit (g_sys (fold_left happen hs st)) c p q /\
  s_tool (g_sys (fold_left happen hs st)) = s_tool (g_sys st) /\
  lives (g_sys (fold_left happen hs st)) (c_lve c) = lives (g_sys st) (c_lve c) && forallb (fun h => keeps h (c_lve c)) hs /\
  g_box (fold_left happen hs st) q = g_box st q + (if lives (g_sys st) (c_lve c) then said (c_lve c) hs else 0).
Proof.
  induction hs as [|h hs IH]; intros st Lk; cbn [fold_left forallb].
  - split; [exact Lk|]. split; [reflexivity|]. rewrite andb_true_r. split; [reflexivity|]. destruct (lives _ _); cbn; lia.
  - destruct (happen_link limit st h c p q Lk) as (L1 & T1 & V1 & B1). destruct (IH _ L1) as (L2 & T2 & V2 & B2).
    split; [exact L2|]. split; [congruence|]. split; [rewrite V2, V1; now rewrite andb_assoc|]. rewrite B2, V1, B1.
    change (h :: hs) with ([h] ++ hs). rewrite said_app. cbn [forallb]. rewrite andb_true_r. destruct (lives (g_sys st) (c_lve c)), (keeps h (c_lve c)); cbn [andb]; lia.
Qed.
Lemma said_silent j hs : ~ In (Writes j) hs -> said j hs = 0.
Proof.
  induction hs as [|[k|k] hs IH]; intros N; [reflexivity| |]; cbn [said].
  - destruct (k =? j); [reflexivity|]. apply IH. intros I. apply N. now right.
  - destruct (Nat.eqb_spec k j) as [->|_]; [destruct N; now left|]. apply IH. intros I. apply N. now right.
Qed.
Lemma keeps_stays j hs : ~ In (Ends j) hs -> forallb (fun h => keeps h j) hs = true.
Proof.
  induction hs as [|[k|k] hs IH]; intros N; [reflexivity| |]; cbn [forallb keeps].
  - destruct (Nat.eqb_spec k j) as [->|_]; [destruct N; now left|]. apply IH. intros I. apply N. now right.
  - apply IH. intros I. apply N. now right.
Qed.
Lemma happens_silent limit hs c p q st : Link limit (g_sys st) c p q -> ~ In (Writes (c_lve c)) hs -> g_box (fold_left happen hs st) q = g_box st q.
Proof. intros Lk N. destruct (happens_link limit hs c p q st Lk) as (_ & _ & _ & B). rewrite B, (said_silent _ _ N). destruct (lives _ _); lia. Qed.

(** ** Reading *)

Lemma look_link limit st c p q : Link limit (g_sys st) c p q ->
  look (c_from c) st = if 0 <? g_box st q then Some (true, {| g_sys := g_sys st; g_box := refill q pred (g_box st) |}) else None.
Proof. intros Lk. unfold look. pose proof Lk as (_ & _ & _ & ->). rewrite (link_read limit _ c p q Lk). now destruct (0 <? _). Qed.

Lemma await_silent limit c p q : forall sched st, Link limit (g_sys st) c p q -> Silent (c_lve c) sched -> g_box st q = 0 ->
  exists st', await (c_from c) sched st = inr st'.
Proof.
  induction sched as [|h r IH]; intros st Lk Sl B; cbn [await].
  - rewrite (look_link limit st c p q Lk), B. cbn. now exists st.
  - assert (N : ~ In (Writes (c_lve c)) h) by (apply Sl; now left). destruct (happens_link limit h c p q st Lk) as (L1 & _).
    rewrite (look_link limit _ c p q L1), (happens_silent limit h c p q st Lk N), B. cbn [Nat.ltb Nat.leb].
    apply IH; [exact L1| |now rewrite (happens_silent limit h c p q st Lk N)]. intros x I. apply Sl. now right.
Qed.

Definition coming (j : nat) (b : nat) (alive : bool) (sched : list (list happening)) : nat := b + (if alive then said j (concat sched) else 0).
Lemma await_coming limit c p q : forall sched st, Link limit (g_sys st) c p q -> 0 < coming (c_lve c) (g_box st q) (lives (g_sys st) (c_lve c)) sched ->
  exists r st', await (c_from c) sched st = inl (true, r, st') /\ Link limit (g_sys st') c p q /\
    coming (c_lve c) (g_box st' q) (lives (g_sys st') (c_lve c)) r = pred (coming (c_lve c) (g_box st q) (lives (g_sys st) (c_lve c)) sched).
Proof.
  induction sched as [|h r IH]; intros st Lk Cm; cbn [await].
  - unfold coming in Cm. cbn [concat said] in Cm. rewrite (look_link limit st c p q Lk). assert (L : 0 <? g_box st q = true) by (apply Nat.ltb_lt; destruct (lives _ _); lia).
    rewrite L. eexists. eexists. split; [reflexivity|]. split; [exact Lk|]. unfold coming, refill. cbn [g_box g_sys concat said]. rewrite Nat.eqb_refl. destruct (lives _ _); lia.
  - destruct (happens_link limit h c p q st Lk) as (L1 & _ & V1 & B1). set (st1 := fold_left happen h st) in *. clearbody st1.
    assert (E : coming (c_lve c) (g_box st1 q) (lives (g_sys st1) (c_lve c)) r = coming (c_lve c) (g_box st q) (lives (g_sys st) (c_lve c)) (h :: r)).
    { unfold coming. rewrite B1, V1. cbn [concat]. rewrite said_app. destruct (lives (g_sys st) (c_lve c)), (forallb _ h); cbn [andb]; lia. }
    rewrite (look_link limit st1 c p q L1). destruct (Nat.ltb_spec 0 (g_box st1 q)) as [L|L].
    + eexists. eexists. split; [reflexivity|]. split; [exact L1|]. rewrite <- E. unfold coming, refill. cbn [g_box g_sys]. rewrite Nat.eqb_refl. lia.
    + rewrite <- E in Cm. destruct (IH st1 L1 Cm) as (r' & st' & E1 & L2 & C2). exists r', st'. split; [exact E1|]. split; [exact L2|]. rewrite C2, E. reflexivity.
Qed.
Lemma reads_coming limit c p q ign n : forall sched st, Link limit (g_sys st) c p q -> n <= coming (c_lve c) (g_box st q) (lives (g_sys st) (c_lve c)) sched ->
  exists st', run ign (reads (c_from c) n Return) sched st = Returned true st' /\ Link limit (g_sys st') c p q /\
    (coming (c_lve c) (g_box st q) (lives (g_sys st) (c_lve c)) sched = n -> g_box st' q = 0).
Proof.
  induction n as [|n IH]; intros sched st Lk Cm; cbn [reads run].
  - exists st. split; [reflexivity|]. split; [exact Lk|]. unfold coming. intros E. destruct (lives _ _); lia.
  - destruct (await_coming limit c p q sched st Lk) as (r & st1 & E & L1 & C1); [lia|]. rewrite E. destruct (IH r st1 L1) as (st' & R & L2 & Z); [rewrite C1; lia|].
    exists st'. split; [exact R|]. split; [exact L2|]. intros Ec. apply Z. rewrite C1, Ec. reflexivity.
Qed.

(** ** Writing *)

Lemma run_write limit c p q ign k sched st : Link limit (g_sys st) c p q -> let st1 := fold_left happen (hd [] sched) st in
  run ign (Write (c_to c) k) sched st =
  if lives (g_sys st1) (c_lve c) then run ign (k true) (tl sched) {| g_sys := g_sys st1; g_box := refill p S (g_box st1) |}
  else if ign then run ign (k false) (tl sched) st1 else Killed st1.
Proof.
  intros Lk st1. cbn [run]. fold st1. destruct (happens_link limit (hd [] sched) c p q st Lk) as (L1 & _). fold st1 in L1. pose proof L1 as (_ & _ & G & _).
  rewrite G, (link_write limit _ c p q L1). reflexivity.
Qed.
Lemma refill_other p q f b : p <> q -> refill p f b q = b q.
Proof. intros N. unfold refill. destruct (Nat.eqb_spec q p); congruence. Qed.
Lemma hd_in {A} (sched : list (list A)) h : In h (hd [] sched) -> exists x, In x sched /\ In h x.
Proof. destruct sched as [|x r]; [intros []|]. intros I. exists x. split; [now left|exact I]. Qed.
Lemma silent_tl j sched : Silent j sched -> Silent j (tl sched).
Proof. intros Sl h I. apply Sl. destruct sched; [contradiction|now right]. Qed.
Lemma silent_hd j sched : Silent j sched -> ~ In (Writes j) (hd [] sched).
Proof. intros Sl I. apply hd_in in I. destruct I as (x & Ix & I). exact (Sl x Ix I). Qed.

(** Writing, then something that does not return. *)
Lemma writes_stuck limit c p q ign k : forall n sched st,
  Link limit (g_sys st) c p q -> Silent (c_lve c) sched -> g_box st q = 0 ->
  (forall sched st, Link limit (g_sys st) c p q -> Silent (c_lve c) sched -> g_box st q = 0 -> forall b st', run ign (k true) sched st <> Returned b st') ->
  (ign = true -> forall sched st, Link limit (g_sys st) c p q -> Silent (c_lve c) sched -> g_box st q = 0 -> forall b st', run ign (k false) sched st <> Returned b st') ->
  forall b st', run ign (writes (c_to c) n k) sched st <> Returned b st'.
Proof.
  induction n as [|n IH]; intros sched st Lk Sl B Kt Kf b st'; cbn [writes]; [now apply Kt|].
  rewrite (run_write limit c p q ign _ sched st Lk). cbv zeta. destruct (happens_link limit (hd [] sched) c p q st Lk) as (L1 & _).
  pose proof (happens_silent limit _ c p q st Lk (silent_hd _ _ Sl)) as B1. set (st1 := fold_left happen (hd [] sched) st) in *. clearbody st1.
  destruct (lives (g_sys st1) (c_lve c)).
  - apply IH; [exact L1|now apply silent_tl| |exact Kt|exact Kf]. cbn [g_box]. rewrite refill_other by exact (link_pipes limit _ c p q L1). congruence.
  - destruct ign; [|discriminate]. apply Kf; [reflexivity|exact L1|now apply silent_tl|congruence].
Qed.
Lemma reads_stuck limit c p q ign n sched st : Link limit (g_sys st) c p q -> Silent (c_lve c) sched -> g_box st q = 0 ->
  forall k, exists st', run ign (reads (c_from c) (S n) k) sched st = Waiting st'.
Proof. intros Lk Sl B k. cbn [reads run]. destruct (await_silent limit c p q sched st Lk Sl B) as [st' ->]. now exists st'. Qed.

Lemma api_stuck limit c p q ign checks broken req rep sched st : Link limit (g_sys st) c p q -> Silent (c_lve c) sched -> g_box st q = 0 ->
  ign = false \/ (checks = false /\ broken = false) -> forall b st', run ign (api checks broken c req rep) sched st <> Returned b st'.
Proof.
  intros Lk Sl B Cs. unfold api. apply (writes_stuck limit c p q); [exact Lk|exact Sl|exact B| |].
  - intros sched' st' L1 S1 B1 b st2. cbn [negb andb]. destruct (reads_stuck limit c p q ign rep sched' st' L1 S1 B1 Return) as [x ->]. discriminate.
  - intros -> sched' st' L1 S1 B1 b st2. destruct Cs as [Cs|[-> ->]]; [discriminate|]. cbn [negb andb orb].
    destruct (reads_stuck limit c p q true rep sched' st' L1 S1 B1 Return) as [x ->]. discriminate.
Qed.

(** While the LVE is there, writing succeeds. *)
Lemma writes_alive limit c p q ign k : forall n sched st, Link limit (g_sys st) c p q -> lives (g_sys st) (c_lve c) = true -> Stays (c_lve c) (firstn n sched) ->
  exists st', run ign (writes (c_to c) n k) sched st = run ign (k true) (skipn n sched) st' /\ Link limit (g_sys st') c p q /\ lives (g_sys st') (c_lve c) = true /\
    coming (c_lve c) (g_box st' q) true (skipn n sched) = coming (c_lve c) (g_box st q) true sched /\
    (Silent (c_lve c) sched -> g_box st' q = g_box st q).
Proof.
  induction n as [|n IH]; intros sched st Lk Lv Sy; cbn [writes].
  - exists st. rewrite skipn_O. split; [reflexivity|]. split; [exact Lk|]. split; [exact Lv|]. now split.
  - rewrite (run_write limit c p q ign _ sched st Lk). cbv zeta. destruct (happens_link limit (hd [] sched) c p q st Lk) as (L1 & _ & V1 & B1).
    assert (Kp : forallb (fun h => keeps h (c_lve c)) (hd [] sched) = true).
    { apply keeps_stays. destruct sched as [|h r]; [intros []|]. apply Sy. now left. }
    rewrite Kp, Lv in V1. rewrite Lv in B1. set (st1 := fold_left happen (hd [] sched) st) in *. pose proof (happens_silent limit (hd [] sched) c p q st Lk) as Q. fold st1 in Q. clearbody st1.
    cbn [andb] in V1. rewrite V1. set (st2 := {| g_sys := g_sys st1; g_box := refill p S (g_box st1) |}).
    assert (E2 : g_box st2 q = g_box st1 q) by (unfold st2; cbn [g_box]; apply refill_other; exact (link_pipes limit _ c p q L1)).
    destruct (IH (tl sched) st2 L1 V1) as (st' & R & L2 & V2 & C2 & B2).
    { intros h I. apply Sy. destruct sched as [|x r]; [cbn [tl] in I; rewrite firstn_nil in I; contradiction|]. now right. }
    exists st'. assert (Es : skipn n (tl sched) = skipn (S n) sched) by (destruct sched; [now rewrite !skipn_nil|reflexivity]). rewrite <- Es.
    split; [exact R|]. split; [exact L2|]. split; [exact V2|]. split.
    + rewrite C2. unfold coming. rewrite E2, B1. destruct sched as [|h r]; [cbn; lia|]. cbn [hd tl concat] in *. rewrite said_app, Kp. lia.
    + intros Sl. rewrite (B2 (silent_tl _ _ Sl)), E2. apply Q. now apply silent_hd.
Qed.
Lemma api_late limit c p q ign checks broken req rep sched st : Link limit (g_sys st) c p q -> lives (g_sys st) (c_lve c) = true ->
  Stays (c_lve c) (firstn (S req) sched) -> Silent (c_lve c) sched -> g_box st q = 0 ->
  exists st', run ign (api checks broken c req rep) sched st = Waiting st'.
Proof.
  intros Lk Lv Sy Sl B. unfold api.
  destruct (writes_alive limit c p q ign (fun ok => if negb ok && (checks || broken) then Return false else reads (c_from c) (S rep) Return) (S req) sched st Lk Lv Sy) as (st' & -> & L1 & _ & _ & B1).
  cbn [negb andb]. apply (reads_stuck limit c p q); [exact L1| |rewrite B1; assumption].
  intros h I. apply Sl. rewrite <- (firstn_skipn (S req) sched). apply in_or_app. now right.
Qed.
Lemma api_answered limit c p q ign checks broken req rep sched st : Link limit (g_sys st) c p q -> lives (g_sys st) (c_lve c) = true ->
  Stays (c_lve c) (firstn (S req) sched) -> S rep <= said (c_lve c) (concat sched) ->
  exists st', run ign (api checks broken c req rep) sched st = Returned true st' /\ Link limit (g_sys st') c p q /\
    (g_box st q = 0 -> said (c_lve c) (concat sched) = S rep -> g_box st' q = 0).
Proof.
  intros Lk Lv Sy Sd. unfold api.
  destruct (writes_alive limit c p q ign (fun ok => if negb ok && (checks || broken) then Return false else reads (c_from c) (S rep) Return) (S req) sched st Lk Lv Sy) as (st' & -> & L1 & V1 & C1 & _).
  cbn [negb andb]. destruct (reads_coming limit c p q ign (S rep) (skipn (S req) sched) st' L1) as (st2 & R & L2 & Z); [rewrite V1, C1; unfold coming; lia|].
  exists st2. split; [exact R|]. split; [exact L2|]. intros B E. apply Z. rewrite V1, C1. unfold coming. lia.
Qed.

(** An LVE that has ended. *)
Lemma write_gone limit c p q ign k sched st : Link limit (g_sys st) c p q -> Gone (fold_left happen (hd [] sched) st) (c_lve c) ->
  run ign (Write (c_to c) k) sched st = if ign then run ign (k false) (tl sched) (fold_left happen (hd [] sched) st) else Killed (fold_left happen (hd [] sched) st).
Proof. intros Lk G. rewrite (run_write limit c p q ign k sched st Lk). cbv zeta. apply lives_false in G. now rewrite G. Qed.

(** Closing. *)
Lemma closing ign c b sched st : exists st', run ign (Shut (c_to c) (Shut (c_from c) (Return b))) sched st = Returned b st' /\ ClosedOnly st st' c.
Proof.
  cbn [run g_sys g_box s_tool]. eexists. split; [reflexivity|]. intros n. cbn [g_sys s_tool]. rewrite !get_close.
  destruct (n =? c_to c), (n =? c_from c); reflexivity.
Qed.
Lemma free_returns limit c p q ign alert b sched st : Link limit (g_sys st) c p q ->
  ign = true \/ alert = false \/ ~ Gone (fold_left happen (hd [] sched) st) (c_lve c) ->
  exists st', run ign (free alert c (Return b)) sched st = Returned b st' /\ ClosedOnly st st' c.
Proof.
  intros Lk Cs. destruct (happens_link limit (hd [] sched) c p q st Lk) as (_ & T & _). unfold free. destruct alert; [|now apply closing].
  assert (X : forall st1 st', ClosedOnly st1 st' c -> s_tool (g_sys st1) = s_tool (g_sys st) -> ClosedOnly st st' c) by (intros st1 st' C E n; rewrite <- E; exact (C n)).
  rewrite (run_write limit c p q ign _ sched st Lk). cbv zeta. destruct (lives _ _) eqn:Lv.
  - destruct (closing ign c b (tl sched) {| g_sys := g_sys (fold_left happen (hd [] sched) st); g_box := refill p S (g_box (fold_left happen (hd [] sched) st)) |}) as (st' & E & C).
    exists st'. split; [exact E|]. exact (X _ st' C T).
  - apply lives_false in Lv. destruct Cs as [->|[Cs|Cs]]; [|discriminate|contradiction].
    destruct (closing true c b (tl sched) (fold_left happen (hd [] sched) st)) as (st' & E & C). exists st'. split; [exact E|]. exact (X _ st' C T).
Qed.

Lemma connect_stuck limit c p q more sched st : Link limit (g_sys st) c p q -> Silent (c_lve c) sched -> g_box st q = 0 ->
  forall b st', run false (connect c more) sched st <> Returned b st'.
Proof.
  intros Lk Sl B b st'. unfold connect. cbn [shake]. rewrite (run_write limit c p q false _ sched st Lk). cbv zeta. destruct (lives _ _); [|discriminate].
  destruct (happens_link limit (hd [] sched) c p q st Lk) as (L1 & _). pose proof (happens_silent limit _ c p q st Lk (silent_hd _ _ Sl)) as B1.
  set (st1 := fold_left happen (hd [] sched) st) in *. clearbody st1. cbn [run].
  match goal with |- context [await _ _ ?s] => destruct (await_silent limit c p q (tl sched) s) as [x ->] end; [exact L1|now apply silent_tl| |discriminate].
  cbn [g_box]. rewrite refill_other by exact (link_pipes limit _ c p q L1). congruence.
Qed.

(** ** Histories *)

Lemma link_after limit t es i c : Own t -> length t <= limit -> Connected (after limit t es) i c ->
  exists p q, Link limit (after limit t es) c p q.
Proof.
  intros O L C. pose proof (inv_after limit t es O L) as I. destruct (i_conn _ _ I i c C) as (l & H & G1 & G2).
  exists (l_in l), (l_out l). split; [exact I|]. split; [exists l; now repeat split|now split].
Qed.

Lemma link_spawned limit t es a s' c : Own t -> length t <= limit -> spawn limit a (after limit t es) = (s', Some c) ->
  Link limit s' c (s_next (after limit t es)) (S (s_next (after limit t es))).
Proof.
  intros O L E. pose proof (inv_after limit t es O L) as I. pose proof (spawn_spec limit a _ _ _ E) as Sp.
  destruct (inv_spawned limit a _ _ _ I Sp) as [I' _]. destruct (spawned_conn limit a _ _ _ Sp) as (_ & l & H & E1 & E2 & G1 & G2 & _).
  split; [exact I'|]. split; [exists l; now repeat split|]. rewrite <- E2, <- E1. now split.
Qed.

(** ** The theorems *)

Lemma quiet_box limit st c p q : Link limit (g_sys st) c p q -> Quiet st c -> g_box st q = 0.
Proof. intros (_ & _ & _ & G) Q. exact (Q q G). Qed.
Lemma not_gone_lives st j tb : Alive (g_sys st) j tb -> lives (g_sys st) j = true.
Proof. intros A. apply lives_spec. now exists tb. Qed.

Lemma answered limit t es i c st ign checks broken req rep sched tb : Own t -> length t <= limit -> g_sys st = after limit t es -> Connected (g_sys st) i c ->
  Alive (g_sys st) (c_lve c) tb -> Stays (c_lve c) (firstn (S req) sched) -> rep < said (c_lve c) (concat sched) ->
  exists st', run ign (api checks broken c req rep) sched st = Returned true st' /\
    (Quiet st c -> said (c_lve c) (concat sched) = S rep -> Quiet st' c).
Proof.
  intros O L E C A Sy Sd. rewrite E in C. destruct (link_after limit t es i c O L C) as (p & q & Lk). rewrite <- E in Lk.
  destruct (api_answered limit c p q ign checks broken req rep sched st Lk (not_gone_lives _ _ _ A) Sy Sd) as (st' & R & L2 & Z).
  exists st'. split; [exact R|]. intros Q Es q' G. assert (q' = q) as -> by (destruct L2 as (_ & _ & _ & G2); congruence).
  apply Z; [|exact Es]. exact (quiet_box limit st c p q Lk Q).
Qed.
Lemma writes_gone limit c p q k sched st n : Link limit (g_sys st) c p q -> Gone (fold_left happen (hd [] sched) st) (c_lve c) ->
  run true (writes (c_to c) (S n) k) sched st = run true (k false) (tl sched) (fold_left happen (hd [] sched) st).
Proof. intros Lk G. cbn [writes]. now rewrite (write_gone limit c p q true _ sched st Lk G). Qed.
Lemma gone_checked limit t es i c st checks broken req rep sched : Own t -> length t <= limit -> g_sys st = after limit t es -> Connected (g_sys st) i c ->
  Gone (fold_left happen (hd [] sched) st) (c_lve c) -> checks = true \/ broken = true ->
  exists st', run true (api checks broken c req rep) sched st = Returned false st'.
Proof.
  intros O L E C G Cb. rewrite E in C. destruct (link_after limit t es i c O L C) as (p & q & Lk). rewrite <- E in Lk.
  unfold api. rewrite (writes_gone limit c p q _ sched st req Lk G). cbn [negb andb]. replace (checks || broken) with true by (destruct Cb as [-> | ->]; [reflexivity|now rewrite orb_true_r]).
  eexists. reflexivity.
Qed.
Lemma gone_free limit t es i c st ign alert b sched : Own t -> length t <= limit -> g_sys st = after limit t es -> Connected (g_sys st) i c ->
  ign = true \/ alert = false \/ ~ Gone (fold_left happen (hd [] sched) st) (c_lve c) ->
  exists st', run ign (free alert c (Return b)) sched st = Returned b st' /\ ClosedOnly st st' c.
Proof.
  intros O L E C. rewrite E in C. destruct (link_after limit t es i c O L C) as (p & q & Lk). rewrite <- E in Lk. exact (free_returns limit c p q ign alert b sched st Lk).
Qed.
Lemma gone_killed limit t es i c st checks broken req rep k sched : Own t -> length t <= limit -> g_sys st = after limit t es -> Connected (g_sys st) i c ->
  Gone (fold_left happen (hd [] sched) st) (c_lve c) ->
  (exists st', run false (api checks broken c req rep) sched st = Killed st') /\ exists st', run false (free true c k) sched st = Killed st'.
Proof.
  intros O L E C G. rewrite E in C. destruct (link_after limit t es i c O L C) as (p & q & Lk). rewrite <- E in Lk.
  unfold api, free. cbn [writes]. rewrite !(write_gone limit c p q false _ sched st Lk G). split; eexists; reflexivity.
Qed.
Lemma silent_late limit t es i c st ign checks broken req rep sched tb : Own t -> length t <= limit -> g_sys st = after limit t es -> Connected (g_sys st) i c ->
  Alive (g_sys st) (c_lve c) tb -> Quiet st c -> Silent (c_lve c) sched -> Stays (c_lve c) (firstn (S req) sched) ->
  exists st', run ign (api checks broken c req rep) sched st = Waiting st'.
Proof.
  intros O L E C A Q Sl Sy. rewrite E in C. destruct (link_after limit t es i c O L C) as (p & q & Lk). rewrite <- E in Lk.
  apply (api_late limit c p q); [exact Lk|exact (not_gone_lives _ _ _ A)|exact Sy|exact Sl|exact (quiet_box limit st c p q Lk Q)].
Qed.
Lemma silent_never limit t es i c st ign checks broken req rep sched : Own t -> length t <= limit -> g_sys st = after limit t es -> Connected (g_sys st) i c ->
  Quiet st c -> Silent (c_lve c) sched -> ign = false \/ (checks = false /\ broken = false) ->
  forall b st', run ign (api checks broken c req rep) sched st <> Returned b st'.
Proof.
  intros O L E C Q Sl. rewrite E in C. destruct (link_after limit t es i c O L C) as (p & q & Lk). rewrite <- E in Lk.
  apply (api_stuck limit c p q); [exact Lk|exact Sl|exact (quiet_box limit st c p q Lk Q)].
Qed.
Lemma start_never limit t es a s' c st more sched : Own t -> length t <= limit -> spawn limit a (after limit t es) = (s', Some c) -> g_sys st = s' ->
  Quiet st c -> Silent (c_lve c) sched -> forall b st', run false (connect c more) sched st <> Returned b st'.
Proof.
  intros O L E Es Q Sl. pose proof (link_spawned limit t es a s' c O L E) as Lk. rewrite <- Es in Lk. exact (connect_stuck limit c _ _ more sched st Lk Sl (quiet_box limit st c _ _ Lk Q)).
Qed.
