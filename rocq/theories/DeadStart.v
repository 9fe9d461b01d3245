(** Proofs about the start of an LVE that lives, or has ended. *)
From Coq Require Import List Arith Bool Lia.
Import ListNotations.
From Verif Require Import SpawnModel SpawnSpec SpawnProofs SpawnHist SpawnThms DeadModel DeadSpec DeadProofs.

Notation reading := (fun ops => count_occ bool_dec ops false).

Lemma await_stays limit c p q : forall sched st b r st', Link limit (g_sys st) c p q -> lives (g_sys st) (c_lve c) = true -> Stays (c_lve c) sched ->
  await (c_from c) sched st = inl (b, r, st') -> lives (g_sys st') (c_lve c) = true /\ Stays (c_lve c) r /\ s_tool (g_sys st') = s_tool (g_sys st).
Proof.
  induction sched as [|h sched IH]; intros st b r st' Lk Lv Sy E; cbn [await] in E.
  - rewrite (look_link limit st c p q Lk) in E. destruct (0 <? _); [|discriminate]. injection E as _ <- <-. cbn [g_sys]. split; [exact Lv|]. split; [exact Sy|reflexivity].
  - destruct (happens_link limit h c p q st Lk) as (L1 & T1 & V1 & _). set (st1 := fold_left happen h st) in *. clearbody st1.
    rewrite Lv, keeps_stays in V1 by (apply Sy; now left). cbn [andb] in V1.
    assert (Sr : Stays (c_lve c) sched) by (intros x I; apply Sy; now right).
    rewrite (look_link limit st1 c p q L1) in E. destruct (0 <? _).
    + injection E as _ <- <-. cbn [g_sys]. split; [exact V1|]. split; [exact Sr|exact T1].
    + destruct (IH _ _ _ _ L1 V1 Sr E) as (A & B & C). split; [exact A|]. split; [exact B|congruence].
Qed.

Lemma await_none limit c p q : forall sched st, Link limit (g_sys st) c p q -> coming (c_lve c) (g_box st q) (lives (g_sys st) (c_lve c)) sched = 0 ->
  exists st', await (c_from c) sched st = inr st'.
Proof.
  induction sched as [|h sched IH]; intros st Lk Z; unfold coming in Z; cbn [await].
  - rewrite (look_link limit st c p q Lk). replace (g_box st q) with 0 by (destruct (lives _ _); lia). cbn. now exists st.
  - destruct (happens_link limit h c p q st Lk) as (L1 & _ & V1 & B1). set (st1 := fold_left happen h st) in *. clearbody st1.
    cbn [concat] in Z. rewrite said_app in Z.
    assert (B0 : g_box st1 q = 0) by (rewrite B1; destruct (lives _ _); lia).
    rewrite (look_link limit st1 c p q L1), B0. cbn [Nat.ltb Nat.leb]. apply IH; [exact L1|]. unfold coming. rewrite B0, V1.
    destruct (lives _ _), (forallb _ _); cbn [andb]; lia.
Qed.

Lemma written limit c p q sched st : Link limit (g_sys st) c p q -> let st1 := fold_left happen (hd [] sched) st in
  let st2 := {| g_sys := g_sys st1; g_box := refill p S (g_box st1) |} in
  coming (c_lve c) (g_box st2 q) (lives (g_sys st2) (c_lve c)) (tl sched) = coming (c_lve c) (g_box st q) (lives (g_sys st) (c_lve c)) sched.
Proof.
  intros Lk st1 st2. destruct (happens_link limit (hd [] sched) c p q st Lk) as (L1 & _ & V1 & B1). fold st1 in L1, V1, B1.
  unfold coming, st2. cbn [g_box g_sys]. rewrite refill_other by exact (link_pipes limit _ c p q L1). rewrite B1, V1.
  destruct sched as [|h r]; cbn [hd tl concat forallb said].
  - destruct (lives (g_sys st) (c_lve c)); cbn [andb]; lia.
  - rewrite said_app. clear - r. destruct (lives (g_sys st) (c_lve c)), (forallb (fun h0 => keeps h0 (c_lve c)) h); cbn [andb]; lia.
Qed.

Lemma shake_alive limit c p q ign k : forall ops sched st, Link limit (g_sys st) c p q -> lives (g_sys st) (c_lve c) = true -> Stays (c_lve c) sched ->
  reading ops <= coming (c_lve c) (g_box st q) true sched ->
  exists r st', run ign (shake c ops k) sched st = run ign (k true) r st' /\ s_tool (g_sys st') = s_tool (g_sys st).
Proof.
  induction ops as [|[|] ops IH]; intros sched st Lk Lv Sy Cm; cbn [shake].
  - exists sched, st. now split.
  - rewrite (run_write limit c p q ign _ sched st Lk). cbv zeta. pose proof (written limit c p q sched st Lk) as W. cbv zeta in W.
    destruct (happens_link limit (hd [] sched) c p q st Lk) as (L1 & T1 & V1 & _). set (st1 := fold_left happen (hd [] sched) st) in *. clearbody st1.
    rewrite Lv, keeps_stays in V1 by (intros I; apply hd_in in I; destruct I as (x & Ix & I); exact (Sy x Ix I)). cbn [andb] in V1. rewrite V1.
    destruct (IH (tl sched) {| g_sys := g_sys st1; g_box := refill p S (g_box st1) |} L1 V1) as (r & st' & R & T).
    { intros x I. apply Sy. destruct sched; [contradiction|now right]. }
    { cbn [g_sys] in W. rewrite V1, Lv in W. rewrite W. cbn [count_occ] in Cm. exact Cm. }
    exists r, st'. split; [exact R|]. cbn [g_sys] in T. congruence.
  - cbn [run]. cbn [count_occ] in Cm. destruct (bool_dec false false) as [_|N]; [|now destruct N].
    destruct (await_coming limit c p q sched st Lk) as (r & st1 & E & L1 & C1); [rewrite Lv; lia|].
    destruct (await_stays limit c p q sched st _ _ _ Lk Lv Sy E) as (V1 & Sr & T1). rewrite E. rewrite Lv, V1 in C1.
    destruct (IH r st1 L1 V1 Sr) as (r' & st' & R & T); [rewrite C1; lia|]. exists r', st'. split; [exact R|congruence].
Qed.

Lemma shake_true limit c p q ign : forall ops sched st st', Link limit (g_sys st) c p q ->
  run ign (shake c ops (fun ok => if ok then Return true else free false c (Return false))) sched st = Returned true st' ->
  reading ops <= coming (c_lve c) (g_box st q) (lives (g_sys st) (c_lve c)) sched.
Proof.
  induction ops as [|[|] ops IH]; intros sched st st' Lk R; cbn [shake] in R.
  - cbn [count_occ]. lia.
  - rewrite (run_write limit c p q ign _ sched st Lk) in R. cbv zeta in R. pose proof (written limit c p q sched st Lk) as W. cbv zeta in W.
    destruct (happens_link limit (hd [] sched) c p q st Lk) as (L1 & _). set (st1 := fold_left happen (hd [] sched) st) in *. clearbody st1.
    destruct (lives (g_sys st1) (c_lve c)) eqn:V1.
    + rewrite <- W. cbn [count_occ]. apply (IH _ _ st'); [exact L1|exact R].
    + destruct ign; [|discriminate]. cbn [free run] in R. discriminate.
  - cbn [run] in R. cbn [count_occ]. destruct (bool_dec false false) as [_|N]; [|now destruct N].
    destruct (coming (c_lve c) (g_box st q) (lives (g_sys st) (c_lve c)) sched) as [|m] eqn:Cm.
    + destruct (await_none limit c p q sched st Lk Cm) as (x & E). rewrite E in R. discriminate.
    + destruct (await_coming limit c p q sched st Lk) as (r & st1 & E & L1 & C1); [lia|]. rewrite E in R. apply IH in R; [|exact L1]. rewrite C1, Cm in R. cbn [pred] in R. lia.
Qed.

Lemma started limit t es a s' c st ign more sched tb : Own t -> length t <= limit -> spawn limit a (after limit t es) = (s', Some c) -> g_sys st = s' ->
  Alive (g_sys st) (c_lve c) tb -> Stays (c_lve c) sched -> count_occ bool_dec more false < said (c_lve c) (concat sched) ->
  exists st', run ign (connect c more) sched st = Returned true st' /\ s_tool (g_sys st') = s_tool s'.
Proof.
  intros O L E Es A Sy Sd. pose proof (link_spawned limit t es a s' c O L E) as Lk. rewrite <- Es in Lk. rewrite <- Es.
  destruct (shake_alive limit c _ _ ign (fun ok => if ok then Return true else free false c (Return false)) (true :: false :: more) sched st Lk (not_gone_lives _ _ _ A) Sy) as (r & st' & R & T).
  { unfold coming. cbn [count_occ]. destruct (bool_dec true false); [discriminate|]. destruct (bool_dec false false) as [_|N]; [|now destruct N]. lia. }
  exists st'. split; [exact R|exact T].
Qed.
Lemma start_true limit t es a s' c st ign more sched st' : Own t -> length t <= limit -> spawn limit a (after limit t es) = (s', Some c) -> g_sys st = s' ->
  Quiet st c -> run ign (connect c more) sched st = Returned true st' -> count_occ bool_dec more false < said (c_lve c) (concat sched).
Proof.
  intros O L E Es Q R. pose proof (link_spawned limit t es a s' c O L E) as Lk. rewrite <- Es in Lk.
  pose proof (quiet_box limit st c _ _ Lk Q) as B. pose proof (shake_true limit c _ _ ign (true :: false :: more) sched st st' Lk R) as H.
  unfold coming in H. rewrite B in H. cbn [count_occ] in H. destruct (bool_dec true false); [discriminate|]. destruct (bool_dec false false) as [_|N]; [|now destruct N].
  destruct (lives _ _); lia.
Qed.
Lemma start_gone limit t es a s' c st more sched : Own t -> length t <= limit -> spawn limit a (after limit t es) = (s', Some c) -> g_sys st = s' ->
  Gone (fold_left happen (hd [] sched) st) (c_lve c) -> exists st', run true (connect c more) sched st = Returned false st' /\ ClosedOnly st st' c.
Proof.
  intros O L E Es G. pose proof (link_spawned limit t es a s' c O L E) as Lk. rewrite <- Es in Lk. unfold connect. cbn [shake].
  rewrite (write_gone limit c _ _ true _ sched st Lk G). destruct (happens_link limit (hd [] sched) c _ _ st Lk) as (_ & T & _).
  destruct (closing true c false (tl sched) (fold_left happen (hd [] sched) st)) as (st' & R & C). exists st'. split; [exact R|].
  intros n. rewrite <- T. exact (C n).
Qed.
