From Coq Require Import List Arith Bool Lia.
Import ListNotations.
From Verif Require Import SpawnModel SpawnSpec SpawnProofs SpawnHist.

Lemma not_held limit s p : Inv limit s -> s_next s <= p -> (forall o, pipe_of o = Some p -> ~ HeldBySome s o).
Proof.
  intros I Le o P [[n G]|(j & tb & (l & H & F) & n & G)].
  - pose proof (i_fresh _ _ I n o p G P). lia.
  - destruct (i_alive _ _ I j l tb H F) as (A0 & A1 & A2). pose proof (i_order _ _ I j l H).
    destruct n as [|[|n]].
    + assert (o = ReadEnd (l_in l)) as -> by congruence. cbn in P. assert (l_in l = p) by congruence. lia.
    + assert (o = WriteEnd (l_out l)) as -> by congruence. cbn in P. assert (l_out l = p) by congruence. lia.
    + pose proof (A2 (S (S n)) o p ltac:(lia) G P). lia.
Qed.

Lemma spawned_ready limit a s s' c : spawned limit a s s' (Some c) -> get (s_tool s) 0 <> None -> a_exec a = true ->
  exists tb, Alive s' (c_lve c) tb /\ get tb 0 = Some (ReadEnd (s_next s)) /\ get (s_tool s') (c_to c) = Some (WriteEnd (s_next s)) /\
    get tb 1 = Some (WriteEnd (S (s_next s))) /\ get (s_tool s') (c_from c) = Some (ReadEnd (S (s_next s))) /\
    forall n o, get (s_tool s) n = Some o -> get (s_tool s') n = Some o /\ (2 <= n -> get tb n = Some o).
Proof.
  intros Sp G0 Ex. remember (Some c) as oc eqn:Eo.
  destruct Sp as [|t1 Kp Sub Lt|t1 pw cr cw fds c' Gpw Gcr Gcw N1 N2 N3 Hpw Hcr Hcw Ho Lt F1 F2 F3 [Ec|Ec]]; try congruence.
  assert (c = {| c_to := pw; c_from := cr; c_lve := length (s_lves s) |}) as -> by congruence. cbn [c_lve c_to c_from s_tool].
  destruct fds as [tb|] eqn:Ef; [|exfalso; exact (F2 G0 Ex eq_refl)]. destruct (F3 tb eq_refl) as (_ & T0 & T1 & T2).
  exists tb. split. { eexists. split; [cbn [s_lves]; apply nth_error_snoc; right; split; reflexivity|reflexivity]. }
  split; [exact T0|]. split; [exact Hpw|]. split; [exact T1|]. split; [exact Hcr|]. intros n o G. split.
  - rewrite Ho; [exact G| | |]; congruence.
  - intros L. now rewrite T2.
Qed.
Lemma start_ready limit a s s' c : start limit a s = (s', Some c) -> spawned limit a s s' (Some c).
Proof.
  intros E. apply start_spec in E. remember (Some c) as oc eqn:Eo. destruct E as [s' Sp|s' c' Sp|s' c' Sp]; try discriminate. assert (c' = c) as -> by congruence. exact Sp.
Qed.

Lemma connected_stdio limit t es a s' c : Own t -> length t <= limit -> get (s_tool (after limit t es)) 0 <> None -> a_exec a = true ->
  start limit a (after limit t es) = (s', Some c) ->
  exists tb p q, Alive s' (c_lve c) tb /\
    get tb 0 = Some (ReadEnd p) /\ get (s_tool s') (c_to c) = Some (WriteEnd p) /\
    get tb 1 = Some (WriteEnd q) /\ get (s_tool s') (c_from c) = Some (ReadEnd q) /\ p <> q /\
    (forall o, o = ReadEnd p \/ o = WriteEnd p \/ o = ReadEnd q \/ o = WriteEnd q -> ~ HeldBySome (after limit t es) o) /\
    (forall n o, get (s_tool (after limit t es)) n = Some o -> get (s_tool s') n = Some o /\ (2 <= n -> get tb n = Some o)).
Proof.
  intros O Lt G0 Ex E. apply start_ready in E. pose proof (inv_after limit t es O Lt) as I. set (s := after limit t es) in *.
  destruct (spawned_ready limit a s s' c E G0 Ex) as (tb & Al & T0 & H1 & T1 & H2 & R).
  exists tb, (s_next s), (S (s_next s)). split; [exact Al|]. split; [exact T0|]. split; [exact H1|]. split; [exact T1|]. split; [exact H2|]. split; [lia|].
  split; [|exact R]. intros o [->|[->|[->| ->]]]; [apply (not_held limit s (s_next s))|apply (not_held limit s (s_next s))|apply (not_held limit s (S (s_next s)))|apply (not_held limit s (S (s_next s)))]; auto.
Qed.

Lemma no_stdin limit a s s' c : get (s_tool s) 0 = None -> spawn limit a s = (s', Some c) -> forall tb, ~ Alive s' (c_lve c) tb.
Proof.
  intros G0 E tb (l & H & F). apply spawn_spec in E. remember (Some c) as oc eqn:Eo.
  destruct E as [|t1 Kp Sub Lt|t1 pw cr cw fds c' Gpw Gcr Gcw N1 N2 N3 Hpw Hcr Hcw Ho Lt F1 F2 F3 [Ec|Ec]]; try congruence.
  assert (c = {| c_to := pw; c_from := cr; c_lve := length (s_lves s) |}) as -> by congruence. cbn [c_lve s_lves] in H.
  apply nth_error_snoc in H. destruct H as [H|[_ ->]]; [apply nth_error_lt in H; lia|]. cbn [l_fds] in F. rewrite (F1 G0) in F. discriminate.
Qed.

Lemma freed limit a s s' c : start limit a s = (s', Some c) -> exists n q, get (s_tool s) n = None /\
  get (s_tool (close_connection c s')) n = Some (WriteEnd q) /\ forall m, m <> n -> get (s_tool (close_connection c s')) m = get (s_tool s) m.
Proof.
  intros E. apply start_ready in E. remember (Some c) as oc eqn:Eo.
  destruct E as [|t1 Kp Sub Lt|t1 pw cr cw fds c' Gpw Gcr Gcw N1 N2 N3 Hpw Hcr Hcw Ho Lt F1 F2 F3 [Ec|Ec]]; try congruence.
  assert (c = {| c_to := pw; c_from := cr; c_lve := length (s_lves s) |}) as -> by congruence. cbn [close_connection c_to c_from s_tool].
  exists cw, (S (s_next s)). split; [exact Gcw|]. split; [rewrite !close_other; auto|]. intros m N.
  rewrite get_close. destruct (Nat.eqb_spec m cr) as [->|B1]; [now rewrite Gcr|]. rewrite get_close. destruct (Nat.eqb_spec m pw) as [->|B2]; [now rewrite Gpw|].
  now apply Ho.
Qed.

Lemma used_incl t l : NoDup l -> (forall o, In o l -> Holds t o) -> length l <= in_use t.
Proof.
  intros N H. unfold in_use. rewrite <- (map_length (@Some object) l). apply NoDup_incl_length.
  - clear H. induction l as [|x l IH]; [constructor|]. apply NoDup_cons_iff in N. destruct N as [N1 N2]. cbn [map]. constructor; [|now apply IH].
    intros I. apply in_map_iff in I. destruct I as (y & E & I). assert (y = x) as -> by congruence. contradiction.
  - intros x I. apply in_map_iff in I. destruct I as (o & <- & I). destruct (H o I) as [n G]. apply filter_In. split; [|reflexivity].
    unfold get in G. rewrite <- G. apply nth_In. destruct (Nat.lt_ge_cases n (length t)) as [L|L]; [exact L|]. rewrite nth_overflow in G by exact L. discriminate.
Qed.
Lemma in_use_length t : in_use t <= length t.
Proof. unfold in_use. induction t as [|[o|] t IH]; cbn [filter length]; lia. Qed.

Lemma leaks limit t es : Own t -> length t <= limit -> length (s_lves (after limit t es)) <= in_use (s_tool (after limit t es)) <= limit.
Proof.
  intros O Lt. pose proof (inv_after limit t es O Lt) as I. set (s := after limit t es) in *. split.
  - rewrite <- (map_length (fun l => WriteEnd (l_out l)) (s_lves s)). apply used_incl.
    + apply NoDup_nth_error. intros i j Li E. rewrite map_length in Li.
      destruct (nth_error (s_lves s) i) as [l|] eqn:Hi; [|apply nth_error_None in Hi; lia].
      rewrite (map_nth_error _ _ _ Hi) in E. symmetry in E. destruct (nth_error (s_lves s) j) as [l'|] eqn:Hj.
      * rewrite (map_nth_error _ _ _ Hj) in E. assert (l_out l = l_out l') by congruence. exact (out_inj limit s i j l l' I Hi Hj H).
      * assert (nth_error (map (fun l => WriteEnd (l_out l)) (s_lves s)) j = None) as X by (apply nth_error_None; rewrite map_length; now apply nth_error_None). congruence.
    + intros o Io. apply in_map_iff in Io. destruct Io as (l & <- & Il). apply In_nth_error in Il. destruct Il as [j H]. exact (i_leak _ _ I j l H).
  - pose proof (in_use_length (s_tool s)). pose proof (i_len _ _ I). lia.
Qed.

Lemma unnoticed limit t es i c : Own t -> length t <= limit -> Connected (after limit t es) i c ->
  exists q, get (s_tool (after limit t es)) (c_from c) = Some (ReadEnd q) /\ Holds (s_tool (after limit t es)) (WriteEnd q).
Proof.
  intros O Lt C. pose proof (inv_after limit t es O Lt) as I. destruct (i_conn _ _ I i c C) as (l & H & _ & G). exists (l_out l). split; [exact G|]. exact (i_leak _ _ I _ l H).
Qed.
Lemma write_fails limit t es i c : Own t -> length t <= limit -> Connected (after limit t es) i c ->
  (forall tb, ~ Alive (after limit t es) (c_lve c) tb) ->
  exists p, get (s_tool (after limit t es)) (c_to c) = Some (WriteEnd p) /\ ~ HeldBySome (after limit t es) (ReadEnd p).
Proof.
  intros O Lt C D. pose proof (inv_after limit t es O Lt) as I. destruct (i_conn _ _ I i c C) as (l & H & G & _). exists (l_in l). split; [exact G|].
  set (s := after limit t es) in *.
  intros [Ht|(j & tb & (l' & H' & F) & n & Gn)]; [exact (i_noread _ _ I _ l H Ht)|]. destruct (i_alive _ _ I j l' tb H' F) as (A0 & A1 & A2).
  destruct n as [|[|n]].
  - assert (l_in l' = l_in l) as E by congruence. pose proof (in_inj limit s j (c_lve c) l' l I H' H E) as ->. apply (D tb). exists l'. now split.
  - congruence.
  - destruct (A2 (S (S n)) (ReadEnd (l_in l)) (l_in l) ltac:(lia) Gn eq_refl) as [_ B]. exact (B eq_refl _ l H eq_refl).
Qed.

Lemma classic_above s n : (exists m tm, Alive s m tm /\ n <= m) \/ (forall m tm, Alive s m tm -> n <= m -> False).
Proof.
  assert (X : forall (ls : list lve) n, (exists m l t, nth_error ls m = Some l /\ l_fds l = Some t /\ n <= m) \/ (forall m l t, nth_error ls m = Some l -> l_fds l = Some t -> n <= m -> False)).
  { intros ls. induction ls as [|x ls IH]; intros k.
    - right. intros m l t H. destruct m; discriminate.
    - destruct (IH (pred k)) as [(m & l & t & H & F & L)|N].
      + left. exists (S m), l, t. repeat split; auto. lia.
      + destruct k as [|k].
        * destruct (l_fds x) as [t|] eqn:Fx.
          -- left. exists 0, x, t. repeat split; auto.
          -- right. intros [|m] l t H F L; cbn [nth_error] in H; [congruence|]. apply (N m l t H F). cbn. lia.
        * right. intros [|m] l t H F L; [lia|]. apply (N m l t H F). cbn. lia. }
  destruct (X (s_lves s) n) as [(m & l & t & H & F & L)|N].
  - left. exists m, t. split; [now exists l|exact L].
  - right. intros m t (l & H & F). exact (N m l t H F).
Qed.
(** The last of the LVEs that live. *)
Lemma last_alive s j tb : Alive s j tb -> exists k tk, Alive s k tk /\ forall m tm, Alive s m tm -> m <= k.
Proof.
  intros A. assert (Bd : forall m tm, Alive s m tm -> m < length (s_lves s)) by (intros m tm (l & H & _); now apply nth_error_lt in H).
  assert (X : forall n, (exists m tm, Alive s m tm /\ n <= m) -> n <= length (s_lves s) -> exists k tk, Alive s k tk /\ forall m tm, Alive s m tm -> m <= k).
  { intros n. remember (length (s_lves s) - n) as d eqn:Ed. revert n Ed. induction d as [|d IH]; intros n Ed (m & tm & Am & Lm) Ln.
    - pose proof (Bd m tm Am). lia.
    - destruct (classic_above s (S n)) as [(m' & tm' & Am' & Lm')|N].
      + apply (IH (S n)); [lia| |lia]. exists m', tm'. now split.
      + exists m, tm. split; [exact Am|]. intros m' tm' Am'. destruct (Nat.lt_ge_cases n m') as [L|L]; [|lia]. exfalso. exact (N m' tm' Am' L). }
  apply (X 0); [exists j, tb; split; [exact A|lia]|lia].
Qed.

Lemma orphans limit t es j tb : Own t -> length t <= limit -> Alive (after limit t es) j tb ->
  exists k tk p, Alive (orphaned (after limit t es)) k tk /\ get tk 0 = Some (ReadEnd p) /\ ~ HeldBySome (orphaned (after limit t es)) (WriteEnd p).
Proof.
  intros O Lt A. pose proof (inv_after limit t es O Lt) as I. set (s := after limit t es) in *.
  destruct (last_alive s j tb A) as (k & tk & Ak & Mx). pose proof Ak as (l & H & F). destruct (i_alive _ _ I k l tk H F) as (A0 & A1 & A2).
  exists k, tk, (l_in l). split; [exact Ak|]. split; [exact A0|]. intros [[n G]|(m & tm & Am & n & G)]; [cbn [orphaned s_tool] in G; rewrite get_nil in G; discriminate|].
  assert (Am' : Alive s m tm) by exact Am. pose proof (Mx m tm Am') as Lm. destruct Am' as (l' & H' & F'). destruct (i_alive _ _ I m l' tm H' F') as (B0 & B1 & B2).
  destruct n as [|[|n]].
  - congruence.
  - assert (l_out l' = l_in l) by congruence. exact (in_not_out limit s k m l l' I H H' (eq_sym H0)).
  - destruct (B2 (S (S n)) _ (l_in l) ltac:(lia) G eq_refl) as [Lp _]. destruct (Nat.eq_dec m k) as [->|N]; [assert (l' = l) as -> by congruence; lia|].
    pose proof (i_sorted _ _ I m k l' l ltac:(lia) H' H). pose proof (i_order _ _ I m l' H'). lia.
Qed.

(** Who can hold the write end of an LVE's input. *)
Lemma input_holders limit t es i c : Own t -> length t <= limit -> Connected (after limit t es) i c ->
  (forall k tk, Alive (after limit t es) k tk -> k <= c_lve c) ->
  exists p, get (s_tool (after limit t es)) (c_to c) = Some (WriteEnd p) /\ ~ HeldBySome (step limit (after limit t es) (Free i)) (WriteEnd p).
Proof.
  intros O Lt C Mx. pose proof (inv_after limit t es O Lt) as I. set (s := after limit t es) in *. destruct (i_conn _ _ I i c C) as (l & H & G & G2).
  exists (l_in l). split; [exact G|]. cbn [step]. replace (nth i (s_conns s) None) with (Some c) by (symmetry; now apply (nth_error_nth _ _ None) in C).
  intros [[n Gn]|(m & tm & Am & n & Gn)].
  - cbn [close_connection s_tool] in Gn. rewrite get_close in Gn. destruct (n =? c_from c); [discriminate|]. rewrite get_close in Gn.
    destruct (Nat.eqb_spec n (c_to c)) as [En|N]; [discriminate|]. apply N. exact (i_one _ _ I _ l n (c_to c) H Gn G).
  - assert (Am' : Alive s m tm) by exact Am. pose proof (Mx m tm Am') as Lm. destruct Am' as (l' & H' & F'). destruct (i_alive _ _ I m l' tm H' F') as (B0 & B1 & B2).
    destruct n as [|[|n]].
    + congruence.
    + assert (l_out l' = l_in l) as E by congruence. exact (in_not_out limit s _ m l l' I H H' (eq_sym E)).
    + destruct (B2 (S (S n)) _ (l_in l) ltac:(lia) Gn eq_refl) as [Lp _]. destruct (Nat.eq_dec m (c_lve c)) as [->|N]; [assert (l' = l) as -> by congruence; lia|].
      pose proof (i_sorted _ _ I m (c_lve c) l' l ltac:(lia) H' H). pose proof (i_order _ _ I m l' H'). lia.
Qed.

(** An LVE started later keeps the input of the earlier one open. *)
Lemma inherited limit t es i c a s' c' : Own t -> length t <= limit -> Connected (after limit t es) i c -> 2 <= c_to c ->
  get (s_tool (after limit t es)) 0 <> None -> a_exec a = true -> start limit a (after limit t es) = (s', Some c') ->
  exists p tb, get (s_tool (after limit t es)) (c_to c) = Some (WriteEnd p) /\
    Alive (step limit (step limit (after limit t es) (Start a)) (Free i)) (c_lve c') tb /\ Holds tb (WriteEnd p).
Proof.
  intros O Lt C L2 G0 Ex E. pose proof (inv_after limit t es O Lt) as I. set (s := after limit t es) in *. destruct (i_conn _ _ I i c C) as (l & H & G & _).
  pose proof (start_ready _ _ _ _ _ E) as Sp. destruct (spawned_ready limit a s s' c' Sp G0 Ex) as (tb & Al & _ & _ & _ & _ & R).
  exists (l_in l), tb. split; [exact G|]. split; [|exists (c_to c); now apply R].
  cbn [step]. rewrite E. cbn [s_conns]. assert (Alive {| s_tool := s_tool s'; s_lves := s_lves s'; s_conns := s_conns s' ++ [Some c']; s_next := s_next s' |} (c_lve c') tb) as A1 by exact Al.
  destruct (nth i (s_conns s' ++ [Some c']) None); exact A1.
Qed.

Lemma ended_orphaned limit js : forall s, fold_left (step limit) (map Ended js) (orphaned s) = orphaned (fold_left (step limit) (map Ended js) s).
Proof. induction js as [|j js IH]; intros s; cbn [map fold_left]; [reflexivity|]. rewrite <- IH. f_equal. Qed.
Lemma orphans_all limit t es js k tk : Own t -> length t <= limit ->
  Alive (fold_left (step limit) (map Ended js) (orphaned (after limit t es))) k tk ->
  exists m tm p, Alive (fold_left (step limit) (map Ended js) (orphaned (after limit t es))) m tm /\
    get tm 0 = Some (ReadEnd p) /\ ~ HeldBySome (fold_left (step limit) (map Ended js) (orphaned (after limit t es))) (WriteEnd p).
Proof.
  intros O Lt. rewrite ended_orphaned. replace (fold_left (step limit) (map Ended js) (after limit t es)) with (after limit t (es ++ map Ended js)) by (unfold after; apply fold_left_app).
  intros A. exact (orphans limit t (es ++ map Ended js) k tk O Lt A).
Qed.
