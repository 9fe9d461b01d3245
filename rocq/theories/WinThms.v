(** What follows from the invariant, and the cases outside it. *)
From Coq Require Import Lia Arith.
From Verif Require Import Base WinModel WinSpec WinProofs WinHist.
From Verif Require SpawnModel SpawnSpec SpawnHist.
Import SpawnModel (l_fds, l_in, l_out, c_to, c_from, c_lve).
Import SpawnHist (pipe_of, nth_error_snoc, nth_error_lt, nth_error_replace).

(** The calls of [a], with the streams given back. *)
Definition back (a : calls) : calls :=
  {| b_pipe1 := b_pipe1 a; b_pipe2 := b_pipe2 a; b_save_in := b_save_in a; b_save_out := b_save_out a; b_set_in := b_set_in a; b_set_out := b_set_out a;
     b_run := b_run a; b_back_in := true; b_back_out := true; b_calloc := b_calloc a; b_setup := b_setup a; b_handshake := b_handshake a |}.
Lemma give_back_ok ok saved fd t t' : give_back ok saved fd t = Some t' -> give_back true saved fd t = Some t'.
Proof.
  unfold give_back. destruct saved as [n|]; [|auto]. unfold crt_dup2. destruct (get t n); try discriminate. destruct ok; [auto|discriminate].
Qed.
Lemma spawn_back limit a name s s' c : spawn limit a name s = (s', Some c) -> spawn limit (back a) name s = (s', Some c).
Proof.
  unfold spawn. cbn [b_pipe1 b_pipe2 b_save_in b_save_out b_set_in b_set_out b_back_in b_back_out b_calloc back]. change (run (back a) name) with (run a name).
  destruct (crt_pipe (b_pipe1 a) limit _ _) as [[[pr pw] t1]|]; [|auto].
  destruct (crt_pipe (b_pipe2 a) limit _ _) as [[[cr cw] t2]|]; [|auto].
  destruct (crt_dup (b_save_in a) limit 0 t2) as [[sin t3]|]; [|auto].
  destruct (crt_dup (b_save_out a) limit 1 t3) as [[sout t4]|]; [|auto].
  destruct (crt_dup2 (b_set_in a) pr 0 t4) as [t5|]; [|auto]. destruct (crt_dup2 (b_set_out a) cw 1 t5) as [t6|]; [|auto].
  destruct (run a name); [|auto].
  destruct (give_back (b_back_in a) sin 0 _) as [t8|] eqn:E1; [|discriminate]. apply give_back_ok in E1 as ->.
  destruct (give_back (b_back_out a) sout 1 t8) as [t9|] eqn:E2; [|discriminate]. apply give_back_ok in E2 as ->. auto.
Qed.
Lemma spawn_some limit a name s s' c : Streams (w_tool s) -> spawn limit a name s = (s', Some c) -> spawned (back a) s s' (Some c).
Proof. intros St E. apply spawn_back in E. exact (spawn_spec limit (back a) name s s' (Some c) St eq_refl eq_refl E). Qed.
Lemma start_spawn limit a name s s' c : start limit a name s = (s', Some c) -> spawn limit a name s = (s', Some c).
Proof.
  unfold start. destruct (spawn limit a name s) as [s1 [c1|]]; [|discriminate]. destruct (b_setup a && b_handshake a); [auto|discriminate].
Qed.

Lemma streams_kept limit a name s s' c : Streams (w_tool s) -> start limit a name s = (s', Some c) ->
  refers (w_tool s) (c_to c) = None /\ refers (w_tool s) (c_from c) = None /\
  forall n, n <> c_to c -> n <> c_from c -> refers (w_tool s') n = refers (w_tool s) n.
Proof.
  intros St E. apply start_spawn in E. apply spawn_some in E; [|exact St]. remember (Some c) as oc eqn:Q.
  destruct E as [|t' ? ? ?|t' tb pw cr oc U1 U2 L1 L2 N Gw Gr K Ks T0 T1 Tn Ec]; try discriminate.
  destruct Ec as [Ec|Ec]; [congruence|]. rewrite Q in Ec. injection Ec as ->. cbn [c_to c_from w_tool]. unfold refers at 1 2. rewrite U1, U2.
  split; [reflexivity|]. split; [reflexivity|]. intros n N1 N2. destruct (Nat.le_gt_cases 2 n) as [L|L]; [unfold refers; now rewrite K|]. apply Ks. lia.
Qed.
Lemma restored limit a name s s' c : Streams (w_tool s) -> start limit a name s = (s', Some c) ->
  forall n, refers (w_tool (close_connection c s')) n = refers (w_tool s) n.
Proof.
  intros St E n. destruct (streams_kept limit a name s s' c St E) as (R1 & R2 & R). unfold close_connection. cbn [w_tool].
  destruct (Nat.eq_dec n (c_from c)) as [->|N1].
  - rewrite R2. unfold refers. rewrite close_get, Nat.eqb_refl. now destruct (get (crt_close (c_to c) (w_tool s')) (c_from c)).
  - unfold refers at 1. rewrite close_other by exact N1. destruct (Nat.eq_dec n (c_to c)) as [->|N2].
    + rewrite R1, close_get, Nat.eqb_refl. now destruct (get (w_tool s') (c_to c)).
    + rewrite close_other by exact N2. now apply R.
Qed.

Lemma new_not_held s o p : Inv s -> pipe_of o = Some p -> w_next s <= p -> ~ HeldBySome s o.
Proof.
  intros I P L [[n G]|(j & tb & (l & H & F) & n & G)].
  - unfold refers in G. destruct (get (w_tool s) n) as [| |o' b] eqn:X; try discriminate. injection G as ->. pose proof (v_fresh s I n o b p X P). lia.
  - pose proof (v_freshl s I j l tb n o p H F G P). lia.
Qed.
Lemma new_not_held_ends s o : Inv s -> ends (w_next s) (S (w_next s)) o -> ~ HeldBySome s o.
Proof.
  intros I E. destruct E as [->|[->|[->| ->]]]; (eapply new_not_held; [exact I|reflexivity|lia]).
Qed.
Lemma connected limit t es a name s' c : Own t -> Streams t -> Forall GivesBack es ->
  start limit a name (after limit t es) = (s', Some c) ->
  exists tb p q, Alive s' (c_lve c) tb /\
    SpawnModel.get tb 0 = Some (ReadEnd p) /\ refers (w_tool s') (c_to c) = Some (WriteEnd p) /\
    SpawnModel.get tb 1 = Some (WriteEnd q) /\ refers (w_tool s') (c_from c) = Some (ReadEnd q) /\ p <> q /\
    (forall o, o = ReadEnd p \/ o = WriteEnd p \/ o = ReadEnd q \/ o = WriteEnd q -> ~ HeldBySome (after limit t es) o) /\
    (forall n o, 2 <= n -> SpawnModel.get tb n = Some o -> (exists m, refers (w_tool (after limit t es)) m = Some o) /\
       forall i c', Connected (after limit t es) i c' ->
         refers (w_tool (after limit t es)) (c_to c') <> Some o /\ refers (w_tool (after limit t es)) (c_from c') <> Some o).
Proof.
  intros Ow St F E. pose proof (inv_after limit t es Ow St F) as I. set (s := after limit t es) in *. clearbody s.
  apply start_spawn in E. apply spawn_some in E; [|exact (v_streams s I)]. remember (Some c) as oc eqn:Q.
  destruct E as [|t' ? ? ?|t' tb pw cr oc U1 U2 L1 L2 N Gw Gr K Ks T0 T1 Tn Ec]; try discriminate.
  destruct Ec as [Ec|Ec]; [congruence|]. rewrite Q in Ec. injection Ec as ->. cbn [c_to c_from c_lve w_tool].
  exists tb, (w_next s), (S (w_next s)). split.
  { eexists. cbn [w_lves]. split; [apply nth_error_snoc; right; split; reflexivity|reflexivity]. }
  split; [exact T0|]. split; [unfold refers; now rewrite Gw|]. split; [exact T1|]. split; [unfold refers; now rewrite Gr|].
  split; [lia|]. split; [intros o O; exact (new_not_held_ends s o I O)|].
  intros n o Ln G. assert (X : exists m b, get (w_tool s) m = Handle o b /\ (m <= 1 \/ b = true)).
  { destruct (Tn n o Ln G) as [X|(m & b & Lm & X)]; [exists n, true; auto|exists m, b; auto]. }
  destruct X as (m & b & X & Y). split; [exists m; unfold refers; now rewrite X|].
  intros i c' C. destruct (v_conn s I i c' C) as (l & H & G1 & G2). unfold refers. rewrite G1, G2.
  assert (NO : ~ Of l o) by (intros O; pose proof (v_tool s I _ l m o b H X O); destruct Y as [Y| ->]; [lia|intuition discriminate]).
  split; intros R; apply NO; injection R as <-; unfold Of, ends; tauto.
Qed.

Lemma conn_refers s i c : Inv s -> Connected s i c -> exists l, nth_error (w_lves s) (c_lve c) = Some l /\
  refers (w_tool s) (c_to c) = Some (WriteEnd (l_in l)) /\ refers (w_tool s) (c_from c) = Some (ReadEnd (l_out l)).
Proof. intros I C. destruct (v_conn s I i c C) as (l & H & G1 & G2). exists l. unfold refers. rewrite G1, G2. auto. Qed.
Lemma far_held s j l o : Inv s -> nth_error (w_lves s) j = Some l -> o = ReadEnd (l_in l) \/ o = WriteEnd (l_out l) ->
  HeldBySome s o -> exists tb, Alive s j tb.
Proof.
  intros I H E [[n G]|(k & tb & (l' & H' & F) & n & G)].
  - exfalso. unfold refers in G. destruct (get (w_tool s) n) as [| |o' b] eqn:X; try discriminate. injection G as ->.
    assert (O : Of l o) by (unfold Of, ends; tauto). destruct (v_tool s I j l n o b H X O) as (_ & _ & Y). pose proof (v_order s I j l H).
    destruct E as [-> | ->], Y as [Y|Y]; try discriminate; injection Y; lia.
  - assert (O : Of l o) by (unfold Of, ends; tauto). destruct (v_alive s I k l' tb n o j l H' F G H O) as [-> _]. exists tb, l'. auto.
Qed.
Lemma end_noticed limit t es i c : Own t -> Streams t -> Forall GivesBack es ->
  Connected (after limit t es) i c -> (forall tb, ~ Alive (after limit t es) (c_lve c) tb) ->
  exists p q, refers (w_tool (after limit t es)) (c_to c) = Some (WriteEnd p) /\ refers (w_tool (after limit t es)) (c_from c) = Some (ReadEnd q) /\
    ~ HeldBySome (after limit t es) (ReadEnd p) /\ ~ HeldBySome (after limit t es) (WriteEnd q).
Proof.
  intros Ow St F C D. pose proof (inv_after limit t es Ow St F) as I. set (s := after limit t es) in *. clearbody s.
  destruct (conn_refers s i c I C) as (l & H & R1 & R2). exists (l_in l), (l_out l). split; [exact R1|]. split; [exact R2|].
  split; intros X; [destruct (far_held s _ l _ I H (or_introl eq_refl) X) as [tb A]|destruct (far_held s _ l _ I H (or_intror eq_refl) X) as [tb A]]; exact (D tb A).
Qed.
Lemma freed limit t es i c : Own t -> Streams t -> Forall GivesBack es -> Connected (after limit t es) i c ->
  exists p q, refers (w_tool (after limit t es)) (c_to c) = Some (WriteEnd p) /\ refers (w_tool (after limit t es)) (c_from c) = Some (ReadEnd q) /\
    ~ HeldBySome (step limit (after limit t es) (Free i)) (WriteEnd p) /\ ~ HeldBySome (step limit (after limit t es) (Free i)) (ReadEnd q).
Proof.
  intros Ow St F C. pose proof (inv_after limit t es Ow St F) as I. set (s := after limit t es) in *. clearbody s.
  destruct (conn_refers s i c I C) as (l & H & R1 & R2). exists (l_in l), (l_out l). split; [exact R1|]. split; [exact R2|].
  pose proof (v_order s I _ l H) as [Q1 _].
  assert (St2 : step limit s (Free i) = {| w_tool := crt_close (c_from c) (crt_close (c_to c) (w_tool s)); w_lves := w_lves s;
                 w_conns := SpawnModel.replace i None (w_conns s); w_next := w_next s |}).
  { cbn [step]. unfold Connected in C. now rewrite (nth_error_nth _ _ None C). }
  rewrite St2. clear St2.
  assert (T : forall n o, (o = WriteEnd (l_in l) \/ o = ReadEnd (l_out l)) -> refers (crt_close (c_from c) (crt_close (c_to c) (w_tool s))) n <> Some o).
  { intros n o E X. assert (O : Of l o) by (unfold Of, ends; tauto). destruct (v_conn s I i c C) as (l0 & H0 & G1 & G2). assert (l0 = l) as -> by congruence.
    unfold refers in X. rewrite close_get in X. destruct (Nat.eqb_spec n (c_from c)) as [->|N1].
    { destruct (get (crt_close (c_to c) (w_tool s)) (c_from c)); discriminate. }
    rewrite close_get in X. destruct (Nat.eqb_spec n (c_to c)) as [->|N2].
    { destruct (get (w_tool s) (c_to c)); discriminate. }
    destruct (get (w_tool s) n) as [| |o' b] eqn:G; try discriminate. injection X as ->.
    destruct E as [-> | ->]; [apply N2; exact (v_one s I _ l _ _ _ _ _ H G G1 O)|apply N1; exact (v_one s I _ l _ _ _ _ _ H G G2 O)]. }
  assert (L : forall o, (o = WriteEnd (l_in l) \/ o = ReadEnd (l_out l)) -> forall j tb, Alive s j tb -> ~ SpawnSpec.Holds tb o).
  { intros o E j tb (l' & H' & F') [n G]. assert (O : Of l o) by (unfold Of, ends; tauto).
    destruct (v_alive s I j l' tb n o _ l H' F' G H O) as [_ [[_ Y]|[_ Y]]]; destruct E as [-> | ->]; try discriminate; injection Y; lia. }
  split; intros [[n X]|(j & tb & A & Hd)].
  - exact (T n _ (or_introl eq_refl) X).
  - exact (L _ (or_introl eq_refl) j tb A Hd).
  - exact (T n _ (or_intror eq_refl) X).
  - exact (L _ (or_intror eq_refl) j tb A Hd).
Qed.

(** ** Outside the invariant *)

Lemma lowest_le t : lowest t <= length t.
Proof. induction t as [|[| |o b] t IH]; cbn [lowest length]; lia. Qed.
Lemma put_len n x t : length (put n x t) <= Nat.max (S n) (length t).
Proof.
  revert t. induction n as [|n IH]; intros [|y t]; cbn [put length]; try lia.
  - specialize (IH []). cbn [length] in *. lia.
  - specialize (IH t). lia.
Qed.
Lemma alloc_some limit x t : length t < limit -> exists n t', alloc limit x t = Some (n, t') /\ length t' <= S (length t).
Proof.
  intros L. unfold alloc. pose proof (lowest_le t). destruct (Nat.ltb_spec (lowest t) limit); [|lia]. eexists. eexists. split; [reflexivity|].
  pose proof (put_len (lowest t) x t). lia.
Qed.
Lemma pipe_some limit p t : S (length t) < limit -> exists r w t', crt_pipe true limit p t = Some (r, w, t') /\ length t' <= S (S (length t)).
Proof.
  intros L. unfold crt_pipe. destruct (alloc_some limit (Handle (ReadEnd p) false) t) as (r & t1 & -> & L1); [lia|].
  destruct (alloc_some limit (Handle (WriteEnd p) false) t1) as (w & t2 & -> & L2); [lia|]. exists r, w, t2. split; [reflexivity|lia].
Qed.
Lemma dup_some limit fd t : length t < limit -> exists r t', crt_dup true limit fd t = Some (r, t') /\ length t' <= S (length t).
Proof.
  intros L. unfold crt_dup. destruct (get t fd) as [| |o b]; try (exists None, t; split; [reflexivity|lia]).
  destruct (alloc_some limit (Handle o true) t L) as (n & t1 & -> & L1). exists (Some n), t1. auto.
Qed.
Lemma dup2_some a b t o i : get t a = Handle o i -> exists t', crt_dup2 true a b t = Some t'.
Proof. intros G. unfold crt_dup2. rewrite G. destruct (a =? b); eauto. Qed.

Lemma failed limit t es a name : Own t -> Streams t -> Forall GivesBack es -> Prepares a -> (forall f, b_run a f = false) ->
  length (w_tool (after limit t es)) + 6 <= limit ->
  exists s' p q, start limit a name (after limit t es) = (s', None) /\
    refers (w_tool s') 0 = Some (ReadEnd p) /\ refers (w_tool s') 1 = Some (WriteEnd q) /\
    (forall o, o = ReadEnd p \/ o = WriteEnd q -> ~ HeldBySome (after limit t es) o) /\
    forall j tb, Alive s' j tb -> ~ SpawnSpec.Holds tb (ReadEnd p) /\ ~ SpawnSpec.Holds tb (WriteEnd q).
Proof.
  intros Ow St F (P1 & P2 & P3 & P4 & P5 & P6) Nr Len. pose proof (inv_after limit t es Ow St F) as I. set (s := after limit t es) in *. clearbody s.
  assert (R : run a name = false) by (unfold run; rewrite !Nr, andb_false_r; reflexivity).
  destruct (streams_handles _ (v_streams s I)) as (o0 & b0 & o1 & b1 & G0 & G1).
  assert (Hi : forall n, get (w_tool s) n = Unused -> 2 <= n) by (intros n; apply unused_high; [rewrite G0; discriminate|rewrite G1; discriminate]).
  unfold start, spawn. rewrite P1, P2, P3, P4, P5, P6, R.
  destruct (pipe_some limit (w_next s) (w_tool s)) as (pr & pw & t1 & E1 & L1); [lia|]. rewrite E1. apply pipe_spec in E1. destruct E1 as (N1 & U1 & U2 & _ & Hr & Hw & O1).
  destruct (pipe_some limit (S (w_next s)) t1) as (cr & cw & t2 & E2 & L2); [lia|]. rewrite E2. apply pipe_spec in E2. destruct E2 as (N2 & U3 & U4 & _ & Hcr & Hcw & O2).
  assert (A1 : cr <> pr) by congruence. assert (A2 : cr <> pw) by congruence. assert (A3 : cw <> pr) by congruence. assert (A4 : cw <> pw) by congruence.
  assert (U4' : get (w_tool s) cw = Unused) by (rewrite <- O1; auto).
  pose proof (Hi _ U1) as H1. pose proof (Hi _ U2) as H2. pose proof (Hi _ U4') as H4.
  destruct (dup_some limit 0 t2) as (r0 & t3 & E3 & L3); [lia|]. rewrite E3.
  assert (K3 : forall n, get t2 n <> Unused -> get t3 n = get t2 n).
  { apply dup_spec in E3. destruct r0 as [n0|]; [|destruct E3 as [-> _]; auto]. destruct E3 as (o & b & _ & U & _ & O3). intros n Un. apply O3. intros ->. contradiction. }
  destruct (dup_some limit 1 t3) as (r1 & t4 & E4 & L4); [lia|]. rewrite E4.
  assert (K4 : forall n, get t3 n <> Unused -> get t4 n = get t3 n).
  { apply dup_spec in E4. destruct r1 as [n0|]; [|destruct E4 as [-> _]; auto]. destruct E4 as (o & b & _ & U & _ & O4). intros n Un. apply O4. intros ->. contradiction. }
  assert (K2pr : get t2 pr = Handle (ReadEnd (w_next s)) false) by (rewrite O2; auto).
  assert (K4' : forall n, get t2 n <> Unused -> get t4 n = get t2 n) by (intros n Un; rewrite K4; [now apply K3|now rewrite K3]).
  assert (G4 : get t4 pr = Handle (ReadEnd (w_next s)) false) by (rewrite K4'; [exact K2pr|rewrite K2pr; discriminate]).
  destruct (dup2_some pr 0 t4 _ _ G4) as [t5 E5]. rewrite E5. apply dup2_spec in E5; [|lia]. destruct E5 as (x & y & X & H5 & O5). rewrite G4 in X. injection X as <- _.
  assert (G5 : get t5 cw = Handle (WriteEnd (S (w_next s))) false) by (rewrite O5 by lia; rewrite K4'; [exact Hcw|rewrite Hcw; discriminate]).
  destruct (dup2_some cw 1 t5 _ _ G5) as [t6 E6]. rewrite E6. apply dup2_spec in E6; [|lia]. destruct E6 as (x & z & X & H6 & O6). rewrite G5 in X. injection X as <- _.
  eexists. exists (w_next s), (S (w_next s)). split; [reflexivity|]. cbn [w_tool w_lves]. unfold refers. rewrite !close_other by lia. rewrite (O6 0) by lia. rewrite H5, H6.
  split; [reflexivity|]. split; [reflexivity|]. split.
  - intros o [-> | ->]; apply (new_not_held_ends s _ I); unfold ends; tauto.
  - intros j tb (l & H & Fd). cbn [w_lves] in H. rewrite app_nil_r in H.
    split; intros Hd; [apply (new_not_held_ends s (ReadEnd (w_next s)) I)|apply (new_not_held_ends s (WriteEnd (S (w_next s))) I)];
      try (unfold ends; tauto); right; exists j, tb; (split; [exists l; auto|exact Hd]).
Qed.

Lemma detached limit a name s s' c : Detached (w_tool s) -> start limit a name s = (s', Some c) ->
  exists p q, refers (w_tool s') (c_to c) = Some (WriteEnd p) /\ refers (w_tool s') (c_from c) = Some (ReadEnd q) /\
    refers (w_tool s') 0 = Some (ReadEnd p) /\ refers (w_tool s') 1 = Some (WriteEnd q) /\ 2 <= c_to c /\ 2 <= c_from c.
Proof.
  intros [D0 D1] E. apply start_spawn in E. revert E. unfold spawn. set (p := w_next s).
  assert (Hi : forall n, get (w_tool s) n = Unused -> 2 <= n) by (intros n; apply unused_high; [rewrite D0; discriminate|rewrite D1; discriminate]).
  destruct (crt_pipe (b_pipe1 a) limit p (w_tool s)) as [[[pr pw] t1]|] eqn:E1; [|discriminate].
  destruct (crt_pipe (b_pipe2 a) limit (S p) t1) as [[[cr cw] t2]|] eqn:E2; [|discriminate].
  apply pipe_spec in E1. destruct E1 as (N1 & U1 & U2 & _ & Hr & Hw & O1). apply pipe_spec in E2. destruct E2 as (N2 & U3 & U4 & _ & Hcr & Hcw & O2).
  assert (A1 : cr <> pr) by congruence. assert (A2 : cr <> pw) by congruence. assert (A3 : cw <> pr) by congruence. assert (A4 : cw <> pw) by congruence.
  assert (U4' : get (w_tool s) cw = Unused) by (rewrite <- O1; auto). assert (U3' : get (w_tool s) cr = Unused) by (rewrite <- O1; auto).
  pose proof (Hi _ U1) as H1. pose proof (Hi _ U2) as H2. pose proof (Hi _ U4') as H4. pose proof (Hi _ U3') as H3.
  assert (G0 : get t2 0 = NoConsole) by (rewrite O2, O1 by nu; exact D0). assert (G1 : get t2 1 = NoConsole) by (rewrite O2, O1 by nu; exact D1).
  unfold crt_dup. rewrite G0, G1.
  assert (K2pr : get t2 pr = Handle (ReadEnd p) false) by (rewrite O2; auto). assert (K2pw : get t2 pw = Handle (WriteEnd p) false) by (rewrite O2; auto).
  destruct (crt_dup2 (b_set_in a) pr 0 t2) as [t5|] eqn:E5; [|discriminate]. apply dup2_spec in E5; [|nu]. destruct E5 as (x & y & X & H5 & O5). rewrite K2pr in X. injection X as <- _.
  destruct (crt_dup2 (b_set_out a) cw 1 t5) as [t6|] eqn:E6; [|discriminate]. apply dup2_spec in E6; [|nu]. destruct E6 as (x & z & X & H6 & O6).
  rewrite O5, Hcw in X by nu. injection X as <- _.
  destruct (run a name); [|discriminate]. cbn [give_back]. destruct (b_calloc a); [|discriminate]. intros E. injection E as <- <-. cbn [w_tool c_to c_from].
  exists p, (S p). unfold refers. rewrite !close_other by nu. rewrite (O6 pw), (O5 pw), (O6 cr), (O5 cr), (O6 0), K2pw, Hcr, H5, H6 by nu.
  repeat split; assumption.
Qed.
Lemma detached_unnoticed limit a name s s' c : Detached (w_tool s) -> start limit a name s = (s', Some c) ->
  exists q, refers (w_tool s') (c_from c) = Some (ReadEnd q) /\ HeldBySome (step limit s' (Ended (c_lve c))) (WriteEnd q).
Proof.
  intros D E. destruct (detached limit a name s s' c D E) as (p & q & _ & R & _ & R1 & _). exists q. split; [exact R|]. left. exists 1. exact R1.
Qed.

(** No standard input: the number 0 goes to the pipe. *)
Lemma lowest_zero t : get t 0 = Unused -> lowest t = 0.
Proof. destruct t as [|[| |o b] t]; [reflexivity|reflexivity|discriminate|discriminate]. Qed.
Lemma closed limit a name s s' c : get (w_tool s) 0 = Unused -> start limit a name s = (s', Some c) ->
  exists tb, Alive s' (c_lve c) tb /\ SpawnModel.get tb 0 = None.
Proof.
  intros U E. apply start_spawn in E. revert E. unfold spawn. set (p := w_next s).
  destruct (crt_pipe (b_pipe1 a) limit p (w_tool s)) as [[[pr pw] t1]|] eqn:E1; [|discriminate].
  destruct (crt_pipe (b_pipe2 a) limit (S p) t1) as [[[cr cw] t2]|] eqn:E2; [|discriminate].
  apply pipe_spec in E1. destruct E1 as (N1 & U1 & U2 & Le & Hr & Hw & O1). apply pipe_spec in E2. destruct E2 as (N2 & U3 & U4 & _ & Hcr & Hcw & O2).
  assert (pr = 0) as -> by (destruct pr; [reflexivity|]; destruct (Le 0); [lia|exact U]).
  assert (A1 : cr <> 0) by congruence. assert (A3 : cw <> 0) by congruence.
  assert (G0 : get t2 0 = Handle (ReadEnd p) false) by (rewrite O2; auto).
  destruct (crt_dup (b_save_in a) limit 0 t2) as [[sin t3]|] eqn:E3; [|discriminate].
  assert (G3 : get t3 0 = Handle (ReadEnd p) false).
  { apply dup_spec in E3. destruct sin as [n|]; [|destruct E3 as [-> _]; exact G0]. destruct E3 as (o & b & _ & Un & _ & O3). rewrite O3; [exact G0|intros <-; congruence]. }
  destruct (crt_dup (b_save_out a) limit 1 t3) as [[sout t4]|] eqn:E4; [|discriminate].
  assert (G4 : get t4 0 = Handle (ReadEnd p) false).
  { apply dup_spec in E4. destruct sout as [n|]; [|destruct E4 as [-> _]; exact G3]. destruct E4 as (o & b & _ & Un & _ & O4). rewrite O4; [exact G3|intros <-; congruence]. }
  unfold crt_dup2 at 1. rewrite G4. destruct (b_set_in a); [|discriminate]. cbn [Nat.eqb].
  destruct (crt_dup2 (b_set_out a) cw 1 t4) as [t6|] eqn:E6; [|discriminate].
  assert (G6 : get t6 0 = Handle (ReadEnd p) false).
  { destruct (Nat.eq_dec cw 1) as [->|Nc].
    - unfold crt_dup2 in E6. destruct (get t4 1); try discriminate. destruct (b_set_out a); [|discriminate]. cbn [Nat.eqb] in E6. congruence.
    - apply dup2_spec in E6; [|exact Nc]. destruct E6 as (x & z & _ & _ & O6). rewrite O6; [exact G4|discriminate]. }
  assert (G7 : get (crt_close cw (crt_close 0 t6)) 0 = Unused) by (rewrite close_other by auto; exact (close_same _ _ _ _ G6)).
  destruct (run a name); [|discriminate].
  set (t7 := crt_close cw (crt_close 0 t6)) in *.
  assert (T : forall t9, exists tb, Alive {| w_tool := t9; w_lves := w_lves s ++ [{| SpawnModel.l_fds := Some (inherited t7); SpawnModel.l_in := p; SpawnModel.l_out := S p |}];
      w_conns := w_conns s; w_next := S (S p) |} (length (w_lves s)) tb /\ SpawnModel.get tb 0 = None).
  { intros t9. exists (inherited t7). split; [|rewrite inherited_get, G7; reflexivity].
    eexists. cbn [w_lves]. split; [apply nth_error_snoc; right; split; reflexivity|reflexivity]. }
  destruct (give_back (b_back_in a) sin 0 t7) as [t8|]; [|discriminate]. destruct (give_back (b_back_out a) sout 1 t8) as [t9|]; [|discriminate].
  destruct (b_calloc a); [|discriminate]. intros E.
  replace s' with {| w_tool := t9; w_lves := w_lves s ++ [{| SpawnModel.l_fds := Some (inherited t7); SpawnModel.l_in := p; SpawnModel.l_out := S p |}];
      w_conns := w_conns s; w_next := S (S p) |} by congruence.
  replace (c_lve c) with (length (w_lves s)) by (inversion E; reflexivity). apply T.
Qed.
