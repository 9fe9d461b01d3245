(** What holds after every history of a tool with standard streams. *)
From Coq Require Import Lia Arith.
From Verif Require Import Base WinModel WinSpec WinProofs.
From Verif Require SpawnModel SpawnSpec SpawnHist.
Import SpawnModel (l_fds, l_in, l_out, c_to, c_from, c_lve).
Import SpawnHist (pipe_of, nth_error_snoc, nth_error_lt, nth_error_replace).

(** One of the four ends of the pipes of an LVE. *)
Definition Of (l : SpawnModel.lve) (o : object) : Prop := ends (l_in l) (l_out l) o.
Record Inv (s : system) : Prop := {
  v_streams : Streams (w_tool s);
  v_fresh : forall n o b p, get (w_tool s) n = Handle o b -> pipe_of o = Some p -> p < w_next s;
  v_freshl : forall j l tb n o p, nth_error (w_lves s) j = Some l -> l_fds l = Some tb -> SpawnModel.get tb n = Some o -> pipe_of o = Some p -> p < w_next s;
  v_order : forall j l, nth_error (w_lves s) j = Some l -> l_out l = S (l_in l) /\ l_out l < w_next s;
  v_sorted : forall j k l l', j < k -> nth_error (w_lves s) j = Some l -> nth_error (w_lves s) k = Some l' -> l_out l < l_in l';
  v_tool : forall j l n o b, nth_error (w_lves s) j = Some l -> get (w_tool s) n = Handle o b -> Of l o ->
    2 <= n /\ b = false /\ (o = WriteEnd (l_in l) \/ o = ReadEnd (l_out l));
  v_one : forall j l n m o b b', nth_error (w_lves s) j = Some l -> get (w_tool s) n = Handle o b -> get (w_tool s) m = Handle o b' -> Of l o -> n = m;
  v_alive : forall k l' tb n o j l, nth_error (w_lves s) k = Some l' -> l_fds l' = Some tb -> SpawnModel.get tb n = Some o ->
    nth_error (w_lves s) j = Some l -> Of l o -> k = j /\ ((n = 0 /\ o = ReadEnd (l_in l)) \/ (n = 1 /\ o = WriteEnd (l_out l)));
  v_conn : forall i c, Connected s i c -> exists l, nth_error (w_lves s) (c_lve c) = Some l /\
    get (w_tool s) (c_to c) = Handle (WriteEnd (l_in l)) false /\ get (w_tool s) (c_from c) = Handle (ReadEnd (l_out l)) false;
  v_inj : forall i k c c', Connected s i c -> Connected s k c' -> c_lve c = c_lve c' -> i = k }.

Lemma of_pipe l o : Of l o -> pipe_of o = Some (l_in l) \/ pipe_of o = Some (l_out l).
Proof. intros [->|[->|[->| ->]]]; cbn; auto. Qed.
Lemma of_lt s j l o p : Inv s -> nth_error (w_lves s) j = Some l -> Of l o -> pipe_of o = Some p -> p < w_next s.
Proof. intros I H O P. destruct (v_order s I j l H). destruct (of_pipe l o O); assert (p = l_in l \/ p = l_out l) by (rewrite P in *; intuition congruence); lia. Qed.
Lemma of_inj s j k l l' o : Inv s -> nth_error (w_lves s) j = Some l -> nth_error (w_lves s) k = Some l' -> Of l o -> Of l' o -> j = k.
Proof.
  intros I H H' O O'. apply of_pipe in O. apply of_pipe in O'. pose proof (v_order s I j l H). pose proof (v_order s I k l' H').
  assert (E : l_in l = l_in l' \/ l_in l = l_out l' \/ l_out l = l_in l' \/ l_out l = l_out l') by (destruct O as [O|O], O' as [O'|O']; rewrite O in O'; injection O'; auto).
  destruct (Nat.lt_trichotomy j k) as [L|[->|L]]; [|reflexivity|].
  - pose proof (v_sorted s I j k l l' L H H'). lia.
  - pose proof (v_sorted s I k j l' l L H' H). lia.
Qed.

(** A change of the tool's descriptors that brings nothing of the pipes of the LVEs. *)
Lemma inv_tool s t n' : Inv s -> w_next s <= n' -> Streams t ->
  (forall n o b p, get t n = Handle o b -> pipe_of o = Some p -> p < n') ->
  (forall j l n o b, nth_error (w_lves s) j = Some l -> get t n = Handle o b -> Of l o -> get (w_tool s) n = Handle o b) ->
  (forall i c, Connected s i c -> get t (c_to c) = get (w_tool s) (c_to c) /\ get t (c_from c) = get (w_tool s) (c_from c)) ->
  Inv {| w_tool := t; w_lves := w_lves s; w_conns := w_conns s; w_next := n' |}.
Proof.
  intros I L St Fr Sub Kc. constructor; cbn [w_tool w_lves w_conns w_next].
  - exact St.
  - exact Fr.
  - intros j l tb n o p H F G P. pose proof (v_freshl s I j l tb n o p H F G P). lia.
  - intros j l H. pose proof (v_order s I j l H). lia.
  - exact (v_sorted s I).
  - intros j l n o b H G O. exact (v_tool s I j l n o b H (Sub j l n o b H G O) O).
  - intros j l n m o b b' H G G' O. exact (v_one s I j l n m o b b' H (Sub j l n o b H G O) (Sub j l m o b' H G' O) O).
  - exact (v_alive s I).
  - intros i c C. destruct (v_conn s I i c C) as (l & H & G1 & G2). exists l. split; [exact H|]. destruct (Kc i c C) as [-> ->]. now split.
  - exact (v_inj s I).
Qed.

(** Fewer connections. *)
Lemma inv_conns s cs : Inv s -> (forall i c, nth_error cs i = Some (Some c) -> Connected s i c) ->
  Inv {| w_tool := w_tool s; w_lves := w_lves s; w_conns := cs; w_next := w_next s |}.
Proof.
  intros I Sub. constructor; cbn [w_tool w_lves w_conns w_next]; try (apply I).
  - intros i c C. exact (v_conn s I i c (Sub i c C)).
  - intros i k c c' C C'. exact (v_inj s I i k c c' (Sub i c C) (Sub k c' C')).
Qed.

Lemma low_not_of s j l m o b : Inv s -> nth_error (w_lves s) j = Some l -> m <= 1 -> get (w_tool s) m = Handle o b -> ~ Of l o.
Proof. intros I H Lm G O. pose proof (v_tool s I j l m o b H G O). lia. Qed.
Lemma new_not_of s j l o : Inv s -> nth_error (w_lves s) j = Some l -> ends (w_next s) (S (w_next s)) o -> ~ Of l o.
Proof.
  intros I H E O. assert (exists p, pipe_of o = Some p /\ w_next s <= p) as (p & P & L) by (destruct E as [->|[->|[->| ->]]]; cbn; eexists; split; eauto).
  pose proof (of_lt s j l o p I H O P). lia.
Qed.
Lemma ends_pipe p o x : ends p (S p) o -> pipe_of o = Some x -> x < S (S p).
Proof. intros [->|[->|[->| ->]]] P; injection P as <-; lia. Qed.
Lemma conn_used s i c : Inv s -> Connected s i c ->
  2 <= c_to c /\ 2 <= c_from c /\ get (w_tool s) (c_to c) <> Unused /\ get (w_tool s) (c_from c) <> Unused.
Proof.
  intros I C. destruct (v_conn s I i c C) as (l & H & G1 & G2). unfold Of.
  assert (O1 : Of l (WriteEnd (l_in l))) by (right; left; reflexivity). assert (O2 : Of l (ReadEnd (l_out l))) by (right; right; left; reflexivity).
  pose proof (v_tool s I _ l _ _ _ H G1 O1). pose proof (v_tool s I _ l _ _ _ H G2 O2). rewrite G1, G2. repeat split; try tauto; discriminate.
Qed.

Lemma inv_spawned a s s' c : Inv s -> spawned a s s' c -> Inv s' /\ w_conns s' = w_conns s.
Proof.
  intros I D. destruct D as [|t' St K B|t' tb pw cr c U1 U2 L1 L2 N Gw Gr K Ks T0 T1 Tn Ec].
  - split; [exact I|reflexivity].
  - rewrite app_nil_r. split; [|reflexivity]. apply inv_tool; auto.
    + intros n o b p G P. destruct (B n o b G) as [[_ X]|[(m & b' & _ & X)|X]].
      * pose proof (v_fresh s I _ _ _ _ X P). lia.
      * pose proof (v_fresh s I _ _ _ _ X P). lia.
      * exact (ends_pipe _ _ _ X P).
    + intros j l n o b H G O. destruct (B n o b G) as [[_ X]|[(m & b' & Lm & X)|X]]; [exact X| |].
      * destruct (low_not_of s j l m o b' I H Lm X O).
      * destruct (new_not_of s j l o I H X O).
    + intros i c C. destruct (conn_used s i c I C) as (A1 & A2 & A3 & A4). split; apply K; assumption.
  - split; [|reflexivity]. cbn [w_conns].
    assert (Kn : forall n o b, get t' n = Handle o b -> (n = pw /\ o = WriteEnd (w_next s) /\ b = false) \/ (n = cr /\ o = ReadEnd (S (w_next s)) /\ b = false) \/
                                 (2 <= n /\ get (w_tool s) n = Handle o b) \/ (n <= 1 /\ exists b', get (w_tool s) n = Handle o b')).
    { intros n o b G. destruct (Nat.eq_dec n pw) as [->|Q1]; [left; rewrite Gw in G; injection G as <- <-; auto|].
      destruct (Nat.eq_dec n cr) as [->|Q2]; [right; left; rewrite Gr in G; injection G as <- <-; auto|].
      destruct (Nat.le_gt_cases 2 n) as [L|L]; [right; right; left; rewrite <- K; auto|]. right. right. right. split; [lia|].
      specialize (Ks n ltac:(lia)). unfold refers in Ks. rewrite G in Ks. destruct (get (w_tool s) n) as [| |o' b']; try discriminate. injection Ks as ->. now exists b'. }
    assert (Low : forall n o b, get t' n = Handle o b -> (exists m b', get (w_tool s) m = Handle o b') \/ ends (w_next s) (S (w_next s)) o).
    { intros n o b G. destruct (Kn n o b G) as [(_ & -> & _)|[(_ & -> & _)|[[_ X]|[_ [b' X]]]]]; unfold ends; eauto. }
    assert (TB : forall n o, SpawnModel.get tb n = Some o ->
       (n = 0 /\ o = ReadEnd (w_next s)) \/ (n = 1 /\ o = WriteEnd (S (w_next s))) \/ (exists m b, get (w_tool s) m = Handle o b /\ (m <= 1 \/ b = true))).
    { intros n o G. destruct n as [|[|n]]; [left; split; congruence|right; left; split; congruence|]. right. right.
      destruct (Tn (S (S n)) o ltac:(lia) G) as [X|(m & b & Lm & X)]; [exists (S (S n)), true; auto|exists m, b; auto]. }
    constructor; cbn [w_tool w_lves w_conns w_next].
    + destruct (v_streams s I) as [A0 A1]. split; rewrite Ks by lia; assumption.
    + intros n o b p G P. destruct (Low n o b G) as [(m & b' & X)|X]; [pose proof (v_fresh s I _ _ _ _ X P); lia|exact (ends_pipe _ _ _ X P)].
    + intros j l tb' n o p H F G P. apply nth_error_snoc in H. destruct H as [H|[-> ->]].
      * pose proof (v_freshl s I _ _ _ _ _ _ H F G P). lia.
      * cbn [l_fds] in F. injection F as <-. destruct (TB n o G) as [[_ ->]|[[_ ->]|(m & b & X & _)]]; [injection P as <-; lia|injection P as <-; lia|].
        pose proof (v_fresh s I _ _ _ _ X P). lia.
    + intros j l H. apply nth_error_snoc in H. destruct H as [H|[-> ->]]; [pose proof (v_order s I j l H); lia|cbn [l_in l_out]; lia].
    + intros j k l l' L H H'. apply nth_error_snoc in H. apply nth_error_snoc in H'. destruct H as [H|[-> ->]], H' as [H'|[-> ->]].
      * exact (v_sorted s I j k l l' L H H').
      * cbn [l_in]. apply (v_order s I j l H).
      * apply nth_error_lt in H'. lia.
      * lia.
    + intros j l n o b H G O. apply nth_error_snoc in H. destruct H as [H|[-> ->]].
      * destruct (Kn n o b G) as [(-> & -> & _)|[(-> & -> & _)|[[_ X]|[Ln [b' X]]]]].
        -- exfalso. refine (new_not_of s j l _ I H _ O). unfold ends. tauto.
        -- exfalso. refine (new_not_of s j l _ I H _ O). unfold ends. tauto.
        -- exact (v_tool s I j l n o b H X O).
        -- destruct (low_not_of s j l n o b' I H Ln X O).
      * cbn [l_in l_out]. unfold Of in O. cbn [l_in l_out] in O.
        assert (Old : forall m b', get (w_tool s) m = Handle o b' -> False).
        { intros m b' X. assert (exists p, pipe_of o = Some p /\ w_next s <= p) as (p & P & Lp) by (destruct O as [->|[->|[->| ->]]]; cbn; eexists; split; eauto).
          pose proof (v_fresh s I _ _ _ _ X P). lia. }
        destruct (Kn n o b G) as [(-> & -> & ->)|[(-> & -> & ->)|[[_ X]|[Ln [b' X]]]]]; auto; exfalso; eauto.
    + intros j l n m o b b' H G G' O. apply nth_error_snoc in H. destruct H as [H|[-> ->]].
      * assert (Old : forall x y, get t' x = Handle o y -> exists z, get (w_tool s) x = Handle o z).
        { intros x y X. destruct (Kn x o y X) as [(_ & -> & _)|[(_ & -> & _)|[[_ Y]|[_ [z Y]]]]]; [| |now exists y|now exists z];
            exfalso; refine (new_not_of s j l _ I H _ O); unfold ends; tauto. }
        destruct (Old n b G) as [z1 Z1], (Old m b' G') as [z2 Z2]. exact (v_one s I j l n m o z1 z2 H Z1 Z2 O).
      * unfold Of in O. cbn [l_in l_out] in O.
        assert (Old : forall x b', get (w_tool s) x = Handle o b' -> False).
        { intros x y X. assert (exists p, pipe_of o = Some p /\ w_next s <= p) as (p & P & Lp) by (destruct O as [->|[->|[->| ->]]]; cbn; eexists; split; eauto).
          pose proof (v_fresh s I _ _ _ _ X P). lia. }
        destruct (Kn n o b G) as [(-> & -> & _)|[(-> & -> & _)|[[_ X]|[_ [y X]]]]]; try (exfalso; eapply Old; exact X);
        destruct (Kn m _ b' G') as [(-> & E & _)|[(-> & E & _)|[[_ X]|[_ [y X]]]]]; try (exfalso; eapply Old; exact X); congruence.
    + intros k l' tb' n o j l H F G H' O. apply nth_error_snoc in H. apply nth_error_snoc in H'. destruct H as [H|[-> ->]], H' as [H'|[-> ->]].
      * exact (v_alive s I k l' tb' n o j l H F G H' O).
      * exfalso. unfold Of in O. cbn [l_in l_out] in O.
        assert (exists p, pipe_of o = Some p /\ w_next s <= p) as (p & P & Lp) by (destruct O as [->|[->|[->| ->]]]; cbn; eexists; split; eauto).
        pose proof (v_freshl s I _ _ _ _ _ _ H F G P). lia.
      * exfalso. cbn [l_fds] in F. injection F as <-. destruct (TB n o G) as [[_ ->]|[[_ ->]|(m & b & X & Y)]].
        -- refine (new_not_of s j l _ I H' _ O). unfold ends. tauto.
        -- refine (new_not_of s j l _ I H' _ O). unfold ends. tauto.
        -- pose proof (v_tool s I j l m o b H' X O). destruct Y as [Y| ->]; [lia|]. intuition discriminate.
      * split; [reflexivity|]. cbn [l_fds] in F. injection F as <-. unfold Of in O. cbn [l_in l_out] in *.
        destruct (TB n o G) as [[-> ->]|[[-> ->]|(m & b & X & Y)]]; auto. exfalso.
        assert (exists p, pipe_of o = Some p /\ w_next s <= p) as (p & P & Lp) by (destruct O as [->|[->|[->| ->]]]; cbn; eexists; split; eauto).
        pose proof (v_fresh s I _ _ _ _ X P). lia.
    + intros i c' C. destruct (v_conn s I i c' C) as (l & H & G1 & G2). destruct (conn_used s i c' I C) as (A1 & A2 & A3 & A4).
      exists l. split; [apply nth_error_snoc; now left|].
      split; rewrite K; try assumption; intros <-; contradiction.
    + exact (v_inj s I).
Qed.

Lemma inv_snoc_none s : Inv s -> Inv {| w_tool := w_tool s; w_lves := w_lves s; w_conns := w_conns s ++ [None]; w_next := w_next s |}.
Proof.
  intros I. apply inv_conns; [exact I|]. intros i c C. apply nth_error_snoc in C. destruct C as [C|[_ C]]; [exact C|discriminate].
Qed.

(** Closing the two descriptors of an LVE that no connection has. *)
Lemma inv_close s c l : Inv s -> nth_error (w_lves s) (c_lve c) = Some l ->
  get (w_tool s) (c_to c) = Handle (WriteEnd (l_in l)) false -> get (w_tool s) (c_from c) = Handle (ReadEnd (l_out l)) false ->
  (forall i c', Connected s i c' -> c_lve c' <> c_lve c) -> Inv (close_connection c s).
Proof.
  intros I H G1 G2 Nc.
  assert (O1 : Of l (WriteEnd (l_in l))) by (right; left; reflexivity). assert (O2 : Of l (ReadEnd (l_out l))) by (right; right; left; reflexivity).
  destruct (v_tool s I _ l _ _ _ H G1 O1) as [L1 _]. destruct (v_tool s I _ l _ _ _ H G2 O2) as [L2 _].
  assert (Cl : forall n o b, get (crt_close (c_from c) (crt_close (c_to c) (w_tool s))) n = Handle o b -> get (w_tool s) n = Handle o b).
  { intros n o b. rewrite close_get. destruct (Nat.eqb_spec n (c_from c)).
    - destruct (get (crt_close (c_to c) (w_tool s)) (c_from c)); discriminate.
    - rewrite close_get. destruct (Nat.eqb_spec n (c_to c)); [destruct (get (w_tool s) (c_to c)); discriminate|auto]. }
  unfold close_connection. apply (inv_tool s _ (w_next s)); auto.
  - destruct (v_streams s I) as [A0 A1]. split; unfold refers; rewrite !close_other by lia; assumption.
  - intros n o b p G P. exact (v_fresh s I n o b p (Cl n o b G) P).
  - intros i c' C. destruct (v_conn s I i c' C) as (l' & H' & G1' & G2'). specialize (Nc i c' C).
    assert (X : forall n o b, get (w_tool s) n = Handle o b -> Of l' o -> n <> c_to c /\ n <> c_from c).
    { intros n o b G O. split; intros ->.
      - rewrite G1 in G. injection G as <- _. apply Nc. exact (of_inj s _ _ _ _ _ I H' H O O1).
      - rewrite G2 in G. injection G as <- _. apply Nc. exact (of_inj s _ _ _ _ _ I H' H O O2). }
    destruct (X _ _ _ G1') as [X1 X2]; [right; left; reflexivity|]. destruct (X _ _ _ G2') as [X3 X4]; [right; right; left; reflexivity|].
    rewrite !close_other by assumption. split; reflexivity.
Qed.

Lemma spawned_conn a s s' c : spawned a s s' (Some c) -> exists l, nth_error (w_lves s') (c_lve c) = Some l /\ c_lve c = length (w_lves s) /\
  get (w_tool s') (c_to c) = Handle (WriteEnd (l_in l)) false /\ get (w_tool s') (c_from c) = Handle (ReadEnd (l_out l)) false.
Proof.
  intros D. remember (Some c) as oc eqn:E. destruct D as [|t' St K B|t' tb pw cr oc U1 U2 L1 L2 N Gw Gr K Ks T0 T1 Tn Ec]; try discriminate.
  destruct Ec as [Ec|Ec]; [congruence|]. rewrite E in Ec. injection Ec as ->. cbn [c_to c_from c_lve w_tool w_lves].
  eexists. split; [apply nth_error_snoc; right; split; reflexivity|]. cbn [l_in l_out]. auto.
Qed.

Lemma conn_fresh s i c : Inv s -> Connected s i c -> c_lve c < length (w_lves s).
Proof. intros I C. destruct (v_conn s I i c C) as (l & H & _). exact (nth_error_lt _ _ _ H). Qed.

Lemma inv_step limit s e : GivesBack e -> Inv s -> Inv (step limit s e).
Proof.
  intros Gb I. destruct e as [a name|i|j|k inh|n].
  - destruct Gb as [Bi Bo]. cbn [step]. destruct (start limit a name s) as [s' c] eqn:E. unfold start in E.
    destruct (spawn limit a name s) as [s1 [c1|]] eqn:Sp; pose proof (spawn_spec limit a name s _ _ (v_streams s I) Bi Bo Sp) as D;
      destruct (inv_spawned a s _ _ I D) as [I1 C1].
    + destruct (spawned_conn a s s1 c1 D) as (l & H & Lc & G1 & G2).
      assert (Nc : forall i c', Connected s1 i c' -> c_lve c' <> c_lve c1).
      { intros i c' C. unfold Connected in C. rewrite C1 in C. pose proof (conn_fresh s i c' I C). lia. }
      destruct (b_setup a && b_handshake a).
      * assert (s' = s1) as -> by congruence. assert (c = Some c1) as -> by congruence.
        constructor; cbn [w_tool w_lves w_conns w_next]; try (apply I1).
        -- intros i c' C. unfold Connected in C. cbn [w_conns] in C. apply nth_error_snoc in C. destruct C as [C|[_ C]]; [exact (v_conn s1 I1 i c' C)|].
           injection C as ->. now exists l.
        -- intros i k c' c'' C C' Q. unfold Connected in C, C'. cbn [w_conns] in C, C'. apply nth_error_snoc in C. apply nth_error_snoc in C'.
           destruct C as [C|[-> C]], C' as [C'|[-> C']].
           ++ exact (v_inj s1 I1 i k c' c'' C C' Q).
           ++ injection C' as ->. destruct (Nc i c' C Q).
           ++ injection C as ->. destruct (Nc k c'' C'). congruence.
           ++ reflexivity.
      * assert (s' = close_connection c1 s1) as -> by congruence. assert (c = None) as -> by congruence.
        apply inv_snoc_none. exact (inv_close s1 c1 l I1 H G1 G2 Nc).
    + assert (s' = s1) as -> by congruence. assert (c = None) as -> by congruence. now apply inv_snoc_none.
  - cbn [step]. destruct (nth i (w_conns s) None) as [c|] eqn:E; [|exact I].
    assert (C : Connected s i c).
    { unfold Connected. destruct (nth_error (w_conns s) i) as [x|] eqn:X; [rewrite (nth_error_nth _ _ None X) in E; now rewrite E|].
      apply nth_error_None in X. now rewrite nth_overflow in E by exact X. }
    destruct (v_conn s I i c C) as (l & H & G1 & G2).
    pose (s0 := {| w_tool := w_tool s; w_lves := w_lves s; w_conns := SpawnModel.replace i None (w_conns s); w_next := w_next s |}).
    assert (R : forall k c', Connected s0 k c' -> k <> i /\ Connected s k c').
    { intros k c' X. unfold Connected, s0 in X. cbn [w_conns] in X. rewrite nth_error_replace in X. destruct (Nat.eqb_spec k i); [|auto].
      destruct (nth_error (w_conns s) i); discriminate. }
    assert (I0 : Inv s0) by (apply inv_conns; [exact I|]; intros k c' X; apply (R k c' X)).
    refine (inv_close s0 c l I0 H G1 G2 _). intros k c' X Q. destruct (R k c' X) as [Nk C']. apply Nk. exact (v_inj s I k i c' c C' C Q).
  - cbn [step]. destruct (nth_error (w_lves s) j) as [l|] eqn:H; [|destruct s; exact I].
    assert (R : forall k l', nth_error (SpawnModel.replace j {| l_fds := None; l_in := l_in l; l_out := l_out l |} (w_lves s)) k = Some l' ->
       exists l0, nth_error (w_lves s) k = Some l0 /\ l_in l' = l_in l0 /\ l_out l' = l_out l0 /\ (forall tb, l_fds l' = Some tb -> l_fds l0 = Some tb)).
    { intros k l' X. rewrite nth_error_replace in X. destruct (Nat.eqb_spec k j) as [->|]; [|exists l'; auto].
      rewrite H in X. injection X as <-. exists l. cbn [l_in l_out l_fds]. repeat split; auto. discriminate. }
    assert (RO : forall l' l0 o, l_in l' = l_in l0 -> l_out l' = l_out l0 -> Of l' o -> Of l0 o) by (unfold Of; intros l' l0 o -> ->; auto).
    constructor; cbn [w_tool w_lves w_conns w_next]; try (apply I).
    + intros k l' tb n o p X F G P. destruct (R k l' X) as (l0 & H0 & E1 & E2 & E3). exact (v_freshl s I k l0 tb n o p H0 (E3 tb F) G P).
    + intros k l' X. destruct (R k l' X) as (l0 & H0 & -> & -> & _). exact (v_order s I k l0 H0).
    + intros k k' l' l'' L X X'. destruct (R k l' X) as (l0 & H0 & E1 & E2 & _). destruct (R k' l'' X') as (l1 & H1 & E3 & E4 & _). rewrite E2, E3.
      exact (v_sorted s I k k' l0 l1 L H0 H1).
    + intros k l' n o b X G O. destruct (R k l' X) as (l0 & H0 & E1 & E2 & _). rewrite E1, E2. exact (v_tool s I k l0 n o b H0 G (RO l' l0 o E1 E2 O)).
    + intros k l' n m o b b' X G G' O. destruct (R k l' X) as (l0 & H0 & E1 & E2 & _). exact (v_one s I k l0 n m o b b' H0 G G' (RO l' l0 o E1 E2 O)).
    + intros k l' tb n o k' l'' X F G X' O. destruct (R k l' X) as (l0 & H0 & E1 & E2 & E3). destruct (R k' l'' X') as (l1 & H1 & E4 & E5 & _).
      rewrite E4, E5. exact (v_alive s I k l0 tb n o k' l1 H0 (E3 tb F) G H1 (RO l'' l1 o E4 E5 O)).
    + intros i c C. destruct (v_conn s I i c C) as (l' & H' & G1 & G2). destruct (Nat.eq_dec (c_lve c) j) as [Q|Q].
      * exists {| l_fds := None; l_in := l_in l; l_out := l_out l |}. rewrite nth_error_replace, Q, Nat.eqb_refl, H. rewrite Q, H in H'. injection H' as ->.
        cbn [l_in l_out]. auto.
      * exists l'. rewrite nth_error_replace. apply Nat.eqb_neq in Q as ->. auto.
  - cbn [step]. destruct (alloc limit (Handle (Elsewhere k) inh) (w_tool s)) as [[n t]|] eqn:E; [|destruct s; exact I].
    apply alloc_spec in E. destruct E as (U & _ & G & O). apply (inv_tool s t (w_next s)); auto.
    + destruct (v_streams s I) as [A0 A1]. unfold refers in A0, A1. split; unfold refers; rewrite O; auto; intros <-; rewrite U in *; congruence.
    + intros m o b p X P. destruct (Nat.eq_dec m n) as [->|Nm]; [rewrite G in X; injection X as <- _; discriminate|].
      rewrite O in X by exact Nm. exact (v_fresh s I m o b p X P).
    + intros j l m o b H X Q. destruct (Nat.eq_dec m n) as [->|Nm]; [|now rewrite O in X by exact Nm].
      rewrite G in X. injection X as <- _. destruct Q as [Q|[Q|[Q|Q]]]; discriminate.
    + intros i c C. destruct (conn_used s i c I C) as (A1 & A2 & A3 & A4). split; apply O; intros Q; rewrite Q in *; contradiction.
  - cbn [step]. destruct (Nat.leb_spec 2 n) as [L|L]; [|destruct s; exact I].
    destruct (get (w_tool s) n) as [| |[| |k] b] eqn:E; try (destruct s; exact I). apply (inv_tool s _ (w_next s)); auto.
    + destruct (v_streams s I) as [A0 A1]. split; unfold refers; rewrite close_other by lia; assumption.
    + intros m o b' p X P. destruct (Nat.eq_dec m n) as [->|Nm]; [rewrite (close_same _ _ _ _ E) in X; discriminate|].
      rewrite close_other in X by exact Nm. exact (v_fresh s I m o b' p X P).
    + intros j l m o b' H X Q. destruct (Nat.eq_dec m n) as [->|Nm]; [rewrite (close_same _ _ _ _ E) in X; discriminate|].
      now rewrite close_other in X by exact Nm.
    + intros i c C. destruct (v_conn s I i c C) as (l & _ & G1 & G2). split; apply close_other; intros Q; rewrite Q in *; congruence.
Qed.

Lemma inv_initial t : Own t -> Streams t -> Inv (initial t).
Proof.
  intros Ow St. unfold initial. constructor; cbn [w_tool w_lves w_conns w_next];
    try (intros j l *; destruct j; discriminate); try (intros j k l l' *; destruct j; discriminate).
  - exact St.
  - intros n o b p G P. destruct (Ow n o) as [k ->]; [unfold refers; now rewrite G|discriminate].
Qed.
Lemma inv_after limit t es : Own t -> Streams t -> Forall GivesBack es -> Inv (after limit t es).
Proof.
  intros Ow St F. unfold after. generalize (inv_initial t Ow St). generalize (initial t). revert F.
  induction es as [|e es IH]; intros F s I; [exact I|]. cbn [fold_left]. inversion F as [|? ? F1 F2]; subst. apply IH; [exact F2|]. now apply inv_step.
Qed.
