(** What holds after every history. *)
From Coq Require Import List Arith Bool Lia.
Import ListNotations.
From Verif Require Import SpawnModel SpawnSpec SpawnProofs.

Definition pipe_of (o : object) : option nat := match o with ReadEnd p | WriteEnd p => Some p | Elsewhere _ => None end.

Record Inv (limit : nat) (s : system) : Prop := {
  i_fresh : forall n o p, get (s_tool s) n = Some o -> pipe_of o = Some p -> p < s_next s;
  i_len : length (s_tool s) <= limit;
  i_order : forall j l, nth_error (s_lves s) j = Some l -> l_out l = S (l_in l) /\ l_out l < s_next s;
  i_sorted : forall j k l l', j < k -> nth_error (s_lves s) j = Some l -> nth_error (s_lves s) k = Some l' -> l_out l < l_in l';
  i_leak : forall j l, nth_error (s_lves s) j = Some l -> Holds (s_tool s) (WriteEnd (l_out l));
  i_noread : forall j l, nth_error (s_lves s) j = Some l -> ~ Holds (s_tool s) (ReadEnd (l_in l));
  i_alive : forall j l tb, nth_error (s_lves s) j = Some l -> l_fds l = Some tb ->
    get tb 0 = Some (ReadEnd (l_in l)) /\ get tb 1 = Some (WriteEnd (l_out l)) /\
    forall m o p, 2 <= m -> get tb m = Some o -> pipe_of o = Some p ->
      p < l_in l /\ (o = ReadEnd p -> forall k l', nth_error (s_lves s) k = Some l' -> p <> l_in l');
  i_conn : forall i c, Connected s i c -> exists l, nth_error (s_lves s) (c_lve c) = Some l /\
    get (s_tool s) (c_to c) = Some (WriteEnd (l_in l)) /\ get (s_tool s) (c_from c) = Some (ReadEnd (l_out l));
  i_inj : forall i k c c', Connected s i c -> Connected s k c' -> c_lve c = c_lve c' -> i = k;
  i_one : forall j l n m, nth_error (s_lves s) j = Some l -> get (s_tool s) n = Some (WriteEnd (l_in l)) -> get (s_tool s) m = Some (WriteEnd (l_in l)) -> n = m }.

Lemma in_not_out limit s j k l l' : Inv limit s -> nth_error (s_lves s) j = Some l -> nth_error (s_lves s) k = Some l' -> l_in l <> l_out l'.
Proof.
  intros I H H' E. destruct (Nat.lt_trichotomy j k) as [L|[->|L]].
  - pose proof (i_sorted _ _ I j k l l' L H H'). pose proof (i_order _ _ I j l H). pose proof (i_order _ _ I k l' H'). lia.
  - rewrite H in H'. assert (l = l') as -> by congruence. pose proof (i_order _ _ I k l' H). lia.
  - pose proof (i_sorted _ _ I k j l' l L H' H). lia.
Qed.
Lemma in_inj limit s j k l l' : Inv limit s -> nth_error (s_lves s) j = Some l -> nth_error (s_lves s) k = Some l' -> l_in l = l_in l' -> j = k.
Proof.
  intros I H H' E. pose proof (i_order _ _ I j l H). pose proof (i_order _ _ I k l' H'). destruct (Nat.lt_trichotomy j k) as [L|[->|L]]; [|reflexivity|].
  - pose proof (i_sorted _ _ I j k l l' L H H'). lia.
  - pose proof (i_sorted _ _ I k j l' l L H' H). lia.
Qed.
Lemma out_inj limit s j k l l' : Inv limit s -> nth_error (s_lves s) j = Some l -> nth_error (s_lves s) k = Some l' -> l_out l = l_out l' -> j = k.
Proof.
  intros I H H' E. pose proof (i_order _ _ I j l H). pose proof (i_order _ _ I k l' H'). apply (in_inj limit s j k l l' I H H'). lia.
Qed.

(** A change of the tool's descriptors that keeps what matters. *)
Lemma inv_tool limit s t : Inv limit s -> length t <= limit ->
  (forall n o, get t n = Some o -> get (s_tool s) n = Some o \/ pipe_of o = None) ->
  (forall j l n, nth_error (s_lves s) j = Some l -> get (s_tool s) n = Some (WriteEnd (l_out l)) -> get t n = Some (WriteEnd (l_out l))) ->
  (forall i c, Connected s i c -> get t (c_to c) = get (s_tool s) (c_to c) /\ get t (c_from c) = get (s_tool s) (c_from c)) ->
  Inv limit {| s_tool := t; s_lves := s_lves s; s_conns := s_conns s; s_next := s_next s |}.
Proof.
  intros I Lt Sub Kp Kc. constructor; cbn [s_tool s_lves s_conns s_next].
  - intros n o p G P. destruct (Sub n o G) as [G'|N]; [exact (i_fresh _ _ I n o p G' P)|congruence].
  - exact Lt.
  - exact (i_order _ _ I).
  - exact (i_sorted _ _ I).
  - intros j l H. destruct (i_leak _ _ I j l H) as [n G]. exists n. exact (Kp j l n H G).
  - intros j l H [n G]. destruct (Sub n _ G) as [G'|N]; [|discriminate]. apply (i_noread _ _ I j l H). now exists n.
  - exact (i_alive _ _ I).
  - intros i c C. destruct (i_conn _ _ I i c C) as (l & H & G1 & G2). exists l. split; [exact H|]. destruct (Kc i c C) as [-> ->]. now split.
  - exact (i_inj _ _ I).
  - intros j l n m H G G'. destruct (Sub n _ G) as [A|A]; [|discriminate]. destruct (Sub m _ G') as [A'|A']; [|discriminate]. exact (i_one _ _ I j l n m H A A').
Qed.

Lemma nth_error_snoc {A} (l : list A) x k y : nth_error (l ++ [x]) k = Some y <-> nth_error l k = Some y \/ (k = length l /\ y = x).
Proof.
  split.
  - intros H. destruct (Nat.lt_ge_cases k (length l)) as [L|L].
    + left. now rewrite nth_error_app1 in H.
    + right. rewrite nth_error_app2 in H by exact L. destruct (k - length l) as [|d] eqn:D.
      * cbn in H. split; [lia|congruence].
      * destruct d; discriminate.
  - intros [H|[-> ->]].
    + rewrite nth_error_app1; [exact H|]. apply nth_error_Some. congruence.
    + rewrite nth_error_app2, Nat.sub_diag by lia. reflexivity.
Qed.
Lemma nth_error_lt {A} (l : list A) k x : nth_error l k = Some x -> k < length l.
Proof. intros H. apply nth_error_Some. congruence. Qed.

(** After a new LVE. *)
Lemma inv_child limit s t fds : Inv limit s -> length t <= limit ->
  (forall n o, get t n = Some o -> get (s_tool s) n = Some o \/ o = WriteEnd (s_next s) \/ o = ReadEnd (S (s_next s)) \/ o = WriteEnd (S (s_next s))) ->
  (forall n o, get (s_tool s) n = Some o -> get t n = Some o) ->
  Holds t (WriteEnd (S (s_next s))) ->
  (forall n m, get t n = Some (WriteEnd (s_next s)) -> get t m = Some (WriteEnd (s_next s)) -> n = m) ->
  (forall tb, fds = Some tb -> get tb 0 = Some (ReadEnd (s_next s)) /\ get tb 1 = Some (WriteEnd (S (s_next s))) /\ forall m, 2 <= m -> get tb m = get (s_tool s) m) ->
  Inv limit {| s_tool := t; s_lves := s_lves s ++ [{| l_fds := fds; l_in := s_next s; l_out := S (s_next s) |}]; s_conns := s_conns s; s_next := S (S (s_next s)) |}.
Proof.
  intros I Lt Sub Kp Lk Un Al. constructor; cbn [s_tool s_lves s_conns s_next].
  - intros n o p G P. destruct (Sub n o G) as [G'|[->|[->| ->]]]; [pose proof (i_fresh _ _ I n o p G' P); lia| | |]; cbn in P; assert (p = s_next s \/ p = S (s_next s)) by (try (left; congruence); right; congruence); lia.
  - exact Lt.
  - intros j l H. apply nth_error_snoc in H. destruct H as [H|[_ ->]].
    + pose proof (i_order _ _ I j l H). lia.
    + cbn [l_out l_in]. lia.
  - intros j k l l' L H H'. apply nth_error_snoc in H. apply nth_error_snoc in H'. destruct H as [H|[Ej ->]], H' as [H'|[Ek ->]].
    + exact (i_sorted _ _ I j k l l' L H H').
    + cbn [l_in]. pose proof (i_order _ _ I j l H). lia.
    + apply nth_error_lt in H'. lia.
    + lia.
  - intros j l H. apply nth_error_snoc in H. destruct H as [H|[_ ->]]; [|exact Lk].
    destruct (i_leak _ _ I j l H) as [n G]. exists n. now apply Kp.
  - intros j l H [n G]. apply nth_error_snoc in H. destruct H as [H|[_ ->]].
    + pose proof (i_order _ _ I j l H). destruct (Sub n _ G) as [G'|[E|[E|E]]]; try discriminate.
      * apply (i_noread _ _ I j l H). now exists n.
      * assert (l_in l = S (s_next s)) by congruence. lia.
    + cbn [l_in] in G. destruct (Sub n _ G) as [G'|[E|[E|E]]]; try discriminate.
      * pose proof (i_fresh _ _ I n _ (s_next s) G' eq_refl). lia.
      * assert (s_next s = S (s_next s)) by congruence. lia.
  - intros j l tb H F. apply nth_error_snoc in H. destruct H as [H|[_ ->]].
    + destruct (i_alive _ _ I j l tb H F) as (A1 & A2 & A3). split; [exact A1|]. split; [exact A2|].
      intros m o p Lm G P. destruct (A3 m o p Lm G P) as [B1 B2]. split; [exact B1|]. intros Eo k l' H'. apply nth_error_snoc in H'. destruct H' as [H'|[_ ->]].
      * exact (B2 Eo k l' H').
      * cbn [l_in]. pose proof (i_order _ _ I j l H). lia.
    + cbn [l_fds l_in l_out] in *. destruct (Al tb F) as (A1 & A2 & A3). split; [exact A1|]. split; [exact A2|].
      intros m o p Lm G P. rewrite A3 in G by exact Lm. pose proof (i_fresh _ _ I m o p G P) as Lp. split; [exact Lp|]. intros -> k l' H'.
      apply nth_error_snoc in H'. destruct H' as [H'|[_ ->]].
      * intros ->. apply (i_noread _ _ I k l' H'). now exists m.
      * cbn [l_in]. lia.
  - intros i c C. destruct (i_conn _ _ I i c C) as (l & H & G1 & G2). exists l. split; [apply nth_error_snoc; now left|]. split; apply Kp; assumption.
  - intros i k c c' C C'. exact (i_inj _ _ I i k c c' C C').
  - intros j l n m H G G'. apply nth_error_snoc in H. destruct H as [H|[_ ->]]; [|exact (Un n m G G')].
    pose proof (i_order _ _ I j l H) as [O1 O2].
    assert (X : forall k, get t k = Some (WriteEnd (l_in l)) -> get (s_tool s) k = Some (WriteEnd (l_in l))).
    { intros k Gk. destruct (Sub k _ Gk) as [A|[E|[E|E]]]; [exact A| | |]; [|discriminate|]; assert (l_in l = s_next s \/ l_in l = S (s_next s)) by (try (left; congruence); right; congruence); lia. }
    exact (i_one _ _ I j l n m H (X n G) (X m G')).
Qed.

(** After a failure. *)
Lemma inv_left limit s t : Inv limit s -> length t <= limit ->
  (forall n o, get (s_tool s) n = Some o -> get t n = Some o) ->
  (forall n o, get t n = Some o -> get (s_tool s) n = Some o \/ o = ReadEnd (s_next s) \/ o = WriteEnd (s_next s) \/
       o = ReadEnd (S (s_next s)) \/ o = WriteEnd (S (s_next s))) ->
  Inv limit {| s_tool := t; s_lves := s_lves s ++ []; s_conns := s_conns s; s_next := S (S (s_next s)) |}.
Proof.
  intros I Lt Kp Sub. rewrite app_nil_r. constructor; cbn [s_tool s_lves s_conns s_next].
  - intros n o p G P. destruct (Sub n o G) as [G'|[->|[->|[->| ->]]]]; [pose proof (i_fresh _ _ I n o p G' P); lia| | | |]; cbn in P; assert (p = s_next s \/ p = S (s_next s)) by (try (left; congruence); right; congruence); lia.
  - exact Lt.
  - intros j l H. pose proof (i_order _ _ I j l H). lia.
  - exact (i_sorted _ _ I).
  - intros j l H. destruct (i_leak _ _ I j l H) as [n G]. exists n. now apply Kp.
  - intros j l H [n G]. pose proof (i_order _ _ I j l H). destruct (Sub n _ G) as [G'|[E|[E|[E|E]]]]; try discriminate.
    + apply (i_noread _ _ I j l H). now exists n.
    + assert (l_in l = s_next s) by congruence. lia.
    + assert (l_in l = S (s_next s)) by congruence. lia.
  - exact (i_alive _ _ I).
  - intros i c C. destruct (i_conn _ _ I i c C) as (l & H & G1 & G2). exists l. split; [exact H|]. split; apply Kp; assumption.
  - exact (i_inj _ _ I).
  - intros j l n m H G G'. pose proof (i_order _ _ I j l H) as [O1 O2].
    assert (X : forall k, get t k = Some (WriteEnd (l_in l)) -> get (s_tool s) k = Some (WriteEnd (l_in l))).
    { intros k Gk. destruct (Sub k _ Gk) as [A|[E|[E|[E|E]]]]; [exact A|discriminate| |discriminate|]; assert (l_in l = s_next s \/ l_in l = S (s_next s)) by (try (left; congruence); right; congruence); lia. }
    exact (i_one _ _ I j l n m H (X n G) (X m G')).
Qed.

(** A connection is added to the list. *)
Lemma connected_snoc s c i c' : Connected {| s_tool := s_tool s; s_lves := s_lves s; s_conns := s_conns s ++ [c]; s_next := s_next s |} i c' <->
  Connected s i c' \/ (i = length (s_conns s) /\ c = Some c').
Proof. unfold Connected. cbn [s_conns]. rewrite nth_error_snoc. intuition congruence. Qed.
Lemma inv_snoc_none limit s : Inv limit s -> Inv limit {| s_tool := s_tool s; s_lves := s_lves s; s_conns := s_conns s ++ [None]; s_next := s_next s |}.
Proof.
  intros I. destruct I as [I1 I2 I3 I4 I5 I6 I7 I8 I9 I10]. constructor; cbn [s_tool s_lves s_conns s_next]; try assumption.
  - intros i c C. apply connected_snoc in C. destruct C as [C|[_ E]]; [exact (I8 i c C)|discriminate].
  - intros i k c c' C C' E. apply connected_snoc in C. apply connected_snoc in C'. destruct C as [C|[_ D]], C' as [C'|[_ D']]; try discriminate. exact (I9 i k c c' C C' E).
Qed.

(** ** mlle_start_executable *)

Inductive started (limit : nat) (a : calls) (s : system) : system -> option connection -> Prop :=
| T_spawned s' : spawned limit a s s' None -> started limit a s s' None
| T_ready s' c : spawned limit a s s' (Some c) -> started limit a s s' (Some c)
| T_closed s' c : spawned limit a s s' (Some c) -> started limit a s (close_connection c s') None.
Lemma start_spec limit a s s' c : start limit a s = (s', c) -> started limit a s s' c.
Proof.
  unfold start. destruct (spawn limit a s) as [s1 [c1|]] eqn:E; intros H; apply spawn_spec in E.
  - destruct (a_setup a && a_handshake a); replace s' with (fst (s', c)) by reflexivity; rewrite <- H; cbn [fst]; replace c with (snd (s', c)) by reflexivity; rewrite <- H; cbn [snd]; now constructor.
  - replace s' with s1 by congruence. replace c with (@None connection) by congruence. now constructor.
Qed.

(** The child case, for reuse. *)
Lemma inv_spawned limit a s s' c : Inv limit s -> spawned limit a s s' c -> Inv limit s' /\ s_conns s' = s_conns s.
Proof.
  intros I Sp. destruct Sp as [|t1 Kp Sub Lt|t1 pw cr cw fds c Gpw Gcr Gcw N1 N2 N3 Hpw Hcr Hcw Ho Lt F1 F2 F3 Ec].
  - now split.
  - split; [|reflexivity]. apply inv_left; auto. apply Lt, (i_len _ _ I).
  - split; [|reflexivity]. apply inv_child; auto.
    + apply Lt, (i_len _ _ I).
    + intros n o G. destruct (Nat.eq_dec n pw) as [->|B1]; [right; left; congruence|]. destruct (Nat.eq_dec n cr) as [->|B2]; [right; right; left; congruence|].
      destruct (Nat.eq_dec n cw) as [->|B3]; [right; right; right; congruence|]. left. now rewrite <- Ho.
    + intros n o G. rewrite Ho; [exact G| | |]; congruence.
    + now exists cw.
    + assert (X : forall n, get t1 n = Some (WriteEnd (s_next s)) -> n = pw).
      { intros n G. destruct (Nat.eq_dec n pw) as [E|B1]; [exact E|exfalso]. assert (n <> cr) by congruence.
        assert (n <> cw). { intros ->. assert (S (s_next s) = s_next s) by congruence. lia. }
        rewrite Ho in G by assumption. pose proof (i_fresh _ _ I n _ (s_next s) G eq_refl). lia. }
      intros n m G G'. rewrite (X n G). symmetry. now apply X.
    + intros tb E. apply (F3 tb E).
Qed.
Lemma spawned_conn limit a s s' c : spawned limit a s s' (Some c) ->
  c_lve c = length (s_lves s) /\ exists l, nth_error (s_lves s') (c_lve c) = Some l /\ l_in l = s_next s /\ l_out l = S (s_next s) /\
    get (s_tool s') (c_to c) = Some (WriteEnd (l_in l)) /\ get (s_tool s') (c_from c) = Some (ReadEnd (l_out l)) /\
    get (s_tool s) (c_to c) = None /\ get (s_tool s) (c_from c) = None.
Proof.
  intros Sp. remember (Some c) as oc eqn:Eo. destruct Sp as [|t1 Kp Sub Lt|t1 pw cr cw fds c' Gpw Gcr Gcw N1 N2 N3 Hpw Hcr Hcw Ho Lt F1 F2 F3 [Ec|Ec]]; try congruence.
  assert (c = {| c_to := pw; c_from := cr; c_lve := length (s_lves s) |}) as -> by congruence. cbn [c_lve c_to c_from s_lves s_tool].
  split; [reflexivity|]. eexists. split; [apply nth_error_snoc; right; split; reflexivity|]. cbn [l_in l_out]. now repeat split.
Qed.

(** Closing the descriptors of an LVE. *)
Lemma inv_close limit s c l : Inv limit s -> nth_error (s_lves s) (c_lve c) = Some l ->
  get (s_tool s) (c_to c) = Some (WriteEnd (l_in l)) -> get (s_tool s) (c_from c) = Some (ReadEnd (l_out l)) ->
  (forall i c', Connected s i c' -> c_lve c' <> c_lve c) -> Inv limit (close_connection c s).
Proof.
  intros I H G1 G2 Nc. unfold close_connection. apply inv_tool; auto.
  - do 2 apply close_length. exact (i_len _ _ I).
  - intros n o G. left. rewrite !get_close in G. destruct (n =? c_from c); [discriminate|]. destruct (n =? c_to c); [discriminate|exact G].
  - intros j l' n H' G. assert (n <> c_from c) by (intros ->; congruence).
    assert (n <> c_to c). { intros ->. apply (in_not_out limit s _ _ l l' I H H'). congruence. }
    rewrite !close_other; assumption.
  - intros i c' C. destruct (i_conn _ _ I i c' C) as (l' & H' & G1' & G2'). pose proof (Nc i c' C) as N.
    assert (Ni : l_in l' <> l_in l) by (intros E; apply N; exact (in_inj limit s _ _ _ _ I H' H E)).
    assert (No : l_out l' <> l_out l) by (intros E; apply N; exact (out_inj limit s _ _ _ _ I H' H E)).
    split; rewrite !close_other; congruence.
Qed.

Lemma connected_lt limit s i c : Inv limit s -> Connected s i c -> c_lve c < length (s_lves s).
Proof. intros I C. destruct (i_conn _ _ I i c C) as (l & H & _). now apply nth_error_lt in H. Qed.

Lemma inv_start limit a s s' c : Inv limit s -> start limit a s = (s', c) ->
  Inv limit {| s_tool := s_tool s'; s_lves := s_lves s'; s_conns := s_conns s' ++ [c]; s_next := s_next s' |}.
Proof.
  intros I E. apply start_spec in E. destruct E as [s' Sp|s' c Sp|s' c Sp]; destruct (inv_spawned limit a s s' _ I Sp) as [I' Ec].
  - now apply inv_snoc_none.
  - destruct (spawned_conn limit a s s' c Sp) as (Ecl & l & H & E1 & E2 & G1 & G2 & _).
    assert (Lt : forall i c', Connected s' i c' -> c_lve c' < c_lve c).
    { intros i c' C. rewrite Ecl. apply (connected_lt limit s i c' I). unfold Connected in *. now rewrite <- Ec. }
    destruct I' as [I1 I2 I3 I4 I5 I6 I7 I8 I9 I10]. constructor; cbn [s_tool s_lves s_conns s_next]; try assumption.
    + intros i c' C. apply connected_snoc in C. destruct C as [C|[_ D]]; [exact (I8 i c' C)|]. assert (c' = c) as -> by congruence. exists l. now repeat split.
    + intros i k c1 c2 C C' Eq. apply connected_snoc in C. apply connected_snoc in C'. destruct C as [C|[Ei D]], C' as [C'|[Ek D']].
      * exact (I9 i k c1 c2 C C' Eq).
      * assert (c2 = c) as -> by congruence. pose proof (Lt _ _ C). lia.
      * assert (c1 = c) as -> by congruence. pose proof (Lt _ _ C'). lia.
      * lia.
  - destruct (spawned_conn limit a s s' c Sp) as (Ecl & l & H & E1 & E2 & G1 & G2 & _). apply inv_snoc_none. apply (inv_close limit s' c l I' H G1 G2).
    intros i c' C. assert (c_lve c' < c_lve c); [|lia]. rewrite Ecl. apply (connected_lt limit s i c' I). unfold Connected in *. now rewrite <- Ec.
Qed.

Lemma nth_error_replace {A} n (x : A) l k : nth_error (replace n x l) k = if k =? n then match nth_error l n with Some _ => Some x | None => None end else nth_error l k.
Proof.
  revert l k. induction n as [|n IH]; intros [|y l] [|k]; cbn [replace nth_error Nat.eqb]; try reflexivity.
  - now destruct (k =? n).
  - apply IH.
Qed.

Lemma inv_step limit s e : Inv limit s -> Inv limit (step limit s e).
Proof.
  intros I. destruct e as [a|i|j|n|n]; cbn [step].
  - destruct (start limit a s) as [s' c] eqn:E. exact (inv_start limit a s s' c I E).
  - destruct (nth i (s_conns s) None) as [c|] eqn:E; [|exact I].
    assert (C : Connected s i c).
    { unfold Connected. destruct (nth_error (s_conns s) i) as [x|] eqn:Ex; [|rewrite nth_overflow in E; [discriminate|now apply nth_error_None]].
      apply (nth_error_nth _ _ None) in Ex. congruence. }
    set (s0 := {| s_tool := s_tool s; s_lves := s_lves s; s_conns := replace i None (s_conns s); s_next := s_next s |}).
    assert (C0 : forall k c', Connected s0 k c' -> Connected s k c' /\ k <> i).
    { intros k c' H. unfold Connected, s0 in H. cbn [s_conns] in H. rewrite nth_error_replace in H. destruct (Nat.eqb_spec k i) as [->|N]; [|now split].
      unfold Connected in C. rewrite C in H. discriminate. }
    assert (I0 : Inv limit s0).
    { pose proof I as [I1 I2 I3 I4 I5 I6 I7 I8 I9 I10]. constructor; cbn [s0 s_tool s_lves s_conns s_next]; try assumption.
      - intros k c' H. apply C0 in H. exact (I8 k c' (proj1 H)).
      - intros k k' c1 c2 H H'. apply C0 in H. apply C0 in H'. exact (I9 k k' c1 c2 (proj1 H) (proj1 H')). }
    destruct (i_conn _ _ I i c C) as (l & H & G1 & G2).
    change (Inv limit (close_connection c s0)). apply (inv_close limit s0 c l I0 H G1 G2).
    intros k c' H' Eq. apply C0 in H'. destruct H' as [H' N]. apply N. exact (i_inj _ _ I k i c' c H' C Eq).
  - destruct (nth_error (s_lves s) j) as [l|] eqn:Ej.
    2: { destruct I as [I1 I2 I3 I4 I5 I6 I7 I8 I9 I10]. constructor; cbn [s_tool s_lves s_conns s_next]; assumption. }
    set (l0 := {| l_fds := None; l_in := l_in l; l_out := l_out l |}).
    assert (R : forall k l', nth_error (replace j l0 (s_lves s)) k = Some l' -> exists l1, nth_error (s_lves s) k = Some l1 /\ l_in l1 = l_in l' /\ l_out l1 = l_out l' /\ (l_fds l' = None \/ l' = l1)).
    { intros k l' H. rewrite nth_error_replace in H. destruct (Nat.eqb_spec k j) as [->|N].
      - rewrite Ej in H. assert (l' = l0) as -> by congruence. exists l. repeat split; auto.
      - exists l'. repeat split; auto. }
    assert (R2 : forall k l1, nth_error (s_lves s) k = Some l1 -> exists l', nth_error (replace j l0 (s_lves s)) k = Some l' /\ l_in l' = l_in l1 /\ l_out l' = l_out l1).
    { intros k l1 H. rewrite nth_error_replace. destruct (Nat.eqb_spec k j) as [->|N].
      - rewrite Ej. exists l0. assert (l1 = l) as -> by congruence. now repeat split.
      - exists l1. now repeat split. }
    destruct I as [I1 I2 I3 I4 I5 I6 I7 I8 I9 I10]. constructor; cbn [s_tool s_lves s_conns s_next]; try assumption.
    + intros k l' H. destruct (R k l' H) as (l1 & H1 & E1 & E2 & _). rewrite <- E1, <- E2. exact (I3 k l1 H1).
    + intros k k' la lb L H H'. destruct (R k la H) as (l1 & H1 & E1 & E2 & _), (R k' lb H') as (l2 & H2 & E3 & E4 & _). rewrite <- E2, <- E3. exact (I4 k k' l1 l2 L H1 H2).
    + intros k l' H. destruct (R k l' H) as (l1 & H1 & E1 & E2 & _). rewrite <- E2. exact (I5 k l1 H1).
    + intros k l' H. destruct (R k l' H) as (l1 & H1 & E1 & E2 & _). rewrite <- E1. exact (I6 k l1 H1).
    + intros k l' tb H F. destruct (R k l' H) as (l1 & H1 & E1 & E2 & [N| ->]); [congruence|]. destruct (I7 k l1 tb H1 F) as (A1 & A2 & A3).
      split; [exact A1|]. split; [exact A2|]. intros m o p Lm G P. destruct (A3 m o p Lm G P) as [B1 B2]. split; [exact B1|]. intros Eo k2 l2 H2.
      destruct (R k2 l2 H2) as (l3 & H3 & E3 & _). rewrite <- E3. exact (B2 Eo k2 l3 H3).
    + intros i c C. destruct (I8 i c C) as (l1 & H & G1 & G2). destruct (R2 _ l1 H) as (l' & H' & E1 & E2). exists l'. rewrite E1, E2. now split.
    + intros k l' n m H. destruct (R k l' H) as (l1 & H1 & E1 & _). rewrite <- E1. exact (I10 k l1 n m H1).
  - destruct (alloc limit (Elsewhere n) (s_tool s)) as [[k t]|] eqn:E; [|apply (inv_tool limit s (s_tool s) I); auto; exact (i_len _ _ I)].
    assert (Lt : length t <= limit).
    { unfold alloc in E. destruct (Nat.ltb_spec (lowest (s_tool s)) limit); [|discriminate]. replace t with (put (lowest (s_tool s)) (Some (Elsewhere n)) (s_tool s)) by congruence.
      apply put_length; [assumption|exact (i_len _ _ I)]. }
    apply alloc_spec in E. destruct E as (_ & G0 & _ & G1 & Go). apply (inv_tool limit s t I Lt).
    + intros m o G. destruct (Nat.eq_dec m k) as [->|N]; [right; rewrite G1 in G; replace o with (Elsewhere n) by congruence; reflexivity|left; now rewrite <- Go].
    + intros j l m H G. rewrite Go; [exact G|]. congruence.
    + intros i c C. destruct (i_conn _ _ I i c C) as (l & H & H1 & H2). split; apply Go; congruence.
  - destruct (get (s_tool s) n) as [[p|p|k]|] eqn:G0; try (apply (inv_tool limit s (s_tool s) I); auto; exact (i_len _ _ I)).
    apply (inv_tool limit s _ I).
    + apply close_length, (i_len _ _ I).
    + intros m o G. rewrite get_close in G. destruct (m =? n); [discriminate|now left].
    + intros j l m H G. rewrite close_other; [exact G|]. congruence.
    + intros i c C. destruct (i_conn _ _ I i c C) as (l & H & H1 & H2). split; apply close_other; congruence.
Qed.

Lemma inv_initial limit t : Own t -> length t <= limit -> Inv limit (initial t).
Proof.
  intros O Lt. constructor; cbn [initial s_tool s_lves s_conns s_next].
  - intros n o p G P. destruct (O n o G) as [k ->]. discriminate.
  - exact Lt.
  - intros j l H. destruct j; discriminate.
  - intros j k l l' _ H. destruct j; discriminate.
  - intros j l H. destruct j; discriminate.
  - intros j l H. destruct j; discriminate.
  - intros j l tb H. destruct j; discriminate.
  - intros i c C. unfold Connected in C. destruct i; discriminate.
  - intros i k c c' C. unfold Connected in C. destruct i; discriminate.
  - intros j l n m H. destruct j; discriminate.
Qed.
Lemma inv_after limit t es : Own t -> length t <= limit -> Inv limit (after limit t es).
Proof.
  intros O Lt. unfold after. pose proof (inv_initial limit t O Lt) as I. revert I. generalize (initial t).
  induction es as [|e es IH]; intros s I; [exact I|]. cbn [fold_left]. apply IH. now apply inv_step.
Qed.
