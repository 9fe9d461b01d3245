From Coq Require Import List Arith Bool Lia.
Import ListNotations.
From Verif Require Import SpawnModel SpawnSpec.

(** ** Tables *)

Lemma get_nil n : get [] n = None.
Proof. unfold get. now destruct n. Qed.
Lemma get_put n o t m : get (put n o t) m = if m =? n then o else get t m.
Proof.
  revert t m. induction n as [|n IH]; intros [|x t] [|m]; cbn [put Nat.eqb]; try reflexivity.
  - unfold get. cbn [nth]. now destruct m.
  - unfold get in *. cbn [nth]. rewrite IH. destruct (m =? n); [reflexivity|]. now destruct m.
  - unfold get in *. cbn [nth]. apply IH.
Qed.
Lemma get_put_same n o t : get (put n o t) n = o.
Proof. now rewrite get_put, Nat.eqb_refl. Qed.
Lemma get_put_other n o t m : m <> n -> get (put n o t) m = get t m.
Proof. intros N. rewrite get_put. now apply Nat.eqb_neq in N as ->. Qed.
Lemma lowest_free t : get t (lowest t) = None.
Proof. induction t as [|[o|] t IH]; [apply get_nil| |reflexivity]. exact IH. Qed.
Lemma lowest_least t m : m < lowest t -> get t m <> None.
Proof.
  revert m. induction t as [|[o|] t IH]; intros m L; cbn [lowest] in L; try lia.
  destruct m as [|m]; [discriminate|]. change (get t m <> None). apply IH. lia.
Qed.
Lemma get_close n t m : get (sys_close n t) m = if m =? n then None else get t m.
Proof.
  unfold sys_close. destruct (get t n) eqn:E.
  - apply get_put.
  - destruct (Nat.eqb_spec m n); [now subst|reflexivity].
Qed.
Lemma close_same n t : get (sys_close n t) n = None.
Proof. now rewrite get_close, Nat.eqb_refl. Qed.
Lemma close_other n t m : m <> n -> get (sys_close n t) m = get t m.
Proof. intros N. rewrite get_close. now apply Nat.eqb_neq in N as ->. Qed.

Lemma alloc_spec limit o t n t' : alloc limit o t = Some (n, t') ->
  n < limit /\ get t n = None /\ (forall m, m < n -> get t m <> None) /\ get t' n = Some o /\ (forall m, m <> n -> get t' m = get t m).
Proof.
  unfold alloc. destruct (Nat.ltb_spec (lowest t) limit) as [L|]; intros E; [|discriminate].
  assert (n = lowest t) as -> by congruence. assert (t' = put (lowest t) (Some o) t) as -> by congruence.
  split; [exact L|]. split; [apply lowest_free|]. split; [apply lowest_least|]. split; [apply get_put_same|]. intros m. apply get_put_other.
Qed.

(** Two new descriptors. *)
Lemma pipe_spec ok limit p t r w t' : sys_pipe ok limit p t = Some (r, w, t') ->
  r < limit /\ w < limit /\ r <> w /\ get t r = None /\ get t w = None /\ (forall m, m < r -> get t m <> None) /\ (forall m, m < w -> m <> r -> get t m <> None) /\
  get t' r = Some (ReadEnd p) /\ get t' w = Some (WriteEnd p) /\ (forall m, m <> r -> m <> w -> get t' m = get t m).
Proof.
  unfold sys_pipe. destruct ok; [|discriminate].
  destruct (alloc limit (ReadEnd p) t) as [[r1 t1]|] eqn:E1; [|discriminate].
  destruct (alloc limit (WriteEnd p) t1) as [[w1 t2]|] eqn:E2; [|discriminate].
  intros E. assert (r1 = r) as -> by congruence. assert (w1 = w) as -> by congruence. assert (t2 = t') as -> by congruence. clear E.
  apply alloc_spec in E1. apply alloc_spec in E2. destruct E1 as (L1 & N1 & M1 & G1 & O1), E2 as (L2 & N2 & M2 & G2 & O2).
  assert (r <> w) as Nrw by (intros ->; congruence).
  split; [exact L1|]. split; [exact L2|]. split; [exact Nrw|]. split; [exact N1|]. split; [rewrite <- O1; [exact N2|auto]|]. split; [exact M1|].
  split; [intros m Lm Nm; rewrite <- O1 by exact Nm; now apply M2|]. split; [rewrite O2; [exact G1|exact Nrw]|]. split; [exact G2|].
  intros m Nr Nw. rewrite O2, O1; auto.
Qed.

(** ** The child *)

(** What mlle_spawn does after the two pipes have been made. *)
Lemma child_spec exec t t2 pr pw cr cw p q :
  pr <> pw -> get t pr = None -> get t pw = None -> (forall m, m < pr -> get t m <> None) ->
  get t cr = None -> get t cw = None -> cr <> pr -> cr <> pw -> cw <> pr -> cw <> pw -> cr <> cw ->
  (forall m, m < pw -> m <> pr -> get t m <> None) ->
  get t2 pr = Some (ReadEnd p) -> get t2 pw = Some (WriteEnd p) -> get t2 cr = Some (ReadEnd q) -> get t2 cw = Some (WriteEnd q) ->
  (forall m, m <> pr -> m <> pw -> m <> cr -> m <> cw -> get t2 m = get t m) ->
  (get t 0 = None -> child exec t2 pr pw cr cw = inl 3) /\
  (get t 0 <> None -> exec = false -> child exec t2 pr pw cr cw = inl 4) /\
  (get t 0 <> None -> exec = true -> exists tb, child exec t2 pr pw cr cw = inr tb /\
     get tb 0 = Some (ReadEnd p) /\ get tb 1 = Some (WriteEnd q) /\ forall m, 2 <= m -> get tb m = get t m).
Proof.
  intros Npp Gr Gw Mr Gcr Gcw N1 N2 N3 N4 N5 Mw Hr Hw Hcr Hcw Ho.
  split; [|assert (get t 0 <> None -> exists t1, dup2 pr 0 (sys_close 0 (sys_close pw t2)) = Some t1 /\ exists t3,
      dup2 cw 1 (sys_close 1 (sys_close cr (sys_close pr t1))) = Some t3 /\
      get (sys_close cw t3) 0 = Some (ReadEnd p) /\ get (sys_close cw t3) 1 = Some (WriteEnd q) /\ forall m, 2 <= m -> get (sys_close cw t3) m = get t m) as X].
  - intros G0. assert (pr = 0) as E by (destruct pr; [reflexivity|]; exfalso; apply (Mr 0); [lia|exact G0]).
    unfold child, dup2. now rewrite E, close_same.
  - intros G0. assert (P0 : pr <> 0) by congruence. assert (W0 : pw <> 0) by congruence. assert (C0 : cr <> 0) by congruence. assert (D0 : cw <> 0) by congruence.
    assert (W1 : pw <> 1).
    { intros ->. apply (Mr 1); [|exact Gw]. destruct (Nat.lt_ge_cases 1 pr); [assumption|]. lia. }
    assert (D1 : cw <> 1).
    { intros ->. destruct (Nat.lt_ge_cases 1 pr) as [L|L]; [exact (Mr 1 L Gcw)|]. lia. }
    assert (C1 : cr <> 1).
    { intros ->. destruct (Nat.lt_ge_cases 1 pr) as [L|L]; [exact (Mr 1 L Gcr)|]. lia. }
    unfold dup2. rewrite !close_other, Hr by lia. eexists. split; [reflexivity|].
    rewrite !close_other, get_put_other, !close_other, Hcw by lia. eexists. split; [reflexivity|].
    split; [rewrite close_other, get_put_other, !close_other, get_put_same by lia; reflexivity|].
    split; [rewrite close_other, get_put_same by lia; reflexivity|].
    intros m Lm. rewrite get_close. destruct (Nat.eqb_spec m cw) as [->|Nm]; [now rewrite Gcw|].
    rewrite get_put_other, close_other by lia. rewrite get_close. destruct (Nat.eqb_spec m cr) as [->|Nm2]; [now rewrite Gcr|].
    rewrite get_close. destruct (Nat.eqb_spec m pr) as [->|Nm3]; [now rewrite Gr|].
    rewrite get_put_other, close_other by lia. rewrite get_close. destruct (Nat.eqb_spec m pw) as [->|Nm4]; [now rewrite Gw|]. now apply Ho.
  - split; intros G0 Ee; destruct (X G0) as (t1 & E1 & t3 & E3 & R); unfold child; rewrite E1, E3, Ee; [reflexivity|].
    eexists. split; [reflexivity|exact R].
Qed.

(** ** mlle_spawn *)

(** All ways in which it can end. *)
Inductive spawned (limit : nat) (a : calls) (s : system) : system -> option connection -> Prop :=
| S_none : spawned limit a s s None
| S_left t1 : (* a pipe or two are left *)
    (forall n o, get (s_tool s) n = Some o -> get t1 n = Some o) ->
    (forall n o, get t1 n = Some o -> get (s_tool s) n = Some o \/ o = ReadEnd (s_next s) \/ o = WriteEnd (s_next s) \/
       o = ReadEnd (S (s_next s)) \/ o = WriteEnd (S (s_next s))) ->
    (length (s_tool s) <= limit -> length t1 <= limit) ->
    spawned limit a s {| s_tool := t1; s_lves := s_lves s ++ []; s_conns := s_conns s; s_next := S (S (s_next s)) |} None
| S_child t1 pw cr cw fds c :
    get (s_tool s) pw = None -> get (s_tool s) cr = None -> get (s_tool s) cw = None -> pw <> cr -> pw <> cw -> cr <> cw ->
    get t1 pw = Some (WriteEnd (s_next s)) -> get t1 cr = Some (ReadEnd (S (s_next s))) -> get t1 cw = Some (WriteEnd (S (s_next s))) ->
    (forall m, m <> pw -> m <> cr -> m <> cw -> get t1 m = get (s_tool s) m) ->
    (length (s_tool s) <= limit -> length t1 <= limit) ->
    (get (s_tool s) 0 = None -> fds = None) ->
    (get (s_tool s) 0 <> None -> a_exec a = true -> fds <> None) ->
    (forall tb, fds = Some tb -> get (s_tool s) 0 <> None /\ get tb 0 = Some (ReadEnd (s_next s)) /\ get tb 1 = Some (WriteEnd (S (s_next s))) /\
       forall m, 2 <= m -> get tb m = get (s_tool s) m) ->
    (c = None \/ c = Some {| c_to := pw; c_from := cr; c_lve := length (s_lves s) |}) ->
    spawned limit a s {| s_tool := t1; s_lves := s_lves s ++ [{| l_fds := fds; l_in := s_next s; l_out := S (s_next s) |}]; s_conns := s_conns s; s_next := S (S (s_next s)) |} c.

Lemma put_length n o t limit : n < limit -> length t <= limit -> length (put n o t) <= limit.
Proof.
  revert t limit. induction n as [|n IH]; intros [|x t] [|limit] L Lt; cbn [put length] in *; try lia.
  - pose proof (IH [] limit). cbn [length] in H. lia.
  - pose proof (IH t limit). lia.
Qed.
Lemma pipe_length ok limit p t r w t' : sys_pipe ok limit p t = Some (r, w, t') -> length t <= limit -> length t' <= limit.
Proof.
  unfold sys_pipe, alloc. destruct ok; [|discriminate]. destruct (Nat.ltb_spec (lowest t) limit) as [L|]; [|discriminate].
  destruct (Nat.ltb_spec (lowest (put (lowest t) (Some (ReadEnd p)) t)) limit) as [L2|]; [|discriminate].
  intros E Lt. assert (t' = put (lowest (put (lowest t) (Some (ReadEnd p)) t)) (Some (WriteEnd p)) (put (lowest t) (Some (ReadEnd p)) t)) as -> by congruence.
  apply put_length; [exact L2|]. now apply put_length.
Qed.
Lemma close_length n t limit : length t <= limit -> length (sys_close n t) <= limit.
Proof.
  intros L. unfold sys_close. destruct (get t n) eqn:G; [|exact L]. apply put_length; [|exact L].
  destruct (Nat.lt_ge_cases n (length t)); [lia|]. unfold get in G. rewrite nth_overflow in G by assumption. discriminate.
Qed.

Lemma spawn_spec limit a s s' c : spawn limit a s = (s', c) -> spawned limit a s s' c.
Proof.
  unfold spawn. destruct (a_access a); [|intros E; replace s' with s by congruence; replace c with (@None connection) by congruence; constructor].
  destruct (sys_pipe (a_pipe1 a) limit (s_next s) (s_tool s)) as [[[pr pw] t1]|] eqn:E1.
  2: intros E; replace s' with s by congruence; replace c with (@None connection) by congruence; constructor.
  destruct (sys_pipe (a_pipe2 a) limit (S (s_next s)) t1) as [[[cr cw] t2]|] eqn:E2.
  2: { intros E. assert (s' = {| s_tool := t1; s_lves := s_lves s ++ []; s_conns := s_conns s; s_next := S (S (s_next s)) |}) as -> by congruence.
       replace c with (@None connection) by congruence. clear E. pose proof (pipe_length _ _ _ _ _ _ _ E1) as L1. apply pipe_spec in E1.
       destruct E1 as (_ & _ & N1 & Gr & Gw & _ & _ & Hr & Hw & Ho). constructor; [| |exact L1].
       - intros n o G. rewrite Ho; [exact G| |]; congruence.
       - intros n o G. destruct (Nat.eq_dec n pr) as [->|Nr]; [right; left; congruence|]. destruct (Nat.eq_dec n pw) as [->|Nw]; [right; right; left; congruence|].
         left. now rewrite <- Ho. }
  pose proof (pipe_length _ _ _ _ _ _ _ E1) as L1. pose proof (pipe_length _ _ _ _ _ _ _ E2) as L2.
  apply pipe_spec in E1. apply pipe_spec in E2.
  destruct E1 as (_ & _ & N1 & Gr & Gw & Mr & Mw & Hr & Hw & Ho), E2 as (_ & _ & N2 & Gcr & Gcw & Mcr & Mcw & Hcr & Hcw & Ho2).
  assert (A1 : cr <> pr) by congruence. assert (A2 : cr <> pw) by congruence. assert (A3 : cw <> pr) by congruence. assert (A4 : cw <> pw) by congruence.
  assert (Gcr' : get (s_tool s) cr = None) by (rewrite <- Ho; auto). assert (Gcw' : get (s_tool s) cw = None) by (rewrite <- Ho; auto).
  assert (Hpr : get t2 pr = Some (ReadEnd (s_next s))) by (rewrite Ho2; auto). assert (Hpw : get t2 pw = Some (WriteEnd (s_next s))) by (rewrite Ho2; auto).
  assert (Ho3 : forall m, m <> pr -> m <> pw -> m <> cr -> m <> cw -> get t2 m = get (s_tool s) m) by (intros m B1 B2 B3 B4; rewrite Ho2, Ho; auto).
  destruct (a_fork a).
  2: { intros E. assert (s' = {| s_tool := t2; s_lves := s_lves s ++ []; s_conns := s_conns s; s_next := S (S (s_next s)) |}) as -> by congruence.
       replace c with (@None connection) by congruence. clear E. constructor; [| |auto].
       - intros n o G. rewrite Ho3; [exact G| | | |]; congruence.
       - intros n o G. destruct (Nat.eq_dec n pr) as [->|B1]; [right; left; congruence|]. destruct (Nat.eq_dec n pw) as [->|B2]; [right; right; left; congruence|].
         destruct (Nat.eq_dec n cr) as [->|B3]; [right; right; right; left; congruence|]. destruct (Nat.eq_dec n cw) as [->|B4]; [right; right; right; right; congruence|].
         left. now rewrite <- Ho3. }
  destruct (child_spec (a_exec a) (s_tool s) t2 pr pw cr cw (s_next s) (S (s_next s)) N1 Gr Gw Mr Gcr' Gcw' A1 A2 A3 A4 N2 Mw Hpr Hpw Hcr Hcw Ho3) as (C1 & C2 & C3).
  set (fds := match child (a_exec a) t2 pr pw cr cw with inl _ => None | inr t => Some t end).
  assert (F1 : get (s_tool s) 0 = None -> fds = None) by (intros G0; unfold fds; now rewrite (C1 G0)).
  assert (F2 : get (s_tool s) 0 <> None -> a_exec a = true -> fds <> None) by (intros G0 Ex; destruct (C3 G0 Ex) as (tb & E & _); unfold fds; now rewrite E).
  assert (F3 : forall tb, fds = Some tb -> get (s_tool s) 0 <> None /\ get tb 0 = Some (ReadEnd (s_next s)) /\ get tb 1 = Some (WriteEnd (S (s_next s))) /\
       forall m, 2 <= m -> get tb m = get (s_tool s) m).
  { intros tb E. assert (G0 : get (s_tool s) 0 <> None) by (intros G0; rewrite (F1 G0) in E; discriminate). split; [exact G0|].
    destruct (a_exec a) eqn:Ex.
    - destruct (C3 G0 eq_refl) as (tb' & E' & R). unfold fds in E. rewrite E' in E. assert (tb' = tb) as -> by congruence. exact R.
    - unfold fds in E. rewrite (C2 G0 eq_refl) in E. discriminate. }
  assert (Ho4 : forall m, m <> pw -> m <> cr -> m <> cw -> get (sys_close pr t2) m = get (s_tool s) m).
  { intros m B1 B2 B3. rewrite get_close. destruct (Nat.eqb_spec m pr) as [->|B4]; [congruence|]. now apply Ho3. }
  intros E.
  assert (s' = {| s_tool := sys_close pr t2; s_lves := s_lves s ++ [{| l_fds := fds; l_in := s_next s; l_out := S (s_next s) |}]; s_conns := s_conns s; s_next := S (S (s_next s)) |} /\
     (c = None \/ c = Some {| c_to := pw; c_from := cr; c_lve := length (s_lves s) |})) as [-> Ec] by (destruct (a_calloc a); split; [congruence|right; congruence|congruence|left; congruence]).
  apply (S_child limit a s (sys_close pr t2) pw cr cw fds c); auto.
  - rewrite close_other; auto.
  - rewrite close_other; auto.
  - rewrite close_other; auto.
  - intros L. apply close_length. auto.
Qed.
