From Coq Require Import Lia.
From Verif Require Import Base WinModel WinSpec.
From Verif Require SpawnModel SpawnSpec SpawnProofs.
From Coq Require Import Arith.

Lemma get_nil n : get [] n = Unused.
Proof. unfold get. now destruct n. Qed.
Lemma get_put n x t m : get (put n x t) m = if m =? n then x else get t m.
Proof.
  revert t m. induction n as [|n IH]; intros [|y t] [|m]; cbn [put Nat.eqb]; try reflexivity.
  - unfold get. cbn [nth]. now destruct m.
  - unfold get in *. cbn [nth]. rewrite IH. destruct (m =? n); [reflexivity|]. now destruct m.
  - unfold get in *. cbn [nth]. apply IH.
Qed.
Lemma put_same n x t : get (put n x t) n = x.
Proof. now rewrite get_put, Nat.eqb_refl. Qed.
Lemma put_other n x t m : m <> n -> get (put n x t) m = get t m.
Proof. intros N. rewrite get_put. now apply Nat.eqb_neq in N as ->. Qed.
Lemma lowest_free t : get t (lowest t) = Unused.
Proof. induction t as [|[| |o b] t IH]; [apply get_nil|reflexivity|exact IH|exact IH]. Qed.
Lemma lowest_least t m : m < lowest t -> get t m <> Unused.
Proof.
  revert m. induction t as [|[| |o b] t IH]; intros m L; cbn [lowest] in L; try lia;
    (destruct m as [|m]; [discriminate|]; change (get t m <> Unused); apply IH; lia).
Qed.
Lemma close_get n t m : get (crt_close n t) m = if (m =? n) then match get t n with Handle _ _ => Unused | x => x end else get t m.
Proof.
  unfold crt_close. destruct (get t n) eqn:E; [| |apply get_put]; destruct (Nat.eqb_spec m n); subst; auto.
Qed.
Lemma close_other n t m : m <> n -> get (crt_close n t) m = get t m.
Proof. intros N. rewrite close_get. now apply Nat.eqb_neq in N as ->. Qed.
Lemma close_same n t o b : get t n = Handle o b -> get (crt_close n t) n = Unused.
Proof. intros E. now rewrite close_get, Nat.eqb_refl, E. Qed.
Lemma alloc_spec limit x t n t' : alloc limit x t = Some (n, t') ->
  get t n = Unused /\ (forall m, m < n -> get t m <> Unused) /\ get t' n = x /\ (forall m, m <> n -> get t' m = get t m).
Proof.
  unfold alloc. destruct (lowest t <? limit); intros E; [|discriminate].
  assert (n = lowest t) as -> by congruence. assert (t' = put (lowest t) x t) as -> by congruence.
  split; [apply lowest_free|]. split; [apply lowest_least|]. split; [apply put_same|]. intros m. apply put_other.
Qed.
Lemma pipe_spec ok limit p t r w t' : crt_pipe ok limit p t = Some (r, w, t') ->
  r <> w /\ get t r = Unused /\ get t w = Unused /\ (forall m, m < r -> get t m <> Unused) /\
  get t' r = Handle (ReadEnd p) false /\ get t' w = Handle (WriteEnd p) false /\ (forall m, m <> r -> m <> w -> get t' m = get t m).
Proof.
  unfold crt_pipe. destruct ok; [|discriminate].
  destruct (alloc limit (Handle (ReadEnd p) false) t) as [[r1 t1]|] eqn:E1; [|discriminate].
  destruct (alloc limit (Handle (WriteEnd p) false) t1) as [[w1 t2]|] eqn:E2; [|discriminate].
  intros E. assert (r1 = r) as -> by congruence. assert (w1 = w) as -> by congruence. assert (t2 = t') as -> by congruence. clear E.
  apply alloc_spec in E1. apply alloc_spec in E2. destruct E1 as (N1 & M1 & G1 & O1), E2 as (N2 & M2 & G2 & O2).
  assert (r <> w) as Nrw by (intros ->; congruence).
  split; [exact Nrw|]. split; [exact N1|]. split; [rewrite <- O1; [exact N2|auto]|]. split; [exact M1|].
  split; [rewrite O2; [exact G1|exact Nrw]|]. split; [exact G2|]. intros m Nr Nw. rewrite O2, O1; auto.
Qed.
Lemma dup_spec ok limit fd t r t' : crt_dup ok limit fd t = Some (r, t') ->
  match r with
  | Some n => exists o b, get t fd = Handle o b /\ get t n = Unused /\ get t' n = Handle o true /\ forall m, m <> n -> get t' m = get t m
  | None => t' = t /\ refers t fd = None
  end.
Proof.
  unfold crt_dup, refers. destruct (get t fd) as [| |o b] eqn:G.
  - intros E. assert (r = None) as -> by congruence. assert (t' = t) as -> by congruence. now split.
  - intros E. assert (r = None) as -> by congruence. assert (t' = t) as -> by congruence. now split.
  - destruct ok; [|discriminate]. destruct (alloc limit (Handle o true) t) as [[n t1]|] eqn:E1; [|discriminate]. intros E.
    assert (r = Some n) as -> by congruence. assert (t' = t1) as -> by congruence. clear E. apply alloc_spec in E1.
    destruct E1 as (N1 & _ & G1 & O1). exists o, b. auto.
Qed.
Lemma dup2_spec ok a b t t' : crt_dup2 ok a b t = Some t' -> a <> b ->
  exists o i, get t a = Handle o i /\ get t' b = Handle o true /\ forall m, m <> b -> get t' m = get t m.
Proof.
  unfold crt_dup2. destruct (get t a) as [| |o i]; try discriminate. destruct ok; [|discriminate]. intros E N.
  apply Nat.eqb_neq in N. rewrite N in E. assert (t' = put b (Handle o true) t) as -> by congruence.
  exists o, i. split; [reflexivity|]. split; [apply put_same|]. intros m. apply put_other.
Qed.
Lemma inherited_get t n : SpawnModel.get (inherited t) n = match get t n with Handle o true => Some o | _ => None end.
Proof.
  unfold SpawnModel.get, inherited, get. revert n. induction t as [|x t IH]; intros [|n]; cbn [map nth]; try reflexivity. apply IH.
Qed.
(** The lowest numbers are in use. *)
Lemma unused_high t n : get t 0 <> Unused -> get t 1 <> Unused -> get t n = Unused -> 2 <= n.
Proof. intros A0 A1 U. destruct n as [|[|n]]; [contradiction|contradiction|lia]. Qed.

(** The four ends of two pipes. *)
Definition ends (p q : nat) (o : object) : Prop := o = ReadEnd p \/ o = WriteEnd p \/ o = ReadEnd q \/ o = WriteEnd q.

(** ** All outcomes of mlle_spawn for a tool with standard streams *)

Inductive spawned (a : calls) (s : system) : system -> option SpawnModel.connection -> Prop :=
| S_none : spawned a s s None
| S_left t' : Streams t' ->
    (forall n, 2 <= n -> get (w_tool s) n <> Unused -> get t' n = get (w_tool s) n) ->
    (forall n o b, get t' n = Handle o b ->
       (2 <= n /\ get (w_tool s) n = Handle o b) \/ (exists m b', m <= 1 /\ get (w_tool s) m = Handle o b') \/ ends (w_next s) (S (w_next s)) o) ->
    spawned a s {| w_tool := t'; w_lves := w_lves s ++ []; w_conns := w_conns s; w_next := S (S (w_next s)) |} None
| S_child t' tb pw cr c :
    get (w_tool s) pw = Unused -> get (w_tool s) cr = Unused -> 2 <= pw -> 2 <= cr -> pw <> cr ->
    get t' pw = Handle (WriteEnd (w_next s)) false -> get t' cr = Handle (ReadEnd (S (w_next s))) false ->
    (forall n, 2 <= n -> n <> pw -> n <> cr -> get t' n = get (w_tool s) n) ->
    (forall n, n <= 1 -> refers t' n = refers (w_tool s) n) ->
    SpawnModel.get tb 0 = Some (ReadEnd (w_next s)) -> SpawnModel.get tb 1 = Some (WriteEnd (S (w_next s))) ->
    (forall n o, 2 <= n -> SpawnModel.get tb n = Some o ->
       get (w_tool s) n = Handle o true \/ exists m b, m <= 1 /\ get (w_tool s) m = Handle o b) ->
    (c = None \/ c = Some {| SpawnModel.c_to := pw; SpawnModel.c_from := cr; SpawnModel.c_lve := length (w_lves s) |}) ->
    spawned a s {| w_tool := t'; w_lves := w_lves s ++ [{| SpawnModel.l_fds := Some tb; SpawnModel.l_in := w_next s; SpawnModel.l_out := S (w_next s) |}];
                   w_conns := w_conns s; w_next := S (S (w_next s)) |} c.

Lemma streams_handles t : Streams t -> exists o0 b0 o1 b1, get t 0 = Handle o0 b0 /\ get t 1 = Handle o1 b1.
Proof.
  intros [H0 H1]. unfold refers in *. destruct (get t 0) as [| |o0 b0]; try congruence. destruct (get t 1) as [| |o1 b1]; try congruence.
  now exists o0, b0, o1, b1.
Qed.
Lemma handles_streams t o0 b0 o1 b1 : get t 0 = Handle o0 b0 -> get t 1 = Handle o1 b1 -> Streams t.
Proof. intros H0 H1. split; unfold refers; [rewrite H0|rewrite H1]; discriminate. Qed.

Ltac nu := first [assumption | apply not_eq_sym; assumption | discriminate
  | match goal with
    | H : 2 <= ?n |- ?n <> 0 => clear - H; lia | H : 2 <= ?n |- ?n <> 1 => clear - H; lia
    | H : 2 <= ?n |- 0 <> ?n => clear - H; lia | H : 2 <= ?n |- 1 <> ?n => clear - H; lia
    | Un : get ?t ?n <> Unused, U : get ?t ?m = Unused |- ?n <> ?m => intros ->; exact (Un U)
    | H : get ?t ?n = Handle _ _ |- get ?t ?n <> Unused => rewrite H; discriminate
    end].
Lemma spawn_spec limit a name s s' c : Streams (w_tool s) -> b_back_in a = true -> b_back_out a = true ->
  spawn limit a name s = (s', c) -> spawned a s s' c.
Proof.
  intros St Bi Bo. destruct (streams_handles _ St) as (o0 & b0 & o1 & b1 & G0 & G1). unfold spawn.
  set (t := w_tool s) in *. set (p := w_next s).
  assert (Hi : forall n, get t n = Unused -> 2 <= n) by (intros n; apply unused_high; [rewrite G0; discriminate|rewrite G1; discriminate]).
  destruct (crt_pipe (b_pipe1 a) limit p t) as [[[pr pw] t1]|] eqn:E1.
  2: { intros E. replace s' with s by congruence. replace c with (@None SpawnModel.connection) by congruence. constructor. }
  apply pipe_spec in E1. destruct E1 as (N1 & U1 & U2 & _ & Hr & Hw & O1). pose proof (Hi _ U1) as L1. pose proof (Hi _ U2) as L2.
  destruct (crt_pipe (b_pipe2 a) limit (S p) t1) as [[[cr cw] t2]|] eqn:E2.
  2: { intros E. replace s' with {| w_tool := t1; w_lves := w_lves s ++ []; w_conns := w_conns s; w_next := S (S p) |} by congruence.
       replace c with (@None SpawnModel.connection) by congruence. clear E. constructor.
       - apply (handles_streams t1 o0 b0 o1 b1); rewrite O1 by nu; assumption.
       - intros n Ln Un. apply O1; intros ->; contradiction.
       - intros n o b G. fold t p. destruct (Nat.eq_dec n pr) as [->|Nr]; [right; right; unfold ends; left; congruence|].
         destruct (Nat.eq_dec n pw) as [->|Nw]; [right; right; unfold ends; right; left; congruence|]. rewrite O1 in G by assumption.
         destruct (Nat.le_gt_cases 2 n) as [H|H]; [left; now split|]. right. left. exists n, b. split; [clear - H; lia|exact G]. }
  apply pipe_spec in E2. destruct E2 as (N2 & U3 & U4 & _ & Hcr & Hcw & O2).
  assert (A1 : cr <> pr) by congruence. assert (A2 : cr <> pw) by congruence. assert (A3 : cw <> pr) by congruence. assert (A4 : cw <> pw) by congruence.
  assert (U3' : get t cr = Unused) by (rewrite <- O1; auto). assert (U4' : get t cw = Unused) by (rewrite <- O1; auto).
  pose proof (Hi _ U3') as L3. pose proof (Hi _ U4') as L4.
  (* what all later tables have in common *)
  assert (Base2 : forall n o b, get t2 n = Handle o b ->
       (get t n = Handle o b) \/ ends p (S p) o).
  { intros n o b G. destruct (Nat.eq_dec n cr) as [->|B1]; [right; unfold ends; rewrite Hcr in G; injection G as <- _; tauto|].
    destruct (Nat.eq_dec n cw) as [->|B2]; [right; unfold ends; rewrite Hcw in G; injection G as <- _; tauto|]. rewrite O2 in G by assumption.
    destruct (Nat.eq_dec n pr) as [->|B3]; [right; unfold ends; rewrite Hr in G; injection G as <- _; tauto|].
    destruct (Nat.eq_dec n pw) as [->|B4]; [right; unfold ends; rewrite Hw in G; injection G as <- _; tauto|]. rewrite O1 in G by assumption. now left. }
  assert (Keep2 : forall n, get t n <> Unused -> get t2 n = get t n).
  { intros n Un. rewrite O2, O1; [reflexivity| | | |]; intros ->; contradiction. }
  assert (G20 : get t2 0 = Handle o0 b0) by (rewrite Keep2; [exact G0|rewrite G0; discriminate]).
  assert (G21 : get t2 1 = Handle o1 b1) by (rewrite Keep2; [exact G1|rewrite G1; discriminate]).
  assert (Left : forall t', (exists x0 y0 x1 y1, get t' 0 = Handle x0 y0 /\ get t' 1 = Handle x1 y1) ->
     (forall n, 2 <= n -> get t n <> Unused -> get t' n = get t n) ->
     (forall n o b, get t' n = Handle o b -> (2 <= n /\ get t2 n = Handle o b) \/ o = o0 \/ o = o1 \/ ends p (S p) o) ->
     spawned a s {| w_tool := t'; w_lves := w_lves s ++ []; w_conns := w_conns s; w_next := S (S p) |} None).
  { intros t' (x0 & y0 & x1 & y1 & X0 & X1) K B. constructor.
    - exact (handles_streams t' x0 y0 x1 y1 X0 X1).
    - exact K.
    - intros n o b G. fold t p. destruct (B n o b G) as [[Ln H]|[->|[->|H]]].
      + destruct (Base2 n o b H) as [H'|H']; [left; now split|now right; right].
      + right. left. exists 0, b0. split; [clear; lia|exact G0].
      + right. left. exists 1, b1. split; [clear; lia|exact G1].
      + now right; right. }
  assert (KeepUp : forall t' n, (forall m, get t2 m <> Unused -> get t' m = get t2 m) -> get t n <> Unused -> get t' n = get t n).
  { intros t' n K Un. rewrite K; [now apply Keep2|]. rewrite Keep2; assumption. }
  destruct (crt_dup (b_save_in a) limit 0 t2) as [[sin t3]|] eqn:E3.
  2: { intros E. replace s' with {| w_tool := t2; w_lves := w_lves s ++ []; w_conns := w_conns s; w_next := S (S p) |} by congruence.
       replace c with (@None SpawnModel.connection) by congruence. clear E. apply Left.
       - exists o0, b0, o1, b1. now split.
       - intros n _. apply Keep2.
       - intros n o b G. destruct n as [|[|n]]; [right; left; congruence|right; right; left; congruence|left; split; [clear; lia|exact G]]. }
  apply dup_spec in E3. destruct sin as [sn|]; [|destruct E3 as [_ X]; unfold refers in X; rewrite G20 in X; discriminate].
  destruct E3 as (o & b & X & U5 & H3 & O3). assert (o = o0) as -> by congruence. clear X b.
  assert (G30 : get t3 0 = Handle o0 b0) by (rewrite O3; [exact G20|intros <-; congruence]).
  assert (G31 : get t3 1 = Handle o1 b1) by (rewrite O3; [exact G21|intros <-; congruence]).
  assert (Hi2 : forall n, get t2 n = Unused -> 2 <= n) by (intros n; apply unused_high; [rewrite G20; discriminate|rewrite G21; discriminate]).
  pose proof (Hi2 _ U5) as L5.
  destruct (crt_dup (b_save_out a) limit 1 t3) as [[sout t4]|] eqn:E4.
  2: { intros E. replace s' with {| w_tool := t3; w_lves := w_lves s ++ []; w_conns := w_conns s; w_next := S (S p) |} by congruence.
       replace c with (@None SpawnModel.connection) by congruence. clear E. apply Left.
       - exists o0, b0, o1, b1. now split.
       - intros n _ Un. apply KeepUp; [|exact Un]. intros m Um. apply O3. intros ->. contradiction.
       - intros n o b G. destruct (Nat.eq_dec n sn) as [->|Nn]; [right; left; congruence|]. rewrite O3 in G by assumption.
         destruct n as [|[|n]]; [right; left; congruence|right; right; left; congruence|left; split; [clear; lia|exact G]]. }
  apply dup_spec in E4. destruct sout as [so|]; [|destruct E4 as [_ X]; unfold refers in X; rewrite G31 in X; discriminate].
  destruct E4 as (o & b & X & U6 & H4 & O4). assert (o = o1) as -> by congruence. clear X b.
  assert (Nso : so <> sn) by (intros ->; congruence).
  assert (U6' : get t2 so = Unused) by (rewrite <- O3; auto).
  pose proof (Hi2 _ U6') as L6.
  assert (S1 : pr <> sn) by (intros <-; rewrite O2, Hr in U5 by auto; discriminate).
  assert (S2 : pr <> so) by (intros <-; rewrite O2, Hr in U6' by auto; discriminate).
  assert (S3 : cw <> sn) by (intros <-; congruence). assert (S4 : cw <> so) by (intros <-; congruence).
  assert (S5 : pw <> sn) by (intros <-; rewrite O2, Hw in U5 by auto; discriminate).
  assert (S6 : pw <> so) by (intros <-; rewrite O2, Hw in U6' by auto; discriminate).
  assert (S7 : cr <> sn) by (intros <-; congruence). assert (S8 : cr <> so) by (intros <-; congruence).
  assert (Base4 : forall n o b, get t4 n = Handle o b -> (2 <= n /\ get t2 n = Handle o b) \/ o = o0 \/ o = o1 \/ ends p (S p) o).
  { intros n o b G. destruct (Nat.eq_dec n so) as [->|Nn]; [right; right; left; congruence|]. rewrite O4 in G by assumption.
    destruct (Nat.eq_dec n sn) as [->|Nn2]; [right; left; congruence|]. rewrite O3 in G by assumption.
    destruct n as [|[|n]]; [right; left; congruence|right; right; left; congruence|left; split; [clear; lia|exact G]]. }
  assert (Keep4 : forall n, get t2 n <> Unused -> get t4 n = get t2 n).
  { intros n Un. rewrite O4, O3; [reflexivity| |]; intros ->; contradiction. }
  assert (K2pr : get t2 pr = Handle (ReadEnd p) false) by (rewrite O2; auto).
  assert (K2pw : get t2 pw = Handle (WriteEnd p) false) by (rewrite O2; auto).
  destruct (crt_dup2 (b_set_in a) pr 0 t4) as [t5|] eqn:E5.
  2: { intros E. replace s' with {| w_tool := t4; w_lves := w_lves s ++ []; w_conns := w_conns s; w_next := S (S p) |} by congruence.
       replace c with (@None SpawnModel.connection) by congruence. clear E. apply Left; [|intros n _; now apply KeepUp|exact Base4].
       exists o0, b0, o1, b1. split; (rewrite Keep4 by nu; assumption). }
  apply dup2_spec in E5; [|nu]. destruct E5 as (o & b & X & H5 & O5).
  rewrite Keep4, K2pr in X by nu. injection X as <- _.
  assert (Base5 : forall n o b, get t5 n = Handle o b -> (2 <= n /\ get t2 n = Handle o b) \/ o = o0 \/ o = o1 \/ ends p (S p) o).
  { intros n o b' G. destruct (Nat.eq_dec n 0) as [->|Nn]; [right; right; right; left; congruence|]. rewrite O5 in G by assumption. now apply Base4 in G. }
  destruct (crt_dup2 (b_set_out a) cw 1 t5) as [t6|] eqn:E6.
  2: { intros E. replace s' with {| w_tool := t5; w_lves := w_lves s ++ []; w_conns := w_conns s; w_next := S (S p) |} by congruence.
       replace c with (@None SpawnModel.connection) by congruence. clear E. apply Left; [| |exact Base5].
       - exists (ReadEnd p), true, o1, b1. split; [exact H5|]. rewrite O5, Keep4 by nu. exact G21.
       - intros n Ln Un. rewrite O5 by nu. now apply KeepUp. }
  apply dup2_spec in E6; [|nu]. destruct E6 as (o & b' & X & H6 & O6).
  rewrite O5, Keep4, Hcw in X by nu. injection X as <- _.
  set (t7 := crt_close cw (crt_close pr t6)).
  assert (G7 : forall n, n <> cw -> n <> pr -> get t7 n = get t6 n) by (intros n Q1 Q2; unfold t7; now rewrite !close_other).
  assert (C7 : get t7 pr = Unused /\ get t7 cw = Unused).
  { assert (P6 : get t6 pr = Handle (ReadEnd p) false) by (rewrite O6, O5, Keep4 by nu; exact K2pr).
    assert (P7 : get (crt_close pr t6) cw = Handle (WriteEnd (S p)) false) by (rewrite close_other, O6, O5, Keep4 by nu; exact Hcw).
    unfold t7. split; [rewrite close_other by auto; exact (close_same _ _ _ _ P6)|exact (close_same _ _ _ _ P7)]. }
  assert (T6 : forall n, 2 <= n -> get t6 n = get t4 n) by (intros n Ln; rewrite O6, O5 by nu; reflexivity).
  destruct (run a name).
  2: { intros E. replace s' with {| w_tool := t7; w_lves := w_lves s ++ []; w_conns := w_conns s; w_next := S (S p) |} by congruence.
       replace c with (@None SpawnModel.connection) by congruence. clear E. apply Left.
       - exists (ReadEnd p), true, (WriteEnd (S p)), true. split; [rewrite G7, O6 by nu; exact H5|rewrite G7 by nu; exact H6].
       - intros n Ln Un. rewrite G7, T6 by nu. now apply KeepUp.
       - intros n o b'' G. destruct (Nat.eq_dec n cw) as [->|Q1]; [rewrite (proj2 C7) in G; discriminate|].
         destruct (Nat.eq_dec n pr) as [->|Q2]; [rewrite (proj1 C7) in G; discriminate|]. rewrite G7 in G by assumption.
         destruct (Nat.eq_dec n 1) as [->|Q3]; [right; right; right; right; right; right; congruence|]. rewrite O6 in G by assumption. now apply Base5 in G. }
  (* giving back *)
  assert (G7sn : get t7 sn = Handle o0 true) by (rewrite G7, T6 by nu; rewrite O4 by auto; exact H3).
  assert (G7so : get t7 so = Handle o1 true) by (rewrite G7, T6 by nu; exact H4).
  unfold give_back. rewrite Bi, Bo. unfold crt_dup2. rewrite G7sn. replace (sn =? 0) with false by (symmetry; apply Nat.eqb_neq; nu).
  set (t8 := crt_close sn (put 0 (Handle o0 true) t7)).
  assert (G8 : forall n, n <> sn -> n <> 0 -> get t8 n = get t7 n) by (intros n Q1 Q2; unfold t8; rewrite close_other by auto; now apply put_other).
  assert (G8s : get t8 sn = Unused) by (apply (close_same _ _ o0 true); rewrite put_other by nu; exact G7sn).
  assert (G80 : get t8 0 = Handle o0 true) by (unfold t8; rewrite close_other by nu; apply put_same).
  rewrite (G8 so) by nu. rewrite G7so. replace (so =? 1) with false by (symmetry; apply Nat.eqb_neq; nu).
  set (t9 := crt_close so (put 1 (Handle o1 true) t8)).
  assert (G9 : forall n, n <> so -> n <> 1 -> get t9 n = get t8 n) by (intros n Q1 Q2; unfold t9; rewrite close_other by auto; now apply put_other).
  assert (G9s : get t9 so = Unused) by (apply (close_same _ _ o1 true); rewrite put_other, G8 by nu; exact G7so).
  assert (G91 : get t9 1 = Handle o1 true) by (unfold t9; rewrite close_other by nu; apply put_same).
  intros E.
  assert (s' = {| w_tool := t9; w_lves := w_lves s ++ [{| SpawnModel.l_fds := Some (inherited t7); SpawnModel.l_in := p; SpawnModel.l_out := S p |}];
                  w_conns := w_conns s; w_next := S (S p) |}) as -> by congruence.
  assert (Ec : c = None \/ c = Some {| SpawnModel.c_to := pw; SpawnModel.c_from := cr; SpawnModel.c_lve := length (w_lves s) |})
    by (destruct (b_calloc a); [right|left]; congruence).
  clear E. apply (S_child a s t9 (inherited t7) pw cr c); auto.
  - rewrite G9, G8, G7, T6, Keep4 by nu. exact K2pw.
  - rewrite G9, G8, G7, T6, Keep4 by nu. exact Hcr.
  - intros n Ln Q1 Q2. fold t. destruct (Nat.eq_dec n so) as [->|Q3].
    { rewrite G9s. symmetry. rewrite <- O1, <- O2 by nu. exact U6'. }
    rewrite G9 by nu. destruct (Nat.eq_dec n sn) as [->|Q4].
    { rewrite G8s. symmetry. rewrite <- O1, <- O2 by nu. exact U5. }
    rewrite G8 by nu. destruct (Nat.eq_dec n pr) as [->|Q5]; [rewrite (proj1 C7); symmetry; exact U1|]. destruct (Nat.eq_dec n cw) as [->|Q6]; [rewrite (proj2 C7); symmetry; exact U4'|].
    rewrite G7, T6, O4, O3, O2, O1 by nu. reflexivity.
  - intros n Ln. fold t. unfold refers. destruct n as [|[|n]]; [rewrite G9 by nu; now rewrite G80, G0|now rewrite G91, G1|clear - Ln; lia].
  - rewrite inherited_get, G7, O6 by nu. now rewrite H5.
  - rewrite inherited_get, G7 by nu. now rewrite H6.
  - intros n o Ln. fold t. rewrite inherited_get. destruct (get t7 n) as [| |o' [|]] eqn:G; try discriminate. intros Q. injection Q as ->.
    destruct (Nat.eq_dec n so) as [->|Q3]; [right; exists 1, b1; split; [clear; lia|]; congruence|].
    destruct (Nat.eq_dec n sn) as [->|Q4]; [right; exists 0, b0; split; [clear; lia|]; congruence|].
    destruct (Nat.eq_dec n pr) as [->|Q5]; [rewrite (proj1 C7) in G; discriminate|]. destruct (Nat.eq_dec n cw) as [->|Q6]; [rewrite (proj2 C7) in G; discriminate|].
    rewrite G7, T6, O4, O3 in G by assumption. destruct (Nat.eq_dec n cr) as [->|Q7]; [congruence|]. rewrite O2 in G by assumption.
    destruct (Nat.eq_dec n pw) as [->|Q8]; [congruence|]. rewrite O1 in G by assumption. now left.
Qed.
