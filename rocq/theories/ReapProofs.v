(** Proofs about processes that have ended. *)
From Coq Require Import List Arith Bool Lia.
From Verif Require Import SpawnModel SpawnSpec ReapModel.
Import ListNotations.

Lemma replace_length {A} (x : A) : forall n l, length (replace n x l) = length l.
Proof. induction n as [|n IH]; intros [|y l]; cbn; auto. Qed.

Lemma start_lves limit a s : exists l, s_lves (fst (start limit a s)) = s_lves s ++ l /\ length l <= 1 /\
  (snd (start limit a s) <> None -> length l = 1) /\ (a_fork a = false -> l = []).
Proof.
  unfold start. assert (X : exists l, s_lves (fst (spawn limit a s)) = s_lves s ++ l /\ length l <= 1 /\ (snd (spawn limit a s) <> None -> length l = 1) /\ (a_fork a = false -> l = [])).
  { unfold spawn. destruct (a_access a); [|exists []; cbn; rewrite app_nil_r; repeat split; auto; congruence].
    destruct (sys_pipe (a_pipe1 a) limit (s_next s) (s_tool s)) as [[[pr pw] t1]|]; [|exists []; cbn; rewrite app_nil_r; repeat split; auto; congruence].
    destruct (sys_pipe (a_pipe2 a) limit (S (s_next s)) t1) as [[[cr cw] t2]|]; [|exists []; cbn; repeat split; auto; congruence].
    destruct (a_fork a); [|exists []; cbn; repeat split; auto; congruence]. destruct (a_calloc a); eexists; cbn; repeat split; auto; congruence. }
  destruct X as (l & E & L1 & L2 & L3). destruct (spawn limit a s) as [s' [c|]]; cbn [fst snd] in *.
  - destruct (a_setup a && a_handshake a); cbn [fst snd close_connection s_lves]; exists l; repeat split; auto; congruence.
  - exists l. repeat split; auto.
Qed.
Lemma step_start limit s a : s_lves (step limit s (Start a)) = s_lves (fst (start limit a s)).
Proof. cbn [step]. destruct (start limit a s). reflexivity. Qed.
Lemma ended_length s : ended s <= length (s_lves s).
Proof. unfold ended. induction (s_lves s) as [|l ls IH]; cbn; [lia|]. destruct (l_fds l); cbn; lia. Qed.
Lemma ended_app ls l : length (filter (fun l => match l_fds l with None => true | Some _ => false end) ls) <=
  length (filter (fun l => match l_fds l with None => true | Some _ => false end) (ls ++ l)).
Proof. rewrite filter_app, app_length. lia. Qed.
Lemma ended_replace j l : forall ls, nth_error ls j = Some l ->
  length (filter (fun l => match l_fds l with None => true | Some _ => false end) ls) <=
  length (filter (fun l => match l_fds l with None => true | Some _ => false end) (replace j {| l_fds := None; l_in := l_in l; l_out := l_out l |} ls)).
Proof.
  induction j as [|j IH]; intros [|y ls] H; cbn [nth_error] in H; try discriminate.
  - cbn. destruct (l_fds y); cbn; lia.
  - cbn. specialize (IH ls H). destruct (l_fds y); cbn; lia.
Qed.

Definition Waited (r : state) : Prop := r_waited r <= ended (r_system r).
Lemma happen_inv limit nproc r h : Waited r -> children r <= nproc -> Waited (happen limit nproc r h) /\ children (happen limit nproc r h) <= nproc.
Proof.
  unfold Waited, children. intros W C. pose proof (ended_length (r_system r)) as EL. destruct h as [[a|i|j|n|n]|].
  - cbn [happen r_system r_waited]. unfold ended. rewrite step_start. destruct (start_lves limit (can_fork nproc r a) (r_system r)) as (l & -> & L1 & _ & L3).
    split; [pose proof (ended_app (s_lves (r_system r)) l); unfold ended in W; lia|]. rewrite app_length. cbn [can_fork a_fork] in L3. unfold children in L3.
    destruct (length (s_lves (r_system r)) - r_waited r <? nproc) eqn:E; [apply Nat.ltb_lt in E; lia|]. rewrite andb_false_r in L3. rewrite (L3 eq_refl). cbn [length]. lia.
  - cbn [happen r_system r_waited step]. destruct (nth i (s_conns (r_system r)) None); cbn [s_lves close_connection]; unfold ended in *; cbn [s_lves close_connection]; lia.
  - cbn [happen r_system r_waited step]. unfold ended in *. cbn [s_lves]. destruct (nth_error (s_lves (r_system r)) j) as [l|] eqn:E; [|lia].
    rewrite replace_length. pose proof (ended_replace j l _ E). lia.
  - cbn [happen r_system r_waited step s_lves]. unfold ended in *. cbn [s_lves]. lia.
  - cbn [happen r_system r_waited step s_lves]. unfold ended in *. cbn [s_lves]. lia.
  - cbn [happen r_system r_waited]. destruct (r_waited r <? ended (r_system r)) eqn:E; [apply Nat.ltb_lt in E|]; lia.
Qed.
Lemma history_inv limit nproc t hs : Waited (history limit nproc t hs) /\ children (history limit nproc t hs) <= nproc.
Proof.
  unfold history. assert (G : forall r, Waited r -> children r <= nproc -> Waited (fold_left (happen limit nproc) hs r) /\ children (fold_left (happen limit nproc) hs r) <= nproc).
  { induction hs as [|h hs IH]; intros r W C; [now split|]. cbn [fold_left]. destruct (happen_inv limit nproc r h W C). now apply IH. }
  apply G; [unfold Waited; cbn; lia|cbn; lia].
Qed.
Lemma never_waited limit nproc t : forall hs, Forall (fun h => h <> Wait) hs -> r_waited (history limit nproc t hs) = 0.
Proof.
  intros hs F. unfold history. assert (G : forall r, r_waited r = 0 -> r_waited (fold_left (happen limit nproc) hs r) = 0).
  { induction F as [|h hs N _ IH]; intros r R; [exact R|]. cbn [fold_left]. apply IH. destruct h as [[]|]; try exact R. contradiction. }
  now apply G.
Qed.

(** Without wait() the number of LVEs ever started is bounded. *)
Lemma ever limit nproc t hs : Forall (fun h => h <> Wait) hs -> length (s_lves (r_system (history limit nproc t hs))) <= nproc.
Proof. intros F. destruct (history_inv limit nproc t hs) as [_ C]. unfold children in C. rewrite (never_waited _ _ _ _ F) in C. lia. Qed.
(** At the bound nothing can be started any more. *)
Lemma no_more limit nproc r a : nproc <= children r -> snd (start_limited limit nproc a r) = None.
Proof.
  intros C. unfold start_limited. destruct (start_lves limit (can_fork nproc r a) (r_system r)) as (l & _ & _ & L2 & L3).
  assert (l = []) as ->. { apply L3. cbn [can_fork a_fork]. apply Nat.ltb_ge in C. rewrite C. apply andb_false_r. }
  destruct (snd (start limit (can_fork nproc r a) (r_system r))); [|reflexivity]. discriminate L2. discriminate.
Qed.
Lemma running_count s : length (filter (fun l => match l_fds l with Some _ => true | None => false end) (s_lves s)) + ended s = length (s_lves s).
Proof. unfold ended. induction (s_lves s) as [|l ls IH]; cbn; [reflexivity|]. destruct (l_fds l); cbn; lia. Qed.
(** A tool that waits. *)
Lemma wait_all limit nproc r : Waited r -> let r' := fold_left (happen limit nproc) (repeat Wait (ended (r_system r))) r in
  r_system r' = r_system r /\ children r' = length (filter (fun l => match l_fds l with Some _ => true | None => false end) (s_lves (r_system r))).
Proof.
  intros W. assert (G : forall n r, Waited r -> let r' := fold_left (happen limit nproc) (repeat Wait n) r in r_system r' = r_system r /\ r_waited r' = Nat.min (r_waited r + n) (ended (r_system r))).
  { clear. induction n as [|n IH]; intros r W; cbn [repeat fold_left]; [unfold Waited in W; split; [reflexivity|lia]|].
    assert (W' : Waited (happen limit nproc r Wait)).
    { unfold Waited in *. cbn [happen r_system r_waited]. destruct (r_waited r <? ended (r_system r)) eqn:E; [apply Nat.ltb_lt in E|]; lia. }
    destruct (IH _ W') as [E1 E2]. split; [exact E1|]. cbv zeta in E2. rewrite E2. cbn [happen r_system r_waited]. unfold Waited in W.
    destruct (r_waited r <? ended (r_system r)) eqn:E; [apply Nat.ltb_lt in E|apply Nat.ltb_ge in E]; lia. }
  destruct (G (ended (r_system r)) r W) as [E1 E2]. cbv zeta in *. split; [exact E1|]. unfold children. rewrite E1, E2. pose proof (running_count (r_system r)). lia.
Qed.
