(** Streams that stay open. *)
From Coq Require Import Permutation.
From Verif Require Import Base ParseModel ParseSpec WireModel SslModel LveModel MemModel MemSpec MemProofs MemLve.

(** Sequences that close no stream: every one opened stays. *)
Definition closes (t : list mem) : bool :=
  existsb (fun m => match m with Release (Stream _) => true | _ => false end) t.
Definition opened (t : list mem) : nat :=
  length (filter (fun m => match m with Get (Stream _) => true | _ => false end) t).

Lemma closes_app a b : closes (a ++ b) = closes a || closes b.
Proof. apply existsb_app. Qed.
Lemma opened_app a b : opened (a ++ b) = opened a + opened b.
Proof. unfold opened. rewrite filter_app, app_length. reflexivity. Qed.

Lemma streams_remove n l : streams (remove res_eq_dec (Block n) l) = streams l.
Proof.
  induction l as [|r l IH]; [reflexivity|]. cbn [remove]. destruct (res_eq_dec (Block n) r) as [<-|N].
  - exact IH.
  - cbn [streams filter]. destruct r; [exact IH|]. f_equal. exact IH.
Qed.
Lemma streams_run t : forall l, closes t = false -> length (streams (run_mem l t)) = opened t + length (streams l).
Proof.
  induction t as [|m t IH]; intros l H; [reflexivity|].
  change (run_mem l (m :: t)) with (run_mem (after l m) t). change (m :: t) with ([m] ++ t) in *.
  rewrite closes_app in H. rewrite opened_app. apply orb_false_iff in H as [H1 H2]. rewrite (IH _ H2).
  destruct m as [[n|n]|[n|n]|[n|n]]; try discriminate H1; cbn [after]; rewrite ?streams_remove.
  2:{ change (streams (Stream n :: l)) with (Stream n :: streams l). change (opened [Get (Stream n)]) with 1. cbn [length]. lia. }
  1: change (streams (Block n :: l)) with (streams l).
  all: match goal with |- context[opened [?x]] => change (opened [x]) with 0 end; lia.
Qed.

(** What one computation does with streams. *)
Definition opens {A} (k : nat) (m : T A) (a : A) : Prop :=
  forall n, let '(t, b, _) := m n in closes t = false /\ opened t = k /\ b = a.

Lemma opens_bind {A C} j k (m : T A) a (f : A -> T C) c : opens j m a -> opens k (f a) c -> opens (j + k) (tbind m f) c.
Proof.
  intros H1 H2 n. unfold tbind. specialize (H1 n). destruct (m n) as [[t b] n1]. destruct H1 as (C1 & O1 & ->).
  specialize (H2 n1). destruct (f a n1) as [[t2 b2] n2]. destruct H2 as (C2 & O2 & ->).
  rewrite closes_app, C1, C2, opened_app, O1, O2. auto.
Qed.

(** The tool asks for a file that is larger than the memory. *)
Definition lined (s : bytes) : bytes := s ++ [LF].
Definition scarce : env unit :=
  {| e_alloc := fun n => (n <? 1000000)%Z;
     e_cr_create := fun _ => Some tt;
     e_decrypt := fun d _ f => Ok (d, Some f);
     e_lic_new := fun _ => Granted;
     e_checkout := fun _ => Granted;
     e_checkin := fun _ => Granted;
     e_stat := fun p => if beq p (B "/lib") then StatDir else StatFails;
     e_file := fun p => if beq p (B "/lib/big.mo") then Content 5000000 [] None else NoOpen (B "No such file") |}.
Definition hear (r : bytes) : round unit :=
  {| r_env := scarce; r_reads := [RData r 0 false]; r_shutdown := false |}.
Definition asks_big : round unit := hear (lined (B "FILE 6") ++ B "big.mo").
Definition hello_rounds : list (round unit) := [hear (lined (B "VERSION 1")); hear (lined (B "LIB 5") ++ B "/lib/")].
Definition shop : config := {| cfg_keys := [B "key1"]; cfg_global := None |}.

Definition at_work : lve unit :=
  {| s_phase := P_LICENSE; s_lib := Some (B "/lib"); s_approved := true; s_err := 0; s_errmsg := None;
     s_lic := false; s_cr := Some tt; s_buf := [] |}.

Definition with_two (a b : nat) : ptrs := {| q_lib := Some (Block a); q_cr := Some (Block b); q_lic := None; q_err := NoText |}.

Lemma big_step : exists es, lve_step shop scarce at_work (lined (B "FILE 6") ++ B "big.mo") = (es, Ok at_work).
Proof. eexists. vm_compute. reflexivity. Qed.

Lemma big_round a b k l : opens k (m_loop shop at_work (with_two a b) l) (with_two a b) ->
  opens (S k) (m_loop shop at_work (with_two a b) (asks_big :: l)) (with_two a b).
Proof.
  intros H. cbn [m_loop]. intros n.
  assert (R : exists t p n1, m_ssl_read (e_alloc (r_env asks_big)) 0 None (r_reads asks_big) n = (t, Some (Block p), n1) /\
    closes t = false /\ opened t = 0).
  { eexists _, _, _. split; [vm_compute; reflexivity|]. split; reflexivity. }
  destruct R as (t & p & n1 & R & C1 & O1). unfold tbind at 1. rewrite R.
  replace (ssl_read_message (e_alloc (r_env asks_big)) (r_reads asks_big)) with
    (Ok (MsgOk (lined (B "FILE 6") ++ B "big.mo"), @nil bytes, @nil rev_ev)) by (vm_compute; reflexivity).
  destruct big_step as (es & ST). change (r_env asks_big) with scarce. rewrite ST.
  assert (P : opens 1 (m_step shop scarce at_work (with_two a b) (Block p) (lined (B "FILE 6") ++ B "big.mo")) (with_two a b)).
  { intros j. vm_compute. auto. }
  change (r_shutdown asks_big) with false. cbv iota.
  pose proof (opens_bind _ _ _ _ (fun q1 => m_loop shop at_work q1 l) _ P H n1) as HB.
  destruct (tbind _ _ n1) as [[t2 q2] n2]. destruct HB as (C2 & O2 & E2).
  rewrite closes_app, C1, C2, opened_app, O1, O2. auto.
Qed.

Lemma big_rounds a b n : opens n (m_loop shop at_work (with_two a b) (repeat asks_big n)) (with_two a b).
Proof. induction n as [|n IH]; [intros j; cbn; auto|]. apply (big_round a b n _ IH). Qed.

(** The session: VERSION, LIB, and n times FILE. *)
Definition leaky (n : nat) : list (round unit) := hello_rounds ++ repeat asks_big n.

Lemma loop_cons {D} cfg (s s1 : lve D) q q1 r l rec fr rest es n t1 p n1 t2 n2 :
  m_ssl_read (e_alloc (r_env r)) 0 None (r_reads r) n = (t1, Some p, n1) ->
  ssl_read_message (e_alloc (r_env r)) (r_reads r) = Ok (MsgOk rec, fr, rest) ->
  lve_step cfg (r_env r) s rec = (es, Ok s1) ->
  m_step cfg (r_env r) s q p rec n1 = (t2, q1, n2) -> r_shutdown r = false ->
  m_loop cfg s q (r :: l) n = let '(t3, q3, n3) := m_loop cfg s1 q1 l n2 in (t1 ++ t2 ++ t3, q3, n3).
Proof.
  intros H1 H2 H3 H4 H5. cbn [m_loop]. unfold tbind at 1. rewrite H1, H2, H3, H5. unfold tbind. rewrite H4.
  destruct (m_loop cfg s1 q1 l n2) as [[t3 q3] n3]. reflexivity.
Qed.

(** The two first rounds, computed. *)
Definition w0 : lve unit := set_approved (@fresh unit) true.
Definition w1 : lve unit := set_phase w0 P_TOOLS.
Definition r1 : bytes := lined (B "VERSION 1").
Definition r2 : bytes := lined (B "LIB 5") ++ B "/lib/".
Definition read1 := Eval vm_compute in m_ssl_read (e_alloc scarce) 0 None [RData r1 0 false] 0.
Definition step1 := Eval vm_compute in m_step shop scarce w0 no_ptrs (Block 0) r1 (snd read1).
Definition read2 := Eval vm_compute in m_ssl_read (e_alloc scarce) 0 None [RData r2 0 false] (snd step1).
Definition got2 := Eval vm_compute in match snd (fst read2) with Some p => p | None => Block 0 end.
Definition step2 := Eval vm_compute in m_step shop scarce w1 no_ptrs got2 r2 (snd read2).
Definition lib2 := Eval vm_compute in match q_lib (snd (fst step2)) with Some (Block n) => n | _ => 0 end.
Definition cr2 := Eval vm_compute in match q_cr (snd (fst step2)) with Some (Block n) => n | _ => 0 end.

Lemma first_rounds l : m_session shop (Some (B "key1")) (hello_rounds ++ l) 0 =
  let '(t3, q3, n3) := m_loop shop at_work (with_two lib2 cr2) l (snd step2) in
  (fst (fst read1) ++ fst (fst step1) ++ fst (fst read2) ++ fst (fst step2) ++ t3, q3, n3).
Proof.
  assert (V : validate_pubkey shop (Some (B "key1")) (@fresh unit) = ([], Ok w0)) by (vm_compute; reflexivity).
  unfold m_session. rewrite V. change (with_err no_ptrs _) with no_ptrs.
  change (hello_rounds ++ l) with (hear r1 :: hear r2 :: l).
  assert (S1 : lve_step shop scarce w0 r1 = (fst (lve_step shop scarce w0 r1), Ok w1)) by (vm_compute; reflexivity).
  assert (S2 : lve_step shop scarce w1 r2 = (fst (lve_step shop scarce w1 r2), Ok at_work)) by (vm_compute; reflexivity).
  rewrite (loop_cons shop w0 w1 no_ptrs no_ptrs (hear r1) (hear r2 :: l) r1 [] [] _ 0 (fst (fst read1)) (Block 0) (snd read1)
    (fst (fst step1)) (snd step1) ltac:(vm_compute; reflexivity) ltac:(vm_compute; reflexivity) S1
    ltac:(vm_compute; reflexivity) eq_refl).
  rewrite (loop_cons shop w1 at_work no_ptrs (with_two lib2 cr2) (hear r2) l r2 [] [] _ (snd step1) (fst (fst read2)) got2 (snd read2)
    (fst (fst step2)) (snd step2) ltac:(vm_compute; reflexivity) ltac:(vm_compute; reflexivity) S2
    ltac:(vm_compute; reflexivity) eq_refl).
  destruct (m_loop shop at_work (with_two lib2 cr2) l (snd step2)) as [[t3 q3] n3].
  reflexivity.
Qed.

Lemma leaky_session n : exists t q n1, m_session shop (Some (B "key1")) (leaky n) 0 = (t, q, n1) /\
  closes t = false /\ opened t = n /\ exists a b, q = with_two a b.
Proof.
  unfold leaky. rewrite first_rounds. pose proof (big_rounds lib2 cr2 n (snd step2)) as HB.
  destruct (m_loop shop at_work (with_two lib2 cr2) (repeat asks_big n) (snd step2)) as [[t3 q3] n3].
  destruct HB as (C3 & O3 & ->). eexists _, _, _. split; [reflexivity|].
  rewrite !closes_app, !opened_app, C3, O3. split; [reflexivity|]. split; [reflexivity|].
  eexists _, _. reflexivity.
Qed.

Lemma leaky_streams n : length (streams (held (process_memory shop (Some (B "key1")) (leaky n)))) = n.
Proof.
  unfold process_memory, tbind. destruct (leaky_session n) as (t & q & n1 & E & C & O & (a & b & ->)). rewrite E.
  cbn [m_shutdown with_two q_lic q_lib release tbind]. unfold m_shutdown, tbind. cbn [with_two q_lic q_lib release app].
  change (held (t ++ [Release (Block a)])) with (run_mem [] (t ++ [Release (Block a)])).
  rewrite streams_run.
  - rewrite opened_app, O. cbn. lia.
  - rewrite closes_app, C. reflexivity.
Qed.
