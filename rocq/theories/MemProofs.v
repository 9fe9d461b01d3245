(** Proofs about the use of memory by the LVE. *)
From Coq Require Import Permutation.
From Verif Require Import Base ParseModel ParseSpec WireModel SslModel LveModel LveSpec LveProofs MemModel MemSpec.

(** ** sequences of calls *)

Definition okm (l : list res) (m : mem) : Prop :=
  match m with Get r => ~ In r l | Touch r | Release r => In r l end.
Fixpoint safe (k : nat) (l : list res) (t : list mem) : Prop :=
  length l <= k /\
  match t with
  | [] => True
  | m :: r => okm l m /\ safe k (after l m) r
  end.
Definition run_mem (l : list res) (t : list mem) : list res := fold_left after t l.

Lemma run_mem_app l t1 t2 : run_mem l (t1 ++ t2) = run_mem (run_mem l t1) t2.
Proof. apply fold_left_app. Qed.

Lemma safe_app k t1 : forall l t2, safe k l t1 -> safe k (run_mem l t1) t2 -> safe k l (t1 ++ t2).
Proof.
  induction t1 as [|m t1 IH]; intros l t2 H1 H2; [exact H2|].
  destruct H1 as (H & H3 & H4). cbn. split; [exact H|]. split; [exact H3|]. apply IH; assumption.
Qed.

Lemma safe_proper k t : forall l, safe k l t -> forall before m rest, t = before ++ m :: rest ->
  okm (run_mem l before) m.
Proof.
  induction t as [|x t IH]; intros l H before m rest E.
  - destruct before; discriminate.
  - destruct H as (_ & H1 & H2). destruct before as [|y before].
    + injection E as -> ->. exact H1.
    + injection E as -> ->. cbn. apply (IH _ H2 _ _ _ eq_refl).
Qed.

Lemma safe_bound k t : forall l, safe k l t -> forall before rest, t = before ++ rest ->
  length (run_mem l before) <= k.
Proof.
  induction t as [|x t IH]; intros l [H H0] before rest E.
  - destruct before; [exact H|discriminate].
  - destruct before as [|y before]; [exact H|]. injection E as -> ->.
    destruct H0 as [_ H0]. exact (IH _ H0 _ _ eq_refl).
Qed.

Lemma safe_weak k k' t : k <= k' -> forall l, safe k l t -> safe k' l t.
Proof.
  intros K. induction t as [|x t IH]; intros l [H H0]; (split; [lia|]); [exact I|].
  destruct H0. split; auto.
Qed.

Lemma remove_perm r l l' : Permutation l l' -> Permutation (remove res_eq_dec r l) (remove res_eq_dec r l').
Proof.
  induction 1 as [|x l l' H IH|x y l|l1 l2 l3 H1 IH1 H2 IH2]; cbn.
  - constructor.
  - destruct (res_eq_dec r x); auto.
  - destruct (res_eq_dec r y), (res_eq_dec r x); auto. apply perm_swap.
  - eapply perm_trans; eauto.
Qed.
Lemma after_perm m l l' : Permutation l l' -> Permutation (after l m) (after l' m).
Proof. intros H. destruct m; cbn; auto using remove_perm. Qed.
Lemma run_perm t : forall l l', Permutation l l' -> Permutation (run_mem l t) (run_mem l' t).
Proof. induction t as [|m t IH]; intros l l' H; [exact H|]. cbn. apply IH, after_perm, H. Qed.
Lemma okm_perm m l l' : Permutation l l' -> okm l m -> okm l' m.
Proof.
  intros H. destruct m; cbn; try (apply Permutation_in, H).
  intros H1 H2. apply H1. revert H2. apply Permutation_in, Permutation_sym, H.
Qed.
Lemma safe_perm k t : forall l l', Permutation l l' -> safe k l t -> safe k l' t.
Proof.
  induction t as [|m t IH]; intros l l' H [H1 H2];
    (split; [rewrite <- (Permutation_length H); exact H1|]); [exact I|].
  destruct H2 as [H2 H3]. split; [apply (okm_perm _ _ _ H H2)|].
  apply (IH _ _ (after_perm _ _ _ H) H3).
Qed.

(** ** triples *)

Definition num (r : res) : nat := match r with Block n | Stream n => n end.
Definition below (n : nat) (l : list res) : Prop := forall r, In r l -> num r < n.

(** From a state where [pre] is held (and something else), [m] only does what is allowed,
    holds at most [k] of its own at any time, and ends with [o] in place of [pre]. *)
Definition mt {A} (k : nat) (pre : list res) (m : T A) (post : A -> list res -> Prop) : Prop :=
  forall F n, below n (pre ++ F) -> NoDup (pre ++ F) ->
    let '(t, a, n') := m n in
    exists o, post a o /\ Permutation (run_mem (pre ++ F) t) (o ++ F) /\
      safe (k + length F) (pre ++ F) t /\ n <= n' /\ below n' (o ++ F) /\ NoDup (o ++ F).

Lemma below_perm n l l' : Permutation l l' -> below n l -> below n l'.
Proof. intros H B r Hr. apply B. apply (Permutation_in _ (Permutation_sym H) Hr). Qed.

Lemma mt_bind {A C} k pre (m : T A) (f : A -> T C) mid post :
  mt k pre m mid -> (forall a o, mid a o -> mt k o (f a) post) -> mt k pre (tbind m f) post.
Proof.
  intros H1 H2 F n B N. unfold tbind. specialize (H1 F n B N). destruct (m n) as [[t1 a] n1].
  destruct H1 as (o & P & R1 & S1 & L1 & B1 & N1).
  specialize (H2 a o P F n1 B1 N1). destruct (f a n1) as [[t2 b] n2].
  destruct H2 as (o2 & P2 & R2 & S2 & L2 & B2 & N2).
  exists o2. split; [exact P2|]. split.
  { rewrite run_mem_app. eapply perm_trans; [apply run_perm, R1|exact R2]. }
  split; [apply safe_app; [exact S1|]; apply (safe_perm _ _ _ _ (Permutation_sym R1) S2)|].
  split; [lia|]. split; assumption.
Qed.

Lemma mt_perm {A} k pre pre' (m : T A) post : Permutation pre pre' -> mt k pre' m post -> mt k pre m post.
Proof.
  intros H M F n B N.
  assert (HF : Permutation (pre ++ F) (pre' ++ F)) by (apply Permutation_app_tail, H).
  specialize (M F n (below_perm _ _ _ HF B) (Permutation_NoDup HF N)). destruct (m n) as [[t a] n'].
  destruct M as (o & P & R & S1 & L & B1 & N1). exists o. split; [exact P|].
  split; [eapply perm_trans; [apply run_perm, HF|exact R]|].
  split; [apply (safe_perm _ _ _ _ (Permutation_sym HF) S1)|]. auto.
Qed.

Lemma mt_conseq {A} k k' pre (m : T A) (post post' : A -> list res -> Prop) :
  mt k pre m post -> k <= k' -> (forall a o, post a o -> exists o', Permutation o o' /\ post' a o') ->
  mt k' pre m post'.
Proof.
  intros M K H F n B N. specialize (M F n B N). destruct (m n) as [[t a] n'].
  destruct M as (o & P & R & S1 & L & B1 & N1). destruct (H a o P) as (o' & E & P').
  assert (HF : Permutation (o ++ F) (o' ++ F)) by (apply Permutation_app_tail, E).
  exists o'. split; [exact P'|]. split; [eapply perm_trans; eauto|].
  split; [eapply safe_weak; [|exact S1]; lia|]. split; [exact L|].
  split; [apply (below_perm _ _ _ HF B1)|apply (Permutation_NoDup HF N1)].
Qed.

Lemma mt_frame {A} k pre R (m : T A) (post : A -> list res -> Prop) :
  mt k pre m post ->
  mt (k + length R) (pre ++ R) m (fun a o => exists o1, o = o1 ++ R /\ post a o1).
Proof.
  intros M F n B N. rewrite <- app_assoc in *.
  specialize (M (R ++ F) n B N). destruct (m n) as [[t a] n'].
  destruct M as (o & P & R1 & S1 & L & B1 & N1). exists (o ++ R). rewrite <- app_assoc.
  split; [exists o; auto|]. split; [exact R1|]. split; [|auto].
  eapply safe_weak; [|exact S1]. rewrite app_length. lia.
Qed.

Lemma mt_ret {A} k pre (a : A) (post : A -> list res -> Prop) o :
  length pre <= k -> Permutation pre o -> post a o -> mt k pre (tret a) post.
Proof.
  intros K E P F n B N. cbn.
  assert (HF : Permutation (pre ++ F) (o ++ F)) by (apply Permutation_app_tail, E).
  exists o. split; [exact P|]. split; [exact HF|].
  split; [split; [rewrite app_length; lia|exact I]|]. split; [lia|].
  split; [apply (below_perm _ _ _ HF B)|apply (Permutation_NoDup HF N)].
Qed.

Lemma mt_malloc k pre ok : length pre < k ->
  mt k pre (malloc ok) (fun p o => match p with
                                   | Some r => ok = true /\ (exists n, r = Block n) /\ o = r :: pre
                                   | None => ok = false /\ o = pre end).
Proof.
  intros K F n B N. unfold malloc. destruct ok; cbn.
  - exists (Block n :: pre). split; [split; [reflexivity|]; split; [eexists; reflexivity|reflexivity]|].
    assert (Hn : ~ In (Block n) (pre ++ F)) by (intros H; apply B in H; cbn in H; lia).
    split; [constructor; reflexivity|]. split.
    { rewrite app_length. split; [lia|]. split; [exact Hn|]. split; [lia|exact I]. }
    split; [lia|]. split; [|constructor; assumption].
    intros r [<-|H]; [cbn; lia|]. apply B in H. lia.
  - exists pre. split; [auto|]. split; [reflexivity|]. split; [split; [rewrite app_length; lia|exact I]|].
    split; [lia|]. split; assumption.
Qed.

Lemma mt_fopen k pre : length pre < k ->
  mt k pre fopen (fun r o => (exists n, r = Stream n) /\ o = r :: pre).
Proof.
  intros K F n B N. cbn.
  exists (Stream n :: pre). split; [split; [eexists; reflexivity|reflexivity]|].
  assert (Hn : ~ In (Stream n) (pre ++ F)) by (intros H; apply B in H; cbn in H; lia).
  split; [constructor; reflexivity|]. split.
  { rewrite app_length. split; [lia|]. split; [exact Hn|]. split; [lia|exact I]. }
  split; [lia|]. split; [|constructor; assumption].
  intros r [<-|H]; [cbn; lia|]. apply B in H. lia.
Qed.

Definition olist {A} (p : option A) : list A := match p with Some r => [r] | None => [] end.

Lemma mt_touch k rest p : length (olist p ++ rest) <= k ->
  mt k (olist p ++ rest) (touch p) (fun _ o => o = olist p ++ rest).
Proof.
  intros K F n B N. destruct p as [r|]; cbn in *; [exists (r :: rest)|exists rest].
  - split; [reflexivity|]. split; [reflexivity|]. split; [|auto].
    rewrite app_length. split; [lia|]. split; [now left|]. split; [lia|exact I].
  - split; [reflexivity|]. split; [reflexivity|]. split; [|auto].
    rewrite app_length. split; [lia|exact I].
Qed.

Lemma remove_notin r l : ~ In r l -> remove res_eq_dec r l = l.
Proof. apply notin_remove. Qed.

Lemma mt_release k rest p : length (olist p ++ rest) <= k ->
  mt k (olist p ++ rest) (release p) (fun _ o => o = rest).
Proof.
  intros K F n B N. destruct p as [r|]; cbn in *; exists rest.
  - split; [reflexivity|]. inversion N as [|x l N1 N2]; subst.
    destruct (res_eq_dec r r) as [_|H]; [|contradiction].
    rewrite (remove_notin _ _ N1). split; [reflexivity|]. split.
    { rewrite app_length. split; [lia|]. split; [now left|].
      split; [lia|exact I]. }
    split; [lia|]. split; [|exact N2]. intros x H. apply B. now right.
  - split; [reflexivity|]. split; [reflexivity|]. split; [|auto].
    rewrite app_length. split; [lia|exact I].
Qed.

Lemma mt_error_new k pre : S (length pre) < k ->
  mt k pre m_error_new (fun e o => (exists n, fst e = Block n /\ snd e = Block (S n)) /\ o = fst e :: snd e :: pre).
Proof.
  intros K F n B N. cbn.
  exists (Block n :: Block (S n) :: pre). split; [split; [exists n; auto|reflexivity]|].
  assert (Hn : forall j, n <= j -> ~ In (Block j) (pre ++ F)) by (intros j Hj H; apply B in H; cbn in H; lia).
  split; [apply perm_swap|]. split.
  { rewrite app_length. split; [lia|]. split; [apply Hn; lia|]. split; [lia|].
    split; [intros [E|H]; [injection E; lia|]; revert H; apply Hn; lia|]. split; [lia|].
    split; [auto|]. split; [lia|exact I]. }
  split; [lia|]. split.
  - intros r [<-|[<-|H]]; cbn; try lia. apply B in H. lia.
  - constructor; [intros [E|H]; [injection E; lia|]; revert H; apply Hn; lia|].
    constructor; [apply Hn; lia|exact N].
Qed.

(** ** permutations by counting *)

Definition one (a x : res) : nat := if res_eq_dec a x then 1 else 0.
Definition cnt (l : list res) (x : res) : nat := count_occ res_eq_dec l x.
Lemma cnt_cons a l x : cnt (a :: l) x = one a x + cnt l x.
Proof. unfold cnt, one. cbn. destruct (res_eq_dec a x); reflexivity. Qed.
Lemma cnt_app l1 l2 x : cnt (l1 ++ l2) x = cnt l1 x + cnt l2 x.
Proof. apply count_occ_app. Qed.
Lemma cnt_nil x : cnt [] x = 0. Proof. reflexivity. Qed.
Lemma perm_cnt l l' : (forall x, cnt l x = cnt l' x) -> Permutation l l'.
Proof. intros H. apply (Permutation_count_occ res_eq_dec). exact H. Qed.
Lemma cnt_perm l l' x : Permutation l l' -> cnt l x = cnt l' x.
Proof. intros H. apply (Permutation_count_occ res_eq_dec). exact H. Qed.
Ltac perm :=
  apply perm_cnt; let x := fresh "x" in intros x;
  repeat match goal with H : Permutation _ _ |- _ => apply (cnt_perm _ _ x) in H end;
  cbn [olist app] in *;
  repeat (rewrite cnt_cons in * || rewrite cnt_app in * || rewrite cnt_nil in * );
  lia.

(** ** rules for one statement followed by the rest *)

Lemma mt_call {A C} k k1 pre pre1 R (m : T A) (f : A -> T C) mid post :
  mt k1 pre1 m mid -> Permutation pre (pre1 ++ R) -> k1 + length R <= k ->
  (forall a o, mid a o -> mt k (o ++ R) (f a) post) -> mt k pre (tbind m f) post.
Proof.
  intros M E K H. apply (mt_perm _ _ _ _ _ E).
  apply (mt_bind _ _ _ _ (fun a o => exists o1, o = o1 ++ R /\ mid a o1)).
  - eapply mt_conseq; [apply (mt_frame _ _ R _ _ M)|exact K|].
    intros a o (o1 & -> & P). exists (o1 ++ R). split; [reflexivity|].
    exists o1. auto.
  - intros a o (o1 & -> & P). apply H, P.
Qed.

Lemma mt_do_malloc {C} k pre ok (f : option res -> T C) post : length pre < k ->
  (forall n, ok = true -> mt k (Block n :: pre) (f (Some (Block n))) post) ->
  (ok = false -> mt k pre (f None) post) ->
  mt k pre (tbind (malloc ok) f) post.
Proof.
  intros K H1 H2. eapply mt_bind; [apply mt_malloc, K|]. intros [r|] o.
  - intros (E & (n & ->) & ->). apply H1, E.
  - intros (E & ->). apply H2, E.
Qed.
Lemma mt_do_fopen {C} k pre (f : res -> T C) post : length pre < k ->
  (forall n, mt k (Stream n :: pre) (f (Stream n)) post) -> mt k pre (tbind fopen f) post.
Proof. intros K H. eapply mt_bind; [apply mt_fopen, K|]. intros r o ((n & ->) & ->). apply H. Qed.
Lemma mt_do_touch {C} k pre p rest (f : unit -> T C) post :
  Permutation pre (olist p ++ rest) -> length pre <= k -> mt k pre (f tt) post ->
  mt k pre (tbind (touch p) f) post.
Proof.
  intros E K H. apply (mt_perm _ _ _ _ _ E). eapply mt_bind.
  - apply mt_touch. rewrite <- (Permutation_length E). exact K.
  - intros [] o ->. apply (mt_perm _ _ _ _ _ (Permutation_sym E) H).
Qed.
Lemma mt_do_release {C} k pre p rest (f : unit -> T C) post :
  Permutation pre (olist p ++ rest) -> length pre <= k -> mt k rest (f tt) post ->
  mt k pre (tbind (release p) f) post.
Proof.
  intros E K H. apply (mt_perm _ _ _ _ _ E). eapply mt_bind.
  - apply mt_release. rewrite <- (Permutation_length E). exact K.
  - intros [] o ->. exact H.
Qed.
Lemma mt_do_error {C} k pre (f : err_ptr -> T C) post : S (length pre) < k ->
  (forall n, mt k (Block n :: Block (S n) :: pre) (f (Block n, Block (S n))) post) ->
  mt k pre (tbind m_error_new f) post.
Proof.
  intros K H. eapply mt_bind; [apply mt_error_new, K|]. intros [a b] o ((n & E1 & E2) & ->). cbn in *. subst. apply H.
Qed.
Lemma mt_skip {A C} k pre (a : A) (f : A -> T C) post : mt k pre (f a) post -> mt k pre (tbind (tret a) f) post.
Proof.
  intros H F n B N. specialize (H F n B N). unfold tbind, tret. destruct (f a n) as [[t b] n']. exact H.
Qed.
Lemma mt_assoc {A C E} k pre (m : T A) (f : A -> T C) (g : C -> T E) post :
  mt k pre (tbind m (fun a => tbind (f a) g)) post -> mt k pre (tbind (tbind m f) g) post.
Proof.
  intros H F n B N. specialize (H F n B N). unfold tbind in *. destruct (m n) as [[t1 a] n1].
  destruct (f a n1) as [[t2 b] n2]. destruct (g b n2) as [[t3 c] n3]. rewrite app_assoc in H. exact H.
Qed.
Lemma mt_last {A} k pre (m : T A) post : mt k pre (tbind m tret) post -> mt k pre m post.
Proof.
  intros H F n B N. specialize (H F n B N). unfold tbind, tret in *. destruct (m n) as [[t a] n1].
  rewrite app_nil_r in H. exact H.
Qed.
