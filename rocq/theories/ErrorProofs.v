(** Proofs about error objects. *)
From Verif Require Import Base ErrorModel ErrorSpec.

Lemma lookup_remove h a x : lookup (remove h a) x = if x =? a then None else lookup h x.
Proof.
  induction h as [|[y b] h IH]; cbn [remove filter lookup]; [now destruct (x =? a)|].
  fold (remove h a). destruct (Nat.eqb_spec y a) as [E|N]; cbn [negb lookup]; rewrite IH;
    destruct (Nat.eqb_spec x a) as [E2|N2]; destruct (Nat.eqb_spec y x) as [E3|N3]; congruence.
Qed.
Lemma lookup_store h a b x : lookup (store h a b) x = if x =? a then Some b else lookup h x.
Proof.
  unfold store. cbn [lookup]. rewrite lookup_remove.
  destruct (Nat.eqb_spec a x) as [->|N]; [now rewrite Nat.eqb_refl|].
  destruct (Nat.eqb_spec x a); [congruence|reflexivity].
Qed.
Lemma lookup_unused h : lookup h (unused h) = None.
Proof.
  assert (K : forall n, list_max (map fst h) < n -> lookup h n = None).
  { induction h as [|[y b] h IH]; intros n H; [reflexivity|]. cbn [map list_max fst lookup] in *.
    change (list_max (y :: map fst h)) with (Nat.max y (list_max (map fst h))) in H.
    destruct (Nat.eqb_spec y n); [lia|]. apply IH. lia. }
  apply K. unfold unused. lia.
Qed.
Lemma lookup_in h a b : lookup h a = Some b -> In a (map fst h).
Proof.
  induction h as [|[y c] h IH]; [discriminate|]. cbn [lookup map In fst].
  destruct (Nat.eqb_spec y a); [now left|]. right. auto.
Qed.

Lemma chain_frame h h' p l : Chain h p l -> (forall x, In x l -> lookup h' x = lookup h x) -> Chain h' p l.
Proof.
  induction 1 as [|a e mo l La Lm _ IH]; intros H; [constructor|].
  apply (Chain_object h' a e mo l).
  - rewrite H by now left. exact La.
  - destruct (eb_message e) as [m|]; [|exact Lm]. destruct Lm as [-> [t Lt]]. split; [reflexivity|].
    exists t. rewrite H; [exact Lt|]. right. now left.
  - apply IH. intros x Hx. apply H. right. apply in_or_app. now right.
Qed.

Lemma chain_none h l : Chain h None l -> l = [].
Proof. now inversion 1. Qed.
Lemma chain_alive h p l x : Chain h p l -> In x l -> lookup h x <> None.
Proof.
  induction 1 as [|a e mo l La Lm _ IH]; intros H; [destruct H|].
  destruct H as [<-|H]; [congruence|]. apply in_app_or in H as [H|H]; [|auto].
  destruct (eb_message e) as [m|]; [|subst mo; destruct H].
  destruct Lm as [-> [t Lt]]. destruct H as [<-|[]]. congruence.
Qed.

Lemma deref_at h a e : lookup h a = Some (EBlock e) -> deref h (Some a) = Ok e.
Proof. intros H. unfold deref. now rewrite H. Qed.
Lemma nodup_app_parts (m l : list addr) : NoDup (m ++ l) -> NoDup l /\ (forall x, In x m -> ~ In x l).
Proof.
  induction m as [|y m IH]; cbn [app]; intros H; [split; [exact H|intros x []]|].
  apply NoDup_cons_iff in H as [Ny H]. destruct (IH H) as [H1 H2]. split; [exact H1|].
  intros x [<-|Hx]; [|now apply H2]. intros K. apply Ny, in_or_app. now right.
Qed.

(** ** freeing *)

Lemma error_free_chain p l : forall h fuel, Chain h p l -> NoDup l -> length l <= fuel ->
  exists h', error_free fuel h p = Ok h' /\
    (forall x, lookup h' x = if in_dec Nat.eq_dec x l then None else lookup h x).
Proof.
  intros h fuel C. revert fuel.
  induction C as [|a e mo l La Lm C IH]; intros fuel ND F.
  - exists h. split; [destruct fuel; reflexivity|]. intros x. destruct (in_dec Nat.eq_dec x []) as [[]|]; reflexivity.
  - destruct fuel as [|f]; [cbn in F; lia|]. cbn [length] in F. rewrite app_length in F.
    apply NoDup_cons_iff in ND as [Na ND].
    assert (NDl : NoDup l /\ (forall x, In x mo -> ~ In x l)).
    { exact (nodup_app_parts mo l ND). }
    destruct NDl as [NDl Dis].
    assert (Nal : ~ In a l) by (intros K; apply Na, in_or_app; now right).
    cbn [error_free]. rewrite (deref_at _ _ _ La). cbn [bind].
    assert (S1 : exists h1, match eb_cause e with
               | None => Ok h
               | Some c =>
                   do h' <- error_free f h (Some c) ;
                   do e' <- deref h' (Some a) ;
                   Ok (store h' a (EBlock {| eb_domain := eb_domain e'; eb_code := eb_code e';
                                             eb_cause := None; eb_message := eb_message e' |}))
               end = Ok h1 /\
       (exists e1, lookup h1 a = Some (EBlock e1) /\ eb_message e1 = eb_message e) /\
       (forall x, x <> a -> lookup h1 x = if in_dec Nat.eq_dec x l then None else lookup h x)).
    { destruct (eb_cause e) as [c|] eqn:Ec.
      - destruct (IH f NDl ltac:(lia)) as (h' & E & H). rewrite E. cbn [bind].
        assert (La' : lookup h' a = Some (EBlock e))
          by (rewrite (H a); destruct (in_dec Nat.eq_dec a l); [contradiction|exact La]).
        rewrite (deref_at _ _ _ La'). cbn [bind].
        eexists. split; [reflexivity|]. split.
        + rewrite lookup_store, Nat.eqb_refl. eexists. split; reflexivity.
        + intros x Hx. rewrite lookup_store. destruct (Nat.eqb_spec x a); [contradiction|]. apply H.
      - exists h. split; [reflexivity|]. split; [eauto|]. inversion C; subst.
        intros x _. destruct (in_dec Nat.eq_dec x []) as [[]|]; reflexivity. }
    destruct S1 as (h1 & -> & (e1 & L1 & M1) & H1). cbn [bind]. rewrite (deref_at _ _ _ L1). cbn [bind]. rewrite M1.
    destruct (eb_message e) as [m|].
    + destruct Lm as [-> [t Lt]]. assert (Nm : m <> a) by (intros ->; apply Na; now left).
      assert (Nml : ~ In m l) by (apply Dis; now left).
      cbn [free_ptr]. rewrite (H1 m Nm). destruct (in_dec Nat.eq_dec m l); [contradiction|]. rewrite Lt. cbn [bind free_ptr].
      rewrite lookup_remove. destruct (Nat.eqb_spec a m); [congruence|]. rewrite L1.
      eexists. split; [reflexivity|]. intros x. rewrite !lookup_remove.
      destruct (in_dec Nat.eq_dec x (a :: [m] ++ l)) as [I|I].
      * destruct (Nat.eqb_spec x a); [reflexivity|]. destruct (Nat.eqb_spec x m); [reflexivity|].
        rewrite H1 by assumption. destruct (in_dec Nat.eq_dec x l) as [|K]; [reflexivity|].
        exfalso. cbn in I. intuition.
      * destruct (Nat.eqb_spec x a); [subst; cbn in I; tauto|]. destruct (Nat.eqb_spec x m); [subst; cbn in I; tauto|].
        rewrite H1 by assumption. destruct (in_dec Nat.eq_dec x l) as [K|K]; [|reflexivity].
        exfalso. apply I. right. right. exact K.
    + subst mo. cbn [free_ptr bind]. rewrite L1. eexists. split; [reflexivity|]. intros x. rewrite lookup_remove.
      destruct (in_dec Nat.eq_dec x (a :: [] ++ l)) as [I|I].
      * destruct (Nat.eqb_spec x a); [reflexivity|].
        rewrite H1 by assumption. destruct (in_dec Nat.eq_dec x l) as [|K]; [reflexivity|].
        exfalso. cbn in I. intuition.
      * destruct (Nat.eqb_spec x a); [subst; cbn in I; tauto|].
        rewrite H1 by assumption. destruct (in_dec Nat.eq_dec x l) as [K|K]; [|reflexivity].
        exfalso. apply I. right. exact K.
Qed.

Lemma free_error_chain h p l : Chain h p l -> NoDup l ->
  exists h', free_error h p = Ok h' /\
    (forall x, lookup h' x = if in_dec Nat.eq_dec x l then None else lookup h x).
Proof.
  intros C ND. apply (error_free_chain p l h _ C ND).
  rewrite <- (map_length fst h). apply NoDup_incl_length; [exact ND|].
  intros x Hx. pose proof (chain_alive h p l x C Hx) as K.
  destruct (lookup h x) eqn:E; [|congruence]. now apply lookup_in in E.
Qed.

Lemma free_exact h p l : Chain h p l -> NoDup l ->
  exists h', free_error h p = Ok h' /\
    (forall x, In x l -> lookup h' x = None) /\ (forall x, ~ In x l -> lookup h' x = lookup h x).
Proof.
  intros C ND. destruct (free_error_chain h p l C ND) as (h' & E & H). exists h'. split; [exact E|].
  split; intros x Hx; rewrite H; destruct (in_dec Nat.eq_dec x l); tauto.
Qed.

(** ** making *)

Lemma new_object_chain h d c m : exists h' a l,
  new_object h d c m = (h', Some a) /\ Chain h' (Some a) l /\ NoDup l /\
  (forall x, In x l -> lookup h x = None) /\ (forall x, ~ In x l -> lookup h' x = lookup h x) /\
  get_domain h' (Some a) = Ok d /\ get_code h' (Some a) = Ok c /\ get_cause h' (Some a) = Ok None /\
  match m with Some t => Text h' (Some a) t | None => get_message h' (Some a) = Ok None end.
Proof.
  unfold new_object. pose proof (lookup_unused h) as U. set (a := unused h) in *.
  set (e0 := {| eb_domain := d; eb_code := c; eb_cause := None; eb_message := None |}).
  destruct m as [t|].
  - pose proof (lookup_unused (store h a (EBlock e0))) as U2.
    set (b := unused (store h a (EBlock e0))) in *. rewrite lookup_store in U2.
    destruct (Nat.eqb_spec b a) as [|N]; [discriminate|].
    set (e1 := {| eb_domain := d; eb_code := c; eb_cause := None; eb_message := Some b |}).
    set (h' := store (store (store h a (EBlock e0)) b (SBlock t)) a (EBlock e1)).
    assert (La : lookup h' a = Some (EBlock e1)) by (unfold h'; now rewrite lookup_store, Nat.eqb_refl).
    assert (Lb : lookup h' b = Some (SBlock t)).
    { unfold h'. rewrite !lookup_store, Nat.eqb_refl. destruct (Nat.eqb_spec b a); [contradiction|reflexivity]. }
    exists h', a, (a :: [b] ++ []). split; [reflexivity|]. split.
    { apply (Chain_object h' a e1 [b] []); [exact La|split; [reflexivity|eauto]|constructor]. }
    split; [repeat constructor; cbn; intuition congruence|].
    split; [intros x [<-|[<-|[]]]; assumption|].
    split.
    { intros x Hx. unfold h'. rewrite !lookup_store. destruct (Nat.eqb_spec x a); [subst; cbn in Hx; tauto|].
      destruct (Nat.eqb_spec x b); [subst; cbn in Hx; tauto|]. reflexivity. }
    unfold get_domain, get_code, get_cause, Text, get_message. cbn [deref]. rewrite La. cbn [bind].
    repeat split. exists b. auto.
  - set (h' := store h a (EBlock e0)).
    assert (La : lookup h' a = Some (EBlock e0)) by (unfold h'; now rewrite lookup_store, Nat.eqb_refl).
    exists h', a, (a :: [] ++ []). split; [reflexivity|]. split.
    { apply (Chain_object h' a e0 [] []); [exact La|reflexivity|constructor]. }
    split; [repeat constructor; cbn; tauto|]. split; [intros x [<-|[]]; assumption|].
    split.
    { intros x Hx. unfold h'. rewrite lookup_store. destruct (Nat.eqb_spec x a); [subst; cbn in Hx; tauto|]. reflexivity. }
    unfold get_domain, get_code, get_cause, get_message. cbn [deref]. rewrite La. cbn [bind]. auto.
Qed.

Lemma error_new_ok h d c t : exists h' a l,
  error_new true true h d c t = (h', Some a) /\ Chain h' (Some a) l /\ NoDup l /\
  get_domain h' (Some a) = Ok d /\ get_code h' (Some a) = Ok c /\ get_cause h' (Some a) = Ok None /\
  Text h' (Some a) (firstn 2047 t).
Proof.
  destruct (new_object_chain h d c (Some (snprintf MSG_SIZE t))) as (h' & a & l & E & C & ND & _ & _ & G1 & G2 & G3 & T).
  exists h', a, l. split; [exact E|]. auto 10.
Qed.
Lemma error_literal_ok h d c t : exists h' a l,
  error_new_literal true true h d c (Some t) = (h', Some a) /\ Chain h' (Some a) l /\ NoDup l /\
  get_domain h' (Some a) = Ok d /\ get_code h' (Some a) = Ok c /\ get_cause h' (Some a) = Ok None /\
  Text h' (Some a) t.
Proof.
  destruct (new_object_chain h d c (Some t)) as (h' & a & l & E & C & ND & _ & _ & G1 & G2 & G3 & T).
  exists h', a, l. split; [exact E|]. auto 10.
Qed.

(** ** programs *)

Record owns (h : heap) (v : vars) (own : nat -> list addr) : Prop := {
  o_chain : forall i, Chain h (v i) (own i);
  o_nodup : forall i, NoDup (own i);
  o_apart : forall i j x, In x (own i) -> In x (own j) -> i = j }.
Definition all_owned (h : heap) (own : nat -> list addr) : Prop :=
  forall x, lookup h x <> None -> exists i, In x (own i).

Definition give (own : nat -> list addr) (i : nat) (l : list addr) : nat -> list addr :=
  fun j => if j =? i then l else own j.

Lemma owns_free h v own i : owns h v own ->
  exists h', free_error h (v i) = Ok h' /\ owns h' (assign v i None) (give own i []) /\
    (all_owned h own -> all_owned h' (give own i [])).
Proof.
  intros O. destruct (free_exact h (v i) (own i) (o_chain _ _ _ O i) (o_nodup _ _ _ O i)) as (h' & E & F1 & F2).
  exists h'. split; [exact E|]. split.
  - split.
    + intros j. unfold assign, give. destruct (Nat.eqb_spec j i) as [->|N]; [constructor|].
      apply (chain_frame h); [apply (o_chain _ _ _ O)|]. intros x Hx. apply F2. intros K.
      apply N. exact (o_apart _ _ _ O j i x Hx K).
    + intros j. unfold give. destruct (j =? i); [constructor|apply (o_nodup _ _ _ O)].
    + intros j k x. unfold give. destruct (j =? i); [intros []|]. destruct (k =? i); [intros _ []|].
      apply (o_apart _ _ _ O).
  - intros A x Hx. destruct (in_dec Nat.eq_dec x (own i)) as [K|K]; [rewrite F1 in Hx by exact K; congruence|].
    rewrite F2 in Hx by exact K. destruct (A x Hx) as [j Hj]. exists j. unfold give.
    destruct (Nat.eqb_spec j i) as [->|N]; [contradiction|exact Hj].
Qed.

Lemma owns_new h v own i h' p l :
  owns h v own -> Chain h' p l -> NoDup l -> (forall x, In x l -> lookup h x = None) ->
  (forall x, ~ In x l -> lookup h' x = lookup h x) ->
  owns h' (assign v i p) (give own i l) /\
  (v i = None -> all_owned h own -> all_owned h' (give own i l)).
Proof.
  intros O C ND Fr Sm.
  assert (Ap : forall j x, In x (own j) -> ~ In x l).
  { intros j x Hx Hl. apply (chain_alive _ _ _ _ (o_chain _ _ _ O j) Hx). now apply Fr. }
  split.
  - split.
    + intros j. unfold assign, give. destruct (Nat.eqb_spec j i) as [->|N]; [exact C|].
      apply (chain_frame h); [apply (o_chain _ _ _ O)|]. intros x Hx. apply Sm. exact (Ap j x Hx).
    + intros j. unfold give. destruct (j =? i); [exact ND|apply (o_nodup _ _ _ O)].
    + intros j k x. unfold give. destruct (Nat.eqb_spec j i), (Nat.eqb_spec k i); subst; auto.
      * intros H1 H2. destruct (Ap k x H2 H1).
      * intros H1 H2. destruct (Ap j x H1 H2).
      * apply (o_apart _ _ _ O).
  - intros V A x Hx. destruct (in_dec Nat.eq_dec x l) as [K|K].
    + exists i. unfold give. now rewrite Nat.eqb_refl.
    + rewrite Sm in Hx by exact K. destruct (A x Hx) as [j Hj]. exists j. unfold give.
      destruct (Nat.eqb_spec j i) as [->|N]; [|exact Hj].
      pose proof (o_chain _ _ _ O i) as Ci. rewrite V in Ci. rewrite (chain_none _ _ Ci) in Hj. destruct Hj.
Qed.

Lemma new_step h v own i d c m : owns h v own ->
  exists h' p own', new_object h d c m = (h', p) /\ owns h' (assign v i p) own' /\
    (v i = None -> all_owned h own -> all_owned h' own').
Proof.
  intros O. destruct (new_object_chain h d c m) as (h' & a & l & E & C & ND & Fr & Sm & _).
  destruct (owns_new h v own i h' (Some a) l O C ND Fr Sm) as [O' A]. eauto 10.
Qed.

Lemma none_step h v own i : owns h v own ->
  exists own', owns h (assign v i None) own' /\ (v i = None -> all_owned h own -> all_owned h own').
Proof.
  intros O. destruct (owns_new h v own i h None [] O (Chain_null h) (NoDup_nil _)) as [O' A];
    [intros x []|reflexivity|]. eauto.
Qed.

Lemma exec_owns h v own o : owns h v own ->
  exists h' v' own', exec h v o = Ok (h', v') /\ owns h' v' own' /\
    (Careful v o -> all_owned h own -> all_owned h' own').
Proof.
  intros O. destruct o as [[i|] ok1 ok2 d c t|[i|] ok1 ok2 d c t|i|[d|] s]; cbn [exec Careful].
  - unfold error_new. destruct ok1.
    + destruct (new_step h v own i d c (if ok2 then Some (snprintf MSG_SIZE t) else None) O) as (h' & p & own' & E & O' & A).
      rewrite E. eauto 10.
    + destruct (none_step h v own i O) as (own' & O' & A). eauto 10.
  - exists h, v, own. auto.
  - unfold error_new_literal. destruct ok1.
    + destruct (new_step h v own i d c (match t with Some x => if ok2 then Some x else None | None => None end) O) as (h' & p & own' & E & O' & A).
      rewrite E. eauto 10.
    + destruct (none_step h v own i O) as (own' & O' & A). eauto 10.
  - exists h, v, own. auto.
  - destruct (owns_free h v own i O) as (h' & E & O' & A). rewrite E. cbn [bind]. eauto 10.
  - destruct (Nat.eqb_spec d s) as [->|N]; [exists h, v, own; auto|].
    exists h, (assign (assign v d (v s)) s None), (give (give own d (own s)) s []).
    split; [reflexivity|]. split.
    + split.
      * intros j. unfold assign, give. destruct (j =? s); [constructor|]. destruct (j =? d); apply (o_chain _ _ _ O).
      * intros j. unfold give. destruct (j =? s); [constructor|]. destruct (j =? d); apply (o_nodup _ _ _ O).
      * intros j k x. unfold give.
        destruct (Nat.eqb_spec j s) as [|Js]; [intros []|]. destruct (Nat.eqb_spec k s) as [|Ks]; [intros _ []|].
        destruct (Nat.eqb_spec j d) as [->|Jd], (Nat.eqb_spec k d) as [->|Kd]; auto.
        -- intros H1 H2. destruct (Ks (o_apart _ _ _ O k s x H2 H1)).
        -- intros H1 H2. destruct (Js (o_apart _ _ _ O j s x H1 H2)).
        -- apply (o_apart _ _ _ O).
    + intros [K|Vd] A; [congruence|]. intros x Hx. destruct (A x Hx) as [j Hj].
      destruct (Nat.eq_dec j s) as [->|Js].
      * exists d. unfold give. destruct (Nat.eqb_spec d s); [congruence|]. now rewrite Nat.eqb_refl.
      * exists j. unfold give. destruct (Nat.eqb_spec j s); [congruence|].
        destruct (Nat.eqb_spec j d) as [->|]; [|exact Hj].
        pose proof (o_chain _ _ _ O d) as Ci. rewrite Vd in Ci. rewrite (chain_none _ _ Ci) in Hj. destruct Hj.
  - destruct (owns_free h v own s O) as (h' & E & O' & A). rewrite E. cbn [bind]. eauto 10.
Qed.

Lemma exec_all_owns os : forall h v own, owns h v own ->
  exists h' v' own', exec_all h v os = Ok (h', v') /\ owns h' v' own' /\
    (CarefulAll h v os -> all_owned h own -> all_owned h' own').
Proof.
  induction os as [|o os IH]; intros h v own O; cbn [exec_all CarefulAll].
  - exists h, v, own. auto.
  - destruct (exec_owns h v own o O) as (h1 & v1 & own1 & E & O1 & A1). rewrite E. cbn [bind].
    destruct (IH h1 v1 own1 O1) as (h2 & v2 & own2 & E2 & O2 & A2).
    exists h2, v2, own2. split; [exact E2|]. split; [exact O2|].
    intros [C1 C2] A. apply A2; [now apply C2|]. now apply A1.
Qed.

Definition no_vars : vars := fun _ => None.
Lemma owns_empty : owns [] no_vars (fun _ => []).
Proof. split; [constructor|constructor|intros i j x []]. Qed.

Lemma lookup_all_none h : (forall x, lookup h x = None) -> h = [].
Proof.
  destruct h as [|[a b] h]; [reflexivity|]. intros H. specialize (H a). cbn in H.
  rewrite Nat.eqb_refl in H. discriminate.
Qed.

Lemma programs_safe os : exists h v, exec_all [] no_vars os = Ok (h, v) /\
  (CarefulAll [] no_vars os -> (forall i, v i = None) -> h = []).
Proof.
  destruct (exec_all_owns os [] no_vars _ owns_empty) as (h & v & own & E & O & A).
  exists h, v. split; [exact E|]. intros C V. apply lookup_all_none. intros x.
  destruct (lookup h x) eqn:L; [|reflexivity].
  assert (all_owned h own) as AO by (apply A; [exact C|intros y Hy; destruct Hy; reflexivity]).
  destruct (AO x ltac:(congruence)) as [i Hi].
  pose proof (o_chain _ _ _ O i) as Ci. rewrite V in Ci. rewrite (chain_none _ _ Ci) in Hi. destruct Hi.
Qed.
