(** Proofs about the memory of the decryptor. *)
From Coq Require Import Permutation.
From Verif Require Import Base WireModel CryptModel MemModel MemSpec MemProofs FailModel.

Definition pt {A} (pre : list res) (m : T A) (post : A -> list res -> Prop) : Prop :=
  forall R n, below n (pre ++ R) -> NoDup (pre ++ R) ->
    let '(t, a, n') := m n in
    exists o, post a o /\ Permutation (run_mem (pre ++ R) t) (o ++ R) /\
      (exists k, safe k (pre ++ R) t) /\ n <= n' /\ below n' (o ++ R) /\ NoDup (o ++ R).

Lemma pt_perm {A} pre pre' (m : T A) post : Permutation pre pre' -> pt pre' m post -> pt pre m post.
Proof.
  intros H M R n B N.
  assert (HF : Permutation (pre ++ R) (pre' ++ R)) by (apply Permutation_app_tail, H).
  specialize (M R n (below_perm _ _ _ HF B) (Permutation_NoDup HF N)). destruct (m n) as [[t a] n'].
  destruct M as (o & P & Q & (k & S1) & L & B1 & N1). exists o. split; [exact P|].
  split; [eapply perm_trans; [apply run_perm, HF|exact Q]|].
  split; [exists k; apply (safe_perm _ _ _ _ (Permutation_sym HF) S1)|]. auto.
Qed.
Lemma pt_bind {A C} pre (m : T A) (f : A -> T C) mid post :
  pt pre m mid -> (forall a o, mid a o -> pt o (f a) post) -> pt pre (tbind m f) post.
Proof.
  intros H1 H2 R n B N. unfold tbind. specialize (H1 R n B N). destruct (m n) as [[t1 a] n1].
  destruct H1 as (o & P & R1 & (k1 & S1) & L1 & B1 & N1).
  specialize (H2 a o P R n1 B1 N1). destruct (f a n1) as [[t2 b] n2].
  destruct H2 as (o2 & P2 & R2 & (k2 & S2) & L2 & B2 & N2).
  exists o2. split; [exact P2|]. split.
  { rewrite run_mem_app. eapply perm_trans; [apply run_perm, R1|exact R2]. }
  split.
  { exists (k1 + k2). apply safe_app; [apply (safe_weak k1); [lia|exact S1]|].
    apply (safe_weak k2); [lia|]. apply (safe_perm _ _ _ _ (Permutation_sym R1) S2). }
  split; [lia|]. split; assumption.
Qed.
Lemma pt_call {A C} pre pre1 R (m : T A) (f : A -> T C) mid post :
  pt pre1 m mid -> Permutation pre (pre1 ++ R) ->
  (forall a o, mid a o -> pt (o ++ R) (f a) post) -> pt pre (tbind m f) post.
Proof.
  intros M E H. apply (pt_perm _ _ _ _ E).
  apply (pt_bind _ _ _ (fun a o => exists o1, o = o1 ++ R /\ mid a o1)).
  - intros R' n B N. rewrite <- app_assoc in *. specialize (M (R ++ R') n B N). destruct (m n) as [[t a] n'].
    destruct M as (o & P & Q & S1 & L & B1 & N1). exists (o ++ R). rewrite <- app_assoc. split; [now exists o|auto].
  - intros a o (o1 & -> & P). apply H, P.
Qed.
Lemma pt_ret {A} pre (a : A) (post : A -> list res -> Prop) : post a pre -> pt pre (tret a) post.
Proof.
  intros P R n B N. cbn. exists pre. split; [exact P|]. split; [reflexivity|]. split; [exists (length (pre ++ R)); split; [lia|exact I]|].
  auto.
Qed.
Lemma pt_skip {A C} pre (a : A) (f : A -> T C) post : pt pre (f a) post -> pt pre (tbind (tret a) f) post.
Proof. intros H R n B N. specialize (H R n B N). unfold tbind, tret. destruct (f a n) as [[t b] n']. exact H. Qed.
Lemma pt_assoc {A C E} pre (m : T A) (f : A -> T C) (g : C -> T E) post :
  pt pre (tbind m (fun a => tbind (f a) g)) post -> pt pre (tbind (tbind m f) g) post.
Proof.
  intros H R n B N. specialize (H R n B N). unfold tbind in *. destruct (m n) as [[t1 a] n1].
  destruct (f a n1) as [[t2 b] n2]. destruct (g b n2) as [[t3 c] n3]. rewrite app_assoc in H. exact H.
Qed.
Lemma pt_last {A} pre (m : T A) post : pt pre (tbind m tret) post -> pt pre m post.
Proof.
  intros H R n B N. specialize (H R n B N). unfold tbind, tret in *. destruct (m n) as [[t a] n1].
  rewrite app_nil_r in H. exact H.
Qed.
Lemma pt_weak {A} pre (m : T A) (post post' : A -> list res -> Prop) : pt pre m post -> (forall a o, post a o -> post' a o) -> pt pre m post'.
Proof.
  intros M H R n B N. specialize (M R n B N). destruct (m n) as [[t a] n']. destruct M as (o & P & Q). exists o. split; [now apply H|exact Q].
Qed.

(** ** steps *)
Lemma pt_do_ask {C} pre ok (f : bool -> T C) post : (forall b, (b = false -> exists n, ok n = false) -> pt pre (f b) post) -> pt pre (tbind (call ok) f) post.
Proof.
  intros H R n B N. unfold tbind, call.
  assert (B' : below (S n) (pre ++ R)) by (intros r Hr; apply B in Hr; lia).
  specialize (H (ok n) (fun E => ex_intro _ n E) R (S n) B' N). destruct (f (ok n) (S n)) as [[t a] n'].
  destruct H as (o & P & Q & S1 & L & B1). exists o. cbn [app]. split; [exact P|]. split; [exact Q|]. split; [exact S1|]. split; [lia|exact B1].
Qed.
Lemma pt_do_obtain {C} pre ok (f : option res -> T C) post :
  (forall n, pt (Block n :: pre) (f (Some (Block n))) post) -> ((exists n, ok n = false) -> pt pre (f None) post) -> pt pre (tbind (obtain ok) f) post.
Proof.
  intros H1 H2 R n B N. unfold tbind, obtain.
  assert (B' : below (S n) (pre ++ R)) by (intros r Hr; apply B in Hr; lia).
  destruct (ok n) eqn:On.
  - assert (Hn : ~ In (Block n) (pre ++ R)) by (intros H; apply B in H; cbn in H; lia).
    assert (B'' : below (S n) ((Block n :: pre) ++ R)) by (intros r [<-|Hr]; [cbn; lia|now apply B']).
    specialize (H1 n R (S n) B'' (NoDup_cons _ Hn N)). destruct (f (Some (Block n)) (S n)) as [[t a] n'].
    destruct H1 as (o & P & Q & (k & S1) & L & B1). exists o. split; [exact P|]. split; [exact Q|].
    split; [exists (k + length (pre ++ R)); cbn; split; [lia|]; split; [exact Hn|]; apply (safe_weak k); [lia|exact S1]|].
    split; [lia|exact B1].
  - specialize (H2 (ex_intro _ n On) R (S n) B' N). destruct (f None (S n)) as [[t a] n'].
    destruct H2 as (o & P & Q & S1 & L & B1). exists o. split; [exact P|]. split; [exact Q|]. split; [exact S1|]. split; [lia|exact B1].
Qed.
Lemma pt_do_malloc {C} pre (f : option res -> T C) post :
  (forall n, pt (Block n :: pre) (f (Some (Block n))) post) -> pt pre (tbind (malloc true) f) post.
Proof.
  intros H1. apply (pt_perm pre pre); [reflexivity|]. intros R n B N. unfold tbind, malloc.
  assert (Hn : ~ In (Block n) (pre ++ R)) by (intros H; apply B in H; cbn in H; lia).
  assert (B'' : below (S n) ((Block n :: pre) ++ R)) by (intros r [<-|Hr]; [cbn; lia|apply B in Hr; lia]).
  specialize (H1 n R (S n) B'' (NoDup_cons _ Hn N)). destruct (f (Some (Block n)) (S n)) as [[t a] n'].
  destruct H1 as (o & P & Q & (k & S1) & L & B1). exists o. split; [exact P|]. split; [exact Q|].
  split; [exists (k + length (pre ++ R)); cbn; split; [lia|]; split; [exact Hn|]; apply (safe_weak k); [lia|exact S1]|].
  split; [lia|exact B1].
Qed.
Lemma pt_do_fopen {C} pre (f : res -> T C) post :
  (forall n, pt (Stream n :: pre) (f (Stream n)) post) -> pt pre (tbind fopen f) post.
Proof.
  intros H1 R n B N. unfold tbind, fopen.
  assert (Hn : ~ In (Stream n) (pre ++ R)) by (intros H; apply B in H; cbn in H; lia).
  assert (B'' : below (S n) ((Stream n :: pre) ++ R)) by (intros r [<-|Hr]; [cbn; lia|apply B in Hr; lia]).
  specialize (H1 n R (S n) B'' (NoDup_cons _ Hn N)). destruct (f (Stream n) (S n)) as [[t a] n'].
  destruct H1 as (o & P & Q & (k & S1) & L & B1). exists o. split; [exact P|]. split; [exact Q|].
  split; [exists (k + length (pre ++ R)); cbn; split; [lia|]; split; [exact Hn|]; apply (safe_weak k); [lia|exact S1]|].
  split; [lia|exact B1].
Qed.
Lemma pt_do_touch {C} pre p (f : unit -> T C) post :
  (forall r, p = Some r -> In r pre) -> pt pre (f tt) post -> pt pre (tbind (touch p) f) post.
Proof.
  intros I H R n B N. unfold tbind, touch. destruct p as [r|]; specialize (H R n B N).
  - destruct (f tt n) as [[t a] n']. destruct H as (o & P & Q & (k & S1) & H). exists o. split; [exact P|]. split; [exact Q|].
    split; [|exact H]. exists (k + length (pre ++ R)). cbn. split; [lia|]. split; [apply in_app_iff; left; now apply I|]. apply (safe_weak k); [lia|exact S1].
  - destruct (f tt n) as [[t a] n']. exact H.
Qed.
Lemma pt_do_release {C} pre p rest (f : unit -> T C) post :
  Permutation pre (olist p ++ rest) -> pt rest (f tt) post -> pt pre (tbind (release p) f) post.
Proof.
  intros E H. apply (pt_perm _ _ _ _ E). intros R n B N. unfold tbind, release. destruct p as [r|]; cbn [olist app] in *.
  - inversion N as [|x l N1 N2]; subst.
    assert (B' : below n (rest ++ R)) by (intros x H1; apply B; now right).
    specialize (H R n B' N2). destruct (f tt n) as [[t a] n']. destruct H as (o & P & Q & (k & S1) & H). exists o. split; [exact P|].
    assert (Ea : after (r :: rest ++ R) (Release r) = rest ++ R).
    { cbn. destruct (res_eq_dec r r) as [_|X]; [|contradiction]. now apply remove_notin. }
    split; [unfold run_mem in *; cbn [fold_left app]; now rewrite Ea|].
    split; [|exact H]. exists (k + length (r :: rest ++ R)). cbn [app safe]. split; [lia|]. split; [now left|]. rewrite Ea.
    apply (safe_weak k); [lia|exact S1].
  - specialize (H R n B N). destruct (f tt n) as [[t a] n']. exact H.
Qed.

(** ** functions that may crash *)
Definition ft {A} (pre : list res) (m : F A) (post : A -> list res -> Prop) : Prop :=
  pt pre m (fun oc o => match oc with Ok a => post a o | _ => True end).
Lemma ft_ret {A} pre (a : A) (post : A -> list res -> Prop) : post a pre -> ft pre (fret a) post.
Proof. intros H. apply pt_ret. exact H. Qed.
Lemma ft_ub {A} pre k (post : A -> list res -> Prop) : ft pre (tret (UB k)) post.
Proof. apply pt_ret. exact I. Qed.
Lemma ft_blocked {A} pre (post : A -> list res -> Prop) : ft pre (tret Blocked) post.
Proof. apply pt_ret. exact I. Qed.
Lemma ft_bind {A C} pre pre1 R (m : F A) (f : A -> F C) mid post :
  ft pre1 m mid -> Permutation pre (pre1 ++ R) -> (forall a o, mid a o -> ft (o ++ R) (f a) post) -> ft pre (fbind m f) post.
Proof.
  intros M E H. apply (pt_call pre pre1 R m _ _ _ M E). intros [a|k|] o P; [now apply H|apply ft_ub|apply ft_blocked].
Qed.
Lemma ft_perm {A} pre pre' (m : F A) post : Permutation pre pre' -> ft pre' m post -> ft pre m post.
Proof. apply pt_perm. Qed.

Ltac held := let r := fresh "r" in intros r [= <-]; repeat rewrite in_app_iff; cbn [In]; auto 12.
Ltac tch := apply pt_do_touch; [held|].
Ltac rel l := apply (pt_do_release _ _ l); [perm|].

(** Streams that are left open. *)
Definition AllStreams (l : list res) : Prop := Forall (fun r => match r with Stream _ => True | Block _ => False end) l.
Definition Left (ok : oracle) (l : list res) : Prop := AllStreams l /\ (l = [] \/ exists n, ok n = false).
Lemma left_nil ok : Left ok []. Proof. split; [constructor|now left]. Qed.
Lemma left_app ok a b : Left ok a -> Left ok b -> Left ok (a ++ b).
Proof. intros [A1 A2] [B1 B2]. split; [now apply Forall_app|]. destruct A2 as [->|]; [exact B2|now right]. Qed.

Definition errs (e : option (res * option res)) : list res := match e with Some (o, t) => o :: olist t | None => [] end.
Lemma error_new_pt {C} ok pre (f : _ -> T C) post : (forall e, pt (errs e ++ pre) (f e) post) -> pt pre (tbind (f_error_new ok) f) post.
Proof.
  intros H. unfold f_error_new. apply pt_assoc, pt_do_obtain; [intros n|intros ?; apply pt_skip, (H None)].
  apply pt_assoc. tch. apply pt_assoc, pt_do_obtain; [intros n1|intros ?].
  - apply pt_assoc. tch. apply pt_skip. eapply pt_perm; [|apply (H (Some (Block n, Some (Block n1))))]. cbn [errs olist]. perm.
  - apply pt_assoc. apply pt_do_touch; [discriminate|]. apply pt_skip. apply (H (Some (Block n, None))).
Qed.
Lemma error_free_pt {C} e pre rest (f : unit -> T C) post : Permutation pre (errs e ++ rest) -> pt rest (f tt) post ->
  pt pre (tbind (f_error_free e) f) post.
Proof.
  intros E H. destruct e as [[o t]|]; cbn [f_error_free errs] in *.
  - apply (pt_perm _ _ _ _ E). apply pt_assoc. tch. apply pt_assoc. rel (o :: rest). rel rest. exact H.
  - apply pt_skip. exact (pt_perm _ _ _ _ E H).
Qed.

Definition buf_res (b : option (res * bytes)) : list res := match b with Some (p, _) => [p] | None => [] end.
Lemma read_pt ok file : pt [] (f_read ok file)
  (fun '(b, e) o => exists st, Left ok st /\ Permutation o (buf_res b ++ errs e ++ st) /\ (forall x y, e = Some y -> b <> Some x)).
Proof.
  assert (Fail : forall st, Left ok st -> pt st (take e <- f_error_new ok ; tret (@None (res * bytes), e))
     (fun '(b, e) o => exists st, Left ok st /\ Permutation o (buf_res b ++ errs e ++ st) /\ (forall x y, e = Some y -> b <> Some x))).
  { intros st As. apply error_new_pt. intros e. apply pt_ret. exists st. split; [exact As|]. split; [reflexivity|discriminate]. }
  destruct file as [content|]; cbn [f_read]; [|apply (Fail [] (left_nil ok))].
  apply pt_do_ask. intros [|] ?; [|apply (Fail [] (left_nil ok))].
  apply pt_do_fopen. intros n. apply pt_do_ask. intros [|] ?; [|apply (Fail [Stream n]); split; [repeat constructor|right; auto]].
  apply pt_do_obtain; [intros b|intros ?; apply (Fail [Stream n]); split; [repeat constructor|right; auto]].
  tch. tch. apply pt_do_ask. intros [|] ?.
  - rel [Block b]. apply pt_ret. exists []. split; [apply left_nil|]. split; [reflexivity|]. discriminate.
  - apply error_new_pt. intros e. rel (Stream n :: errs e). rel (errs e). apply pt_ret. exists []. split; [apply left_nil|].
    rewrite app_nil_r. split; [reflexivity|]. discriminate.
Qed.

Lemma items_app t u : items (t ++ u) = items t ++ items u. Proof. apply map_app. Qed.
Lemma find_item_in t p m b : find_item t p = Some (m, b) -> In b (items t).
Proof.
  induction t as [|[[q x] r] t IH]; [discriminate|]. cbn [find_item items map snd In]. destruct (beq q p); [intros [= _ <-]; now left|intros H; right; now apply IH].
Qed.

(** What is held after a function that changes the table. *)
Definition Table (ok : oracle) (t : cached) (o : list res) : Prop := exists st, Left ok st /\ Permutation o (items t ++ st).

Lemma store_ft ok t rel mask : ft (items t) (f_store ok t rel mask) (fun t' o => o = match t' with Some t2 => items t2 | None => items t end \/
  Permutation o match t' with Some t2 => items t2 | None => items t end).
Proof.
  unfold f_store. destruct (_ <? 0)%Z; [apply ft_ub|]. destruct (_ <=? _)%Z; [apply ft_ub|].
  destruct (find_item t _) as [[m b]|] eqn:Fi.
  - apply pt_do_touch; [intros r [= <-]; exact (find_item_in _ _ _ _ Fi)|]. apply ft_ret. now left.
  - apply pt_do_obtain; [intros n|intros ?; apply ft_ret; now left]. tch. apply ft_ret. right. rewrite items_app. cbn [items map snd]. perm.
Qed.

Lemma open_ft ok pr cc hc flag t rel key ip file outp :
  ft (cc :: hc :: ip :: outp :: items t) (f_open ok pr cc hc flag t rel key (ip, file) outp)
     (fun '(t2, _, _, mac) o => Permutation o (olist mac ++ cc :: hc :: ip :: outp :: items t2)).
Proof.
  unfold f_open. destruct (_ <? BLOCK); [apply ft_ub|]. tch. tch. apply pt_do_ask. intros [|] ?; [|apply ft_ret; reflexivity].
  apply pt_do_obtain; [intros n|intros ?; apply ft_ret; reflexivity]. tch.
  apply pt_do_ask. intros [|] ?; [|apply ft_ret; reflexivity]. apply pt_do_ask. intros [|] ?; [|apply ft_ret; reflexivity].
  tch. tch. tch. apply pt_do_ask. intros o4 _. destruct (o4 && _); [|apply ft_ret; reflexivity]. apply pt_do_ask. intros o5 _.
  destruct (evp_decrypt _ _ _ _) as [out|]; [|apply ft_ret; reflexivity]. destruct o5; [|apply ft_ret; reflexivity]. tch. tch.
  apply pt_do_ask. intros [|] ?; [|apply ft_ret; reflexivity]. apply pt_do_ask. intros o7 _. tch. destruct (o7 && _); [|apply ft_ret; reflexivity].
  destruct (flag =? 0)%Z; [apply ft_ret; reflexivity|]. destruct (_ <? 0)%Z; [apply ft_ub|]. tch.
  eapply (ft_bind _ (items t) [Block n; cc; hc; ip; outp]); [apply store_ft|perm|].
  intros [t2|] o P; apply ft_ret; cbn [olist]; (destruct P as [->|P]; perm).
Qed.

Lemma decrypt_ft ok pr K dm t rel inp outp rest :
  (forall t rel key, ft (items t) (dm t rel key) (fun '(_, t1, _) o => Table ok t1 o)) ->
  ft (buf_res inp ++ outp :: rest ++ items t) (f_decrypt ok pr K dm t rel inp outp)
     (fun '(t1, _, _) o => exists l, Table ok t1 l /\ (exists x, (x = [] \/ inp = None) /\ Permutation o (x ++ buf_res inp ++ outp :: rest ++ l))).
Proof.
  intros Dm. unfold f_decrypt. apply pt_do_obtain; [intros c|intros ?; apply pt_do_obtain; [intros h|intros ?]; apply ft_ub].
  apply pt_do_obtain; [intros h|intros ?; apply ft_ub]. tch. tch.
  eapply (ft_bind _ (items t) (Block h :: Block c :: buf_res inp ++ outp :: rest)); [apply Dm|perm|].
  intros [[flag t1] key] o (st & As & P). destruct inp as [[ip file]|]; cbn [buf_res] in *.
  - eapply (ft_bind _ (Block c :: Block h :: ip :: outp :: items t1) (rest ++ st)); [apply open_ft|perm|].
    intros [[[t2 r] out] mac] o2 P2. cbn beta iota in P2.
    apply (ft_perm _ (Block c :: Block h :: olist mac ++ ip :: outp :: rest ++ items t2 ++ st)); [perm|].
    tch. rel (Block h :: olist mac ++ ip :: outp :: rest ++ items t2 ++ st). rel (olist mac ++ ip :: outp :: rest ++ items t2 ++ st).
    rel (ip :: outp :: rest ++ items t2 ++ st). apply ft_ret. exists (items t2 ++ st). split; [now exists st|]. exists []. split; [now left|reflexivity].
  - apply ft_ret. exists (items t1 ++ st). split; [now exists st|]. exists [Block h; Block c]. split; [now right|]. perm.
Qed.

Lemma demask_ft ok pr K disk basedir fuel : forall t rel key,
  ft (items t) (f_demask fuel ok pr K disk basedir t rel key) (fun '(_, t1, _) o => Table ok t1 o).
Proof.
  induction fuel as [|f IH]; intros t rel key; [apply ft_blocked|]. cbn [f_demask].
  destruct (split_path rel) as [dir base]. destruct (caseeq base PACKAGE_MOC).
  { destruct dir as [d|]; [|apply ft_ret; exists []; split; [apply left_nil|now rewrite app_nil_r]].
    eapply (ft_bind _ (items t) []); [apply IH|now rewrite app_nil_r|]. intros [[r t1] k] o (st & As & P). apply ft_ret. exists st.
    split; [exact As|]. now rewrite app_nil_r. }
  destruct (find_item t _) as [[m b]|] eqn:Fi.
  { apply pt_do_touch; [intros r [= <-]; exact (find_item_in _ _ _ _ Fi)|]. apply ft_ret. exists []. split; [apply left_nil|now rewrite app_nil_r]. }
  destruct (NAME_MAX <? _); [apply ft_ub|]. set (pkg := match dir with Some d => d ++ B "/package.moc" | None => PACKAGE_MOC end).
  eapply (pt_call _ [] (items t)); [apply read_pt|reflexivity|]. intros [buf err] o (st & As & P & X). destruct err as [e|].
  - assert (buf = None) as -> by (destruct buf as [x|]; [exfalso; exact (X x e eq_refl eq_refl)|reflexivity]).
    eapply (ft_bind _ (items t) (errs (Some e) ++ st)); [apply IH|perm|]. intros [[r t1] k] o1 (st1 & As1 & P1).
    apply (error_free_pt (Some e) _ (items t1 ++ st1 ++ st)); [perm|]. apply ft_ret. exists (st1 ++ st). split; [now apply left_app|reflexivity].
  - cbn [errs app] in P. apply pt_do_obtain; [intros n|intros ?].
    + destruct buf as [[fb content]|]; cbn [buf_res] in P.
      * eapply (ft_bind _ (fb :: Block n :: [] ++ items t) st); [apply (decrypt_ft ok pr K _ t pkg (Some (fb, content)) (Block n) []), IH|perm|].
        intros [[t1 r] text] o1 (l & (st1 & As1 & P1) & (x & [->|X1] & P2)); [|discriminate]. cbn [buf_res app] in P2.
        apply (ft_perm _ (Block n :: fb :: items t1 ++ st1 ++ st)); [perm|]. tch. rel (Block n :: items t1 ++ st1 ++ st).
        rel (items t1 ++ st1 ++ st).
        destruct (0 <? r)%Z; apply ft_ret; exists (st1 ++ st); (split; [now apply left_app|reflexivity]).
      * rel (Block n :: st ++ items t). rel (st ++ items t). apply ft_ret. exists st. split; [exact As|perm].
    + assert (Q : Permutation (o ++ items t) (olist (match buf with Some (fb, _) => Some fb | None => None end) ++ st ++ items t))
        by (destruct buf as [[fb content]|]; cbn [buf_res] in P; perm).
      destruct buf as [[fb content]|]; (eapply pt_do_release; [exact Q|]); (rel (st ++ items t)); apply ft_ret; exists st; (split; [exact As|perm]).
Qed.

Lemma request_ft ok pr K disk basedir t rel file :
  ft (items t) (f_request ok pr K disk basedir t rel file) (fun '(t1, _) o => Table ok t1 o).
Proof.
  unfold f_request. apply pt_do_malloc. intros i. apply pt_do_malloc. intros j.
  eapply (ft_bind _ (Block i :: Block j :: [] ++ items t) []);
    [apply (decrypt_ft ok pr K _ t rel (Some (Block i, file)) (Block j) []), demask_ft|perm|].
  intros [[t1 r] out] o (l & (st & As & P) & (x & [->|X] & P2)); [|discriminate]. cbn [buf_res app] in P2.
  apply (ft_perm _ (Block j :: Block i :: items t1 ++ st)); [perm|]. tch. rel (Block j :: items t1 ++ st). rel (items t1 ++ st).
  apply ft_ret. exists st. split; [exact As|reflexivity].
Qed.
Lemma requests_ft ok pr K disk basedir : forall reqs t,
  ft (items t) (f_requests ok pr K disk basedir t reqs) (fun '(t1, _) o => Table ok t1 o).
Proof.
  induction reqs as [|[rel file] reqs IH]; intros t; cbn [f_requests].
  - apply ft_ret. exists []. split; [apply left_nil|now rewrite app_nil_r].
  - eapply (ft_bind _ (items t) []); [apply request_ft|now rewrite app_nil_r|]. intros [t1 a] o (st & As & P).
    eapply (ft_bind _ (items t1) st); [apply IH|perm|]. intros [t2 l] o1 (st1 & As1 & P1). apply ft_ret. exists (st1 ++ st).
    split; [now apply left_app|perm].
Qed.
Lemma session_ft ok pr K disk basedir reqs : ft [] (f_session ok pr K disk basedir reqs) (fun '(t1, _) o => Table ok t1 o).
Proof.
  unfold f_session. apply pt_do_malloc. intros c. tch.
  eapply (ft_bind _ (items []) [Block c]); [apply requests_ft|perm|]. intros [t1 l] o (st & As & P).
  rel (items t1 ++ st). apply ft_ret. exists st. split; [exact As|reflexivity].
Qed.
