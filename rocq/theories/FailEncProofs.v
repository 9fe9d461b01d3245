(** Proofs about the encryptor when calls fail. *)
From Coq Require Import Permutation.
From Verif Require Import Base BaseProofs WireModel CryptModel CryptSpec CbcProofs MaskProofs CryptProofs MemModel MemSpec MemProofs
  FailModel FailMem FailProofs NestSpec NestProofs FailEncModel.

(** ** Memory *)
Lemma pt_rand {C} pre ok a b (f : bytes -> T C) post : (forall x, pt pre (f x) post) -> pt pre (tbind (rand ok a b) f) post.
Proof. intros H. unfold rand. apply pt_assoc, pt_do_ask. intros r _. apply pt_skip, H. Qed.

Definition Grows (k : nat) (pre : list res) (t : cached) (o : list res) : Prop :=
  (exists lost, Permutation o (items t ++ lost)) /\ length o <= k + length pre.

Lemma add_ft t t1 p m r o pre k : Grows k pre t1 o -> Grows (S k) pre (f_add t t1 p m r) (r :: o).
Proof.
  intros [[lost P] L]. split; [|cbn [length]; lia]. unfold f_add. destruct t.
  - exists (items t1 ++ lost). cbn [items map snd]. perm.
  - exists lost. rewrite items_app. cbn [items map snd]. perm.
Qed.
Lemma maskkey_ft ok pr fuel : forall t rel key rnd store,
  ft (items t) (f_maskkey fuel ok pr t rel key rnd store) (fun '(_, t1, _, _) o => Grows (S (separators rel)) (items t) t1 o).
Proof.
  induction fuel as [|f IH]; intros t rel key rnd store; [apply ft_blocked|]. cbn [f_maskkey].
  assert (Same : forall k, Grows k (items t) t (items t)).
  { intros k. split; [exists []; now rewrite app_nil_r|lia]. }
  destruct (split_path rel) as [dir base] eqn:Sp. set (path := match dir with Some d => d | None => [SLASH] end).
  assert (Rec : forall key, ft (items t) (if at_root path then fret (0%Z, t, key, store) else f_maskkey f ok pr t path key rnd store)
    (fun '(_, t1, _, _) o => Grows (separators rel) (items t) t1 o)).
  { intros k. destruct (at_root path) eqn:Ar; [apply ft_ret, Same|]. destruct dir as [d|]; [|discriminate Ar]. subst path.
    pose proof (split_sep _ _ _ Sp) as Ls. eapply pt_weak; [apply (IH t d k rnd store)|]. intros [[[[r t1] k1] s1]|u|] o; [|auto|auto].
    intros [P L]. split; [exact P|lia]. }
  destruct (caseeq base PACKAGE_MO).
  - destruct (find_item t path) as [[m b]|] eqn:Fi.
    { apply pt_do_touch; [intros r [= <-]; exact (find_item_in _ _ _ _ Fi)|]. apply ft_ret, Same. }
    eapply (ft_bind _ (items t) []); [apply Rec|now rewrite app_nil_r|]. intros [[[ret t1] key1] store1] o Q. cbn beta iota in Q. rewrite app_nil_r.
    assert (Up : Grows (S (separators rel)) (items t) t1 o) by (split; [apply Q|destruct Q; lia]).
    destruct (ret =? 0)%Z; [|apply ft_ret, Up]. apply pt_rand. intros m. apply pt_do_obtain; [intros n|intros _; apply ft_ret, Up].
    tch. apply ft_ret. now apply add_ft.
  - destruct (find_item t path) as [[m b]|] eqn:Fi.
    { apply pt_do_touch; [intros r [= <-]; exact (find_item_in _ _ _ _ Fi)|]. apply ft_ret, Same. }
    apply pt_do_obtain; [intros n|intros _; apply ft_ret, Same]. tch.
    eapply (ft_bind _ (items t) [Block n]); [apply Rec|perm|]. intros [[[ret t1] m] store1] o Q. cbn beta iota in Q.
    assert (Up : Grows (S (separators rel)) (items t) t1 o) by (split; [apply Q|destruct Q; lia]).
    destruct (ret =? 0)%Z; [|rel o; apply ft_ret, Up]. tch. apply (ft_perm _ (Block n :: o)); [perm|]. apply ft_ret. now apply add_ft.
Qed.

Lemma put_ft ok pr cc hc key v d pre : In cc pre -> In hc pre -> ft pre (f_put ok pr cc hc key v d) (fun _ o => o = pre).
Proof.
  intros Ic Ih. unfold f_put. apply pt_do_touch; [intros r [= <-]; exact Ic|]. apply pt_do_ask. intros [|] _; [|now apply ft_ret].
  destruct (put_chunk pr key v d) as [[v' out]|k|]; [|apply ft_ub|apply ft_blocked]. apply pt_do_ask. intros [|] _; [|now apply ft_ret].
  apply pt_do_touch; [intros r [= <-]; exact Ih|]. apply pt_do_ask. intros o _. now apply ft_ret.
Qed.
Lemma ft_bind_same {A C} pre (m : F A) (f : A -> F C) post :
  ft pre m (fun _ o => o = pre) -> (forall a, ft pre (f a) post) -> ft pre (fbind m f) post.
Proof.
  intros M H. eapply (ft_bind pre pre []); [exact M|now rewrite app_nil_r|]. intros a o ->. rewrite app_nil_r. apply H.
Qed.
Lemma puts_ft ok pr cc hc key pre : In cc pre -> In hc pre -> forall ds v, ft pre (f_puts ok pr cc hc key v ds) (fun _ o => o = pre).
Proof.
  intros Ic Ih. induction ds as [|d ds IH]; intros v; cbn [f_puts]; [now apply ft_ret|]. apply pt_do_ask. intros [|] _; [|now apply ft_ret].
  apply ft_bind_same; [now apply put_ft|]. intros [[v1 out]|]; [|now apply ft_ret]. apply ft_bind_same; [apply IH|]. intros q. now apply ft_ret.
Qed.
Lemma seal_ft ok pr cc hc ivb key iv file mask pre : In cc pre -> In ivb pre -> (forall h, hc = Some h -> In h pre) ->
  ft pre (f_seal ok pr cc hc ivb key iv file mask) (fun '(_, mac) o => o = olist mac ++ pre).
Proof.
  intros Ic Ii Ih. unfold f_seal. apply pt_do_touch; [intros r [= <-]; exact Ic|]. apply pt_do_touch; [intros r [= <-]; exact Ii|].
  apply pt_do_ask. intros [|] _; [|now apply ft_ret]. apply pt_do_obtain; [intros n|intros _; now apply ft_ret].
  destruct hc as [h|]; [|apply ft_ub]. specialize (Ih h eq_refl).
  assert (Ic' : In cc (Block n :: pre)) by now right. assert (Ii' : In ivb (Block n :: pre)) by now right. assert (Ih' : In h (Block n :: pre)) by now right.
  apply pt_do_touch; [intros r [= <-]; exact Ih'|]. apply pt_do_ask. intros [|] _; [|now apply ft_ret].
  apply pt_do_touch; [intros r [= <-]; exact Ii'|]. apply pt_do_ask. intros [|] _; [|now apply ft_ret].
  apply ft_bind_same; [now apply puts_ft|]. intros [[v1 out1]|]; [|now apply ft_ret].
  apply ft_bind_same; [destruct mask; [now apply put_ft|now apply ft_ret]|]. intros [[v2 out2]|]; [|now apply ft_ret].
  apply pt_do_touch; [intros r [= <-]; exact Ic'|]. apply pt_do_ask. intros [|] _; [|now apply ft_ret]. apply pt_do_ask. intros [|] _; [|now apply ft_ret].
  apply pt_do_touch; [intros r [= <-]; exact Ih'|]. apply pt_do_touch; [intros r [= <-]; now left|]. apply pt_do_ask. intros [|] _; [|now apply ft_ret].
  apply pt_do_ask. intros o7 _. now apply ft_ret.
Qed.
Lemma encrypt_ft ok pr K t w : ft (items t) (f_encrypt ok pr K t w) (fun '(t1, _) o => Grows (S (separators (f_rel (w_source w)))) (items t) t1 o).
Proof.
  unfold f_encrypt.
  assert (Rest : forall cc h, ft (olist h ++ cc :: items t)
    (take _ <- touch (Some cc) ; take i <- obtain ok ;
      match i with
      | None => tret (UB NullDeref)
      | Some ivb =>
          take iv <- rand ok (f_iv (w_source w)) (w_iv w) ;
          take _ <- touch i ;
          take o1 <- call ok ;
          go (t1, out, mac) <-
            (if o1 then
               go (flag, t1, key, store) <- f_maskkey (S (length (f_rel (w_source w)))) ok pr t (f_rel (w_source w)) K (f_mask (w_source w)) (w_mask w) ;
               if (flag <? 0)%Z then fret (t1, None, None)
               else
                 go (out, mac) <- f_seal ok pr cc h ivb key iv (f_data (w_source w)) (if (flag =? 0)%Z then None else Some store) ;
                 fret (t1, match out with Some o => Some (iv ++ o) | None => None end, mac)
             else fret (t, None, None)) ;
          take _ <- release (Some cc) ;
          take _ <- release h ;
          take _ <- release mac ;
          take _ <- release i ;
          fret (t1, out)
      end) (fun '(t1, _) o => Grows (S (separators (f_rel (w_source w)))) (items t) t1 o)).
  { intros cc h. tch. apply pt_do_obtain; [intros i|intros _; apply ft_ub]. apply pt_rand. intros iv. tch. apply pt_do_ask. intros o1 _.
    eapply (ft_bind _ (Block i :: olist h ++ cc :: items t) []) with
      (mid := fun '(t1, _, mac) o => exists l, Grows (S (separators (f_rel (w_source w)))) (items t) t1 l /\ Permutation o (Block i :: cc :: olist h ++ olist mac ++ l));
      [|now rewrite app_nil_r|].
    - destruct o1.
      + eapply (ft_bind _ (items t) (Block i :: olist h ++ [cc])); [apply maskkey_ft|perm|]. intros [[[flag t1] key] store] l Q. cbn beta iota in Q.
        destruct (flag <? 0)%Z; [apply ft_ret; exists l; split; [exact Q|cbn [olist]; perm]|].
        eapply (ft_bind _ (l ++ Block i :: olist h ++ [cc]) []); [apply seal_ft|now rewrite app_nil_r|].
        * apply in_app_iff. right. right. apply in_app_iff. right. now left.
        * apply in_app_iff. right. now left.
        * intros x ->. apply in_app_iff. right. right. now left.
        * intros [out mac] o E. cbn beta iota in E. subst o. apply ft_ret. exists l. split; [exact Q|perm].
      + apply ft_ret. exists (items t). split; [|cbn [olist]; perm]. split; [exists []; now rewrite app_nil_r|lia].
    - intros [[t1 out] mac] o (l & Q & P). rewrite app_nil_r. rel (Block i :: olist h ++ olist mac ++ l). rel (Block i :: olist mac ++ l). rel (Block i :: l). rel l.
      apply ft_ret. exact Q. }
  apply pt_do_obtain; [intros c|intros _].
  - apply pt_do_obtain; [intros h; apply (Rest (Block c) (Some (Block h)))|intros _; apply (Rest (Block c) None)].
  - apply pt_do_obtain; [intros h|intros _]; apply ft_ub.
Qed.
Definition room (ws : list raw) : nat := fold_right (fun w n => S (separators (f_rel (w_source w))) + n) 0 ws.
Lemma encrypt_all_ft ok pr K : forall ws t, ft (items t) (f_encrypt_all ok pr K t ws) (fun '(t1, _) o => Grows (room ws) (items t) t1 o).
Proof.
  induction ws as [|w ws IH]; intros t; cbn [f_encrypt_all].
  - apply ft_ret. split; [exists []; now rewrite app_nil_r|lia].
  - eapply (ft_bind _ (items t) []); [apply encrypt_ft|now rewrite app_nil_r|]. intros [t1 o] l Q. cbn beta iota in Q. rewrite app_nil_r.
    destruct Q as [[lost P] L]. pose proof (Permutation_length P) as Lp. rewrite app_length in Lp.
    destruct o as [out|].
    + eapply (ft_bind _ (items t1) lost); [apply IH|exact P|]. intros [t2 rest] l2 [[lost2 P2] L2]. apply ft_ret. split.
      * exists (lost2 ++ lost). perm.
      * cbn [room fold_right]. fold (room ws). rewrite app_length. lia.
    + apply ft_ret. split; [now exists lost|]. cbn [room fold_right]. fold (room ws). lia.
Qed.
Lemma run_memory ok pr K ws n : 
  Proper (fst (fst (f_encrypt_run ok pr K ws 0))) /\
  match f_encrypt_run ok pr K ws n with (trace, Ok _, _) => length (held trace) <= room ws | _ => True end.
Proof.
  assert (H : ft [] (f_encrypt_run ok pr K ws) (fun '(t1, _) o => length o <= room ws)).
  { unfold f_encrypt_run. apply pt_do_malloc. intros c. tch. eapply (ft_bind _ (items []) [Block c]); [apply encrypt_all_ft|perm|].
    intros [t1 o] l [_ L]. rel l. apply ft_ret. cbn in L. lia. }
  split.
  - specialize (H [] 0 ltac:(intros x []) (NoDup_nil _)).
    destruct (f_encrypt_run ok pr K ws 0) as [[trace v] n']. destruct H as (o & _ & _ & (k & Sf) & _). cbn [fst].
    intros before m rest E. exact (safe_proper k trace [] Sf before m rest E).
  - specialize (H [] n ltac:(intros x []) (NoDup_nil _)).
    destruct (f_encrypt_run ok pr K ws n) as [[trace [[t1 r]|k|]] n']; [|exact I|exact I]. destruct H as (o & L & Q & _). rewrite !app_nil_r in Q.
    change (run_mem [] trace) with (held trace) in Q. now rewrite (Permutation_length Q).
Qed.

(** ** Values *)
Definition Failed (ok : oracle) : Prop := exists n, ok n = false.

Lemma v_rand {C} (ok : oracle) a b (f : bytes -> T C) (post : C -> Prop) :
  (forall x, x = a \/ (x = b /\ Failed ok) -> vt (f x) post) -> vt (tbind (rand ok a b) f) post.
Proof.
  intros H. unfold rand. apply v_assoc, v_call. intros n. apply v_skip. destruct (ok n) eqn:O; apply H; [now left|right]. split; [reflexivity|now exists n].
Qed.

Lemma add_plain t t1 p m r : plain (f_add t t1 p m r) = add_mask (plain t) (plain t1) p m.
Proof. unfold f_add, add_mask. destruct t; [reflexivity|]. cbn [plain map]. apply plain_app. Qed.

(** The mask plays no role if the result is 0. *)
Lemma mask_any_rnd pr fuel : forall t rel key r t' k', mask_key pr fuel t rel key r = Ok (0%Z, t', k') -> forall r', mask_key pr fuel t rel key r' = Ok (0%Z, t', k').
Proof.
  induction fuel as [|f IH]; intros t rel key r t' k'; [discriminate|]. rewrite !mask_key_S. intros H r'. rewrite mask_key_S. revert H.
  destruct (split_path rel) as [dir base]. cbn zeta. destruct (caseeq base PACKAGE_MO).
  - destruct (find_mask t _); [discriminate|]. destruct (if at_root _ then _ else _) as [[[ret t1] k1]|k|]; cbn [bind]; [|discriminate|discriminate].
    destruct (ret =? 0)%Z; discriminate.
  - destruct (find_mask t _); [auto|]. destruct (at_root _); [auto|]. destruct (mask_key pr f t _ (zeros pr) r) as [[[ret t1] m]|k|] eqn:E; cbn [bind]; [|discriminate|discriminate].
    destruct (Z.eqb_spec ret 0) as [-> |N]; [|discriminate]. rewrite (IH _ _ _ _ _ _ E r'). auto.
Qed.

Lemma maskkey_v ok pr rnd junk fuel : forall t rel key store, store = rnd \/ store = junk ->
  vt (f_maskkey fuel ok pr t rel key rnd store) (fun v =>
    (Failed ok /\ exists t' k' st', v = Ok ((-1)%Z, t', k', st')) \/
    exists m, (m = rnd \/ (m = junk /\ Failed ok)) /\ rmap (fun '(r, t', k', _) => (r, plain t', k')) v = mask_key pr fuel (plain t) rel key m /\
      match v with Ok (r, _, _, st') => (st' = rnd \/ st' = junk) /\ (r = 1%Z -> st' = m) /\ (r = 0%Z \/ r = 1%Z \/ r = (-1)%Z) | _ => True end).
Proof.
  induction fuel as [|f IH]; intros t rel key store St; [apply v_ret; right; exists rnd; split; [now left|split; [reflexivity|exact I]]|].
  cbn [f_maskkey]. 
  assert (RI : forall P : bytes -> Prop, P rnd -> exists m, (m = rnd \/ (m = junk /\ Failed ok)) /\ P m) by (intros P H; exists rnd; auto).
  destruct (split_path rel) as [dir base] eqn:Sp. set (path := match dir with Some d => d | None => [SLASH] end).
  assert (MS : forall m, mask_key pr (S f) (plain t) rel key m =
    (if caseeq base PACKAGE_MO then
        match find_mask (plain t) path with
        | Some _ => Ok ((-1)%Z, plain t, key)
        | None =>
            do (ret, t1, key1) <- (if at_root path then Ok (0%Z, plain t, key) else mask_key pr f (plain t) path key m) ;
            if (ret =? 0)%Z then Ok (1%Z, add_mask (plain t) t1 path m, key1) else Ok ((-1)%Z, t1, key1)
        end
      else
        match find_mask (plain t) path with
        | Some mm => Ok (0%Z, plain t, xor key mm)
        | None =>
            do (ret, t1, mm) <- (if at_root path then Ok (0%Z, plain t, zeros pr) else mask_key pr f (plain t) path (zeros pr) m) ;
            if (ret =? 0)%Z then Ok (0%Z, add_mask (plain t) t1 path mm, xor key mm) else Ok ((-1)%Z, t1, key)
        end)).
  { intros m. rewrite mask_key_S. rewrite Sp. reflexivity. }
  assert (Rec : forall key, vt (if at_root path then fret (0%Z, t, key, store) else f_maskkey f ok pr t path key rnd store) (fun v =>
    (Failed ok /\ exists t' k' st', v = Ok ((-1)%Z, t', k', st')) \/
    exists m, (m = rnd \/ (m = junk /\ Failed ok)) /\ rmap (fun '(r, t', k', _) => (r, plain t', k')) v = (if at_root path then Ok (0%Z, plain t, key) else mask_key pr f (plain t) path key m) /\
      match v with Ok (r, _, _, st') => (st' = rnd \/ st' = junk) /\ (r = 1%Z -> st' = m) /\ (r = 0%Z \/ r = 1%Z \/ r = (-1)%Z) | _ => True end)).
  { intros k. destruct (at_root path); [|now apply IH]. apply v_ret. right. exists rnd. split; [now left|]. split; [reflexivity|]. split; [exact St|]. split; [discriminate|now left]. }
  rewrite find_plain in MS.
  destruct (caseeq base PACKAGE_MO).
  - destruct (find_item t path) as [[m b]|].
    { vs. apply v_ret. right. exists rnd. split; [now left|]. rewrite MS. split; [reflexivity|]. split; [exact St|]. split; [discriminate|auto]. }
    eapply v_fbind; [apply Rec| | |].
    + intros [[[ret t1] key1] store1] [(Fl & t' & k' & st' & [= -> -> -> ->])|(m & Hm & E & Hs & H1 & Hr)].
      * cbn [Z.eqb]. apply v_ret. left. split; [exact Fl|]. do 3 eexists. reflexivity.
      * cbn [rmap] in E. destruct (Z.eqb_spec ret 0) as [-> |Nz].
        -- apply v_rand. intros x Hx. apply v_obtain. intros n. destruct (ok n) eqn:O.
           ++ vs. apply v_ret. right. exists x.
              assert (Hx' : x = rnd \/ (x = junk /\ Failed ok)) by (destruct Hx as [-> |[-> Fl]]; [now left|]; destruct Hs as [-> | ->]; [now left|now right]).
              split; [exact Hx'|]. rewrite MS.
              assert (Ex : (if at_root path then Ok (0%Z, plain t, key) else mask_key pr f (plain t) path key x) = Ok (0%Z, plain t1, key1)).
              { destruct (at_root path); [now symmetry|]. now apply (mask_any_rnd pr f _ _ _ m). }
              rewrite Ex. cbn [bind rmap Z.eqb]. rewrite add_plain. split; [reflexivity|]. split; [destruct Hx' as [-> |[-> _]]; auto|]. split; [reflexivity|auto].
           ++ apply v_ret. left. split; [now exists n|]. do 3 eexists. reflexivity.
        -- apply v_ret. right. exists m. split; [exact Hm|]. rewrite MS, <- E. cbn [bind rmap]. destruct (Z.eqb_spec ret 0); [contradiction|].
           split; [reflexivity|]. split; [exact Hs|]. split; [discriminate|auto].
    + intros k [(Fl & t' & k' & st' & X)|(m & Hm & E & _)]; [discriminate|]. right. exists m. split; [exact Hm|]. rewrite MS, <- E. now split.
    + intros [(Fl & t' & k' & st' & X)|(m & Hm & E & _)]; [discriminate|]. right. exists m. split; [exact Hm|]. rewrite MS, <- E. now split.
  - destruct (find_item t path) as [[m b]|].
    { vs. apply v_ret. right. exists rnd. split; [now left|]. rewrite MS. split; [reflexivity|]. split; [exact St|]. split; [discriminate|auto]. }
    apply v_obtain. intros n. destruct (ok n) eqn:O; [|apply v_ret; left; split; [now exists n|]; do 3 eexists; reflexivity].
    vs. eapply v_fbind; [apply Rec| | |].
    + intros [[[ret t1] mm] store1] [(Fl & t' & k' & st' & [= -> -> -> ->])|(m & Hm & E & Hs & H1 & Hr)].
      * cbn [Z.eqb]. vs. apply v_ret. left. split; [exact Fl|]. do 3 eexists. reflexivity.
      * cbn [rmap] in E. destruct (Z.eqb_spec ret 0) as [-> |Nz]; vs; apply v_ret; right; exists m; (split; [exact Hm|]); rewrite MS, <- E; cbn [bind rmap].
        -- cbn [Z.eqb]. rewrite add_plain. split; [reflexivity|]. split; [exact Hs|]. split; [discriminate|auto].
        -- destruct (Z.eqb_spec ret 0); [contradiction|]. split; [reflexivity|]. split; [exact Hs|]. split; [discriminate|auto].
    + intros k [(Fl & t' & k' & st' & X)|(m & Hm & E & _)]; [discriminate|]. right. exists m. split; [exact Hm|]. rewrite MS, <- E. now split.
    + intros [(Fl & t' & k' & st' & X)|(m & Hm & E & _)]; [discriminate|]. right. exists m. split; [exact Hm|]. rewrite MS, <- E. now split.
Qed.

Definition Agrees {A} (ok : oracle) (v : outcome (option A)) (w : outcome A) : Prop :=
  match v with Ok None => Failed ok | Ok (Some x) => w = Ok x | UB k => w = UB k | Blocked => w = Blocked end.
Lemma put_v ok pr cc hc key v d : vt (f_put ok pr cc hc key v d) (fun o => Agrees ok o (put_chunk pr key v d)).
Proof.
  unfold f_put. vs. apply v_call. intros n1. destruct (ok n1) eqn:O1; [|apply v_ret; now exists n1].
  destruct (put_chunk pr key v d) as [[v' out]|k|]; [|now apply v_ret..]. apply v_call. intros n2. destruct (ok n2) eqn:O2; [|apply v_ret; now exists n2].
  vs. apply v_call. intros n3. apply v_ret. destruct (ok n3) eqn:O3; [reflexivity|now exists n3].
Qed.
Lemma puts_v ok pr cc hc key : forall ds v, vt (f_puts ok pr cc hc key v ds) (fun o => Agrees ok o (put_chunks pr key v ds)).
Proof.
  induction ds as [|d ds IH]; intros v; cbn [f_puts put_chunks]; [now apply v_ret|]. apply v_call. intros n. destruct (ok n) eqn:O; [|apply v_ret; now exists n].
  eapply v_fbind; [apply put_v| | |].
  - intros [[v1 out]|] E; cbn [Agrees] in E; [|now apply v_ret]. rewrite E. cbn [bind]. eapply v_fbind; [apply IH| | |].
    + intros [[v2 out2]|] E2; cbn [Agrees] in E2; apply v_ret; [now rewrite E2|exact E2].
    + intros k E2. cbn [Agrees] in *. now rewrite E2.
    + intros E2. cbn [Agrees] in *. now rewrite E2.
  - intros k E. cbn [Agrees] in *. now rewrite E.
  - intros E. cbn [Agrees] in *. now rewrite E.
Qed.
Lemma seal_v ok pr cc hc ivb key iv file mask : (hc = None -> Failed ok) -> vt (f_seal ok pr cc hc ivb key iv file mask) (fun v =>
  match v with
  | Ok (None, _) => Failed ok
  | Ok (Some o, _) => encrypt_with pr key iv file mask = Ok (iv ++ o)
  | UB k => (k = NullDeref /\ Failed ok) \/ encrypt_with pr key iv file mask = UB k
  | Blocked => encrypt_with pr key iv file mask = Blocked
  end).
Proof.
  intros Hn. unfold f_seal. vs. apply v_call. intros n1. destruct (ok n1) eqn:O1; [|apply v_ret; now exists n1].
  apply v_obtain. intros n2. destruct (ok n2) eqn:O2; [|apply v_ret; now exists n2]. destruct hc as [h|]; [|apply v_ret; left; auto].
  vs. apply v_call. intros n3. destruct (ok n3) eqn:O3; [|apply v_ret; now exists n3]. vs. apply v_call. intros n4. destruct (ok n4) eqn:O4; [|apply v_ret; now exists n4].
  unfold encrypt_with. eapply v_fbind; [apply puts_v| | |].
  - intros [[v1 out1]|] E; cbn [Agrees] in E; [|now apply v_ret]. rewrite E. cbn [bind].
    eapply v_fbind with (mid := fun o => Agrees ok o (match mask with Some m => put_chunk pr key v1 m | None => Ok (v1, []) end)).
    + destruct mask; [apply put_v|now apply v_ret].
    + intros [[v2 out2]|] E2; cbn [Agrees] in E2; [|now apply v_ret]. rewrite E2. cbn [bind]. cbn zeta.
      vs. apply v_call. intros n5. destruct (ok n5) eqn:O5; [|apply v_ret; now exists n5]. apply v_call. intros n6. destruct (ok n6) eqn:O6; [|apply v_ret; now exists n6].
      vs. apply v_call. intros n7. destruct (ok n7) eqn:O7; [|apply v_ret; now exists n7]. apply v_call. intros n8. apply v_ret. destruct (ok n8) eqn:O8; [reflexivity|now exists n8].
    + intros k E2. cbn [Agrees] in E2. right. now rewrite E2.
    + intros E2. cbn [Agrees] in E2. now rewrite E2.
  - intros k E. cbn [Agrees] in E. right. now rewrite E.
  - intros E. cbn [Agrees] in E. now rewrite E.
Qed.

(** The bytes that were used as IV and as mask. *)
Definition Picked (ok : oracle) (w : raw) (s : source) : Prop :=
  f_rel s = f_rel (w_source w) /\ f_data s = f_data (w_source w) /\
  (f_iv s = f_iv (w_source w) \/ (f_iv s = w_iv w /\ Failed ok)) /\ (f_mask s = f_mask (w_source w) \/ (f_mask s = w_mask w /\ Failed ok)).
(** Failure, crash, or what the model without failures does. *)
Definition Either {A C} (ok : oracle) (g : A -> C) (v : outcome (cached * option A)) (w : outcome (option C)) : Prop :=
  (Failed ok /\ ((exists t', v = Ok (t', None)) \/ v = UB NullDeref)) \/ rmap (fun '(_, o) => option_map g o) v = w.

Lemma encrypt_v ok pr K t w : vt (f_encrypt ok pr K t w) (fun v => exists s, Picked ok w s /\
  ((Failed ok /\ ((exists t', v = Ok (t', None)) \/ v = UB NullDeref)) \/
   rmap (fun '(t', o) => (plain t', o)) v = cr_encrypt pr K (plain t) (f_rel s) (f_iv s) (f_mask s) (f_data s))).
Proof.
  unfold f_encrypt. set (s0 := w_source w).
  assert (Base : Picked ok w s0) by (repeat split; now left).
  apply v_obtain. intros n1. apply v_obtain. intros n2. destruct (ok n1) eqn:O1.
  2:{ apply v_ret. exists s0. split; [exact Base|]. left. split; [now exists n1|now right]. }
  vs. apply v_obtain. intros n3. destruct (ok n3) eqn:O3.
  2:{ apply v_ret. exists s0. split; [exact Base|]. left. split; [now exists n3|now right]. }
  apply v_rand. intros iv Hiv. vs. apply v_call. intros n4.
  destruct (ok n4) eqn:O4.
  2:{ apply (v_fbind _ _ (fun v => v = Ok (t, None, None))); [now apply v_ret| |intros k X; discriminate|discriminate].
      intros a [= ->]. vs. apply v_ret. exists s0. split; [exact Base|]. left. split; [now exists n4|left; now exists t]. }
  eapply (v_fbind _ _ (fun v => exists s, Picked ok w s /\ ((Failed ok /\ ((exists t' mac, v = Ok (t', None, mac)) \/ v = UB NullDeref)) \/
    rmap (fun '(t', o, _) => (plain t', o)) v = cr_encrypt pr K (plain t) (f_rel s) (f_iv s) (f_mask s) (f_data s)))).
  - eapply v_fbind; [apply (maskkey_v ok pr (f_mask s0) (w_mask w)); now right| | |].
    + intros [[[flag t1] key] store] Q.
      destruct Q as [(Fl & t' & k' & st' & [= -> -> -> ->])|(m & Hm & E & Hs & H1 & Hr)].
      { cbn [Z.ltb Z.compare]. apply v_ret. exists s0. split; [exact Base|]. left. split; [exact Fl|]. left. do 2 eexists. reflexivity. }
      cbn [rmap] in E.
      assert (Pk : Picked ok w {| f_rel := f_rel s0; f_data := f_data s0; f_iv := iv; f_mask := m |}).
      { split; [reflexivity|]. split; [reflexivity|]. cbn [f_iv f_mask]. split; [exact Hiv|exact Hm]. }
      destruct (flag <? 0)%Z eqn:Fn.
      { apply v_ret. eexists. split; [exact Pk|]. right. cbn [f_rel f_iv f_mask f_data]. unfold cr_encrypt. rewrite <- E. cbn [bind rmap]. now rewrite Fn. }
      assert (Em : (if (flag =? 0)%Z then None else Some store) = (if (flag =? 0)%Z then None else Some m)).
      { destruct Hr as [-> |[-> | ->]]; [reflexivity| |discriminate]. cbn [Z.eqb]. now rewrite (H1 eq_refl). }
      rewrite Em. eapply v_fbind; [apply seal_v| | |].
      * destruct (ok n2) eqn:O2; [discriminate|intros _; now exists n2].
      * intros [[o|] mac] Q; apply v_ret; eexists; (split; [exact Pk|]).
        -- right. cbn [f_rel f_iv f_mask f_data]. unfold cr_encrypt. rewrite <- E. cbn [bind rmap]. now rewrite Fn, Q.
        -- left. split; [exact Q|]. left. do 2 eexists. reflexivity.
      * intros k [[-> Fl]|Q]; eexists; (split; [exact Pk|]); [left; split; [exact Fl|now right]|right].
        cbn [f_rel f_iv f_mask f_data]. unfold cr_encrypt. rewrite <- E. cbn [bind rmap]. now rewrite Fn, Q.
      * intros Q. eexists. split; [exact Pk|]. right. cbn [f_rel f_iv f_mask f_data]. unfold cr_encrypt. rewrite <- E. cbn [bind rmap]. now rewrite Fn, Q.
    + intros k [(Fl & t' & k' & st' & X)|(m & Hm & E & _)]; [discriminate|].
      exists {| f_rel := f_rel s0; f_data := f_data s0; f_iv := iv; f_mask := m |}. split; [split; [reflexivity|]; split; [reflexivity|]; split; assumption|].
      right. cbn [f_rel f_iv f_mask f_data]. unfold cr_encrypt. now rewrite <- E.
    + intros [(Fl & t' & k' & st' & X)|(m & Hm & E & _)]; [discriminate|].
      exists {| f_rel := f_rel s0; f_data := f_data s0; f_iv := iv; f_mask := m |}. split; [split; [reflexivity|]; split; [reflexivity|]; split; assumption|].
      right. cbn [f_rel f_iv f_mask f_data]. unfold cr_encrypt. now rewrite <- E.
  - intros [[t1 out] mac] (s & Ps & Q). vs. apply v_ret. exists s. split; [exact Ps|]. destruct Q as [(Fl & [(t' & mac' & [= -> -> ->])|X])|Q]; [left; split; [exact Fl|left; now exists t']|discriminate|now right].
  - intros k (s & Ps & Q). exists s. split; [exact Ps|]. destruct Q as [(Fl & [(t' & mac' & X)|X])|Q]; [discriminate|left; split; [exact Fl|right; now injection X as ->]|now right].
  - intros (s & Ps & Q). exists s. split; [exact Ps|]. destruct Q as [(Fl & [(t' & mac' & X)|X])|Q]; [discriminate|discriminate|now right].
Qed.

Lemma picked_base ok ws : Forall2 (Picked ok) ws (map w_source ws).
Proof. induction ws as [|w ws IH]; [constructor|]. constructor; [repeat split; now left|exact IH]. Qed.
Lemma encrypt_all_v ok pr K : forall ws t, vt (f_encrypt_all ok pr K t ws) (fun v => exists ss, Forall2 (Picked ok) ws ss /\
  ((Failed ok /\ ((exists t', v = Ok (t', None)) \/ v = UB NullDeref)) \/ rmap snd v = encrypt_all pr K (plain t) ss)).
Proof.
  induction ws as [|w ws IH]; intros t; cbn [f_encrypt_all].
  - apply v_ret. exists []. split; [constructor|now right].
  - eapply v_fbind; [apply encrypt_v| | |].
    + intros [t1 o] (s & Ps & Q). destruct Q as [(Fl & [(t' & [= -> ->])|X])|Q]; [|discriminate|].
      { apply v_ret. exists (s :: map w_source ws). split; [constructor; [exact Ps|apply picked_base]|]. left. split; [exact Fl|left; now exists t']. }
      cbn [rmap] in Q. destruct o as [out|].
      * eapply v_fbind; [apply IH| | |].
        -- intros [t2 rest] (ss & Pss & R). apply v_ret. exists (s :: ss). split; [now constructor|].
           destruct R as [(Fl & [(t' & [= -> ->])|X])|R]; [left; split; [exact Fl|left; now exists t']|discriminate|]. right.
           cbn [encrypt_all rmap snd] in *. rewrite <- Q. cbn [bind]. now rewrite <- R.
        -- intros k (ss & Pss & R). exists (s :: ss). split; [now constructor|]. destruct R as [(Fl & [(t' & X)|X])|R]; [discriminate|left; split; [exact Fl|right; now injection X as ->]|].
           right. cbn [encrypt_all rmap] in *. rewrite <- Q. cbn [bind]. now rewrite <- R.
        -- intros (ss & Pss & R). exists (s :: ss). split; [now constructor|]. destruct R as [(Fl & [(t' & X)|X])|R]; [discriminate|discriminate|].
           right. cbn [encrypt_all rmap] in *. rewrite <- Q. cbn [bind]. now rewrite <- R.
      * apply v_ret. exists (s :: map w_source ws). split; [constructor; [exact Ps|apply picked_base]|]. right. cbn [encrypt_all rmap snd]. now rewrite <- Q.
    + intros k (s & Ps & Q). exists (s :: map w_source ws). split; [constructor; [exact Ps|apply picked_base]|].
      destruct Q as [(Fl & [(t' & X)|X])|Q]; [discriminate|left; split; [exact Fl|right; now injection X as ->]|]. right. cbn [encrypt_all rmap] in *. now rewrite <- Q.
    + intros (s & Ps & Q). exists (s :: map w_source ws). split; [constructor; [exact Ps|apply picked_base]|].
      destruct Q as [(Fl & [(t' & X)|X])|Q]; [discriminate|discriminate|]. right. cbn [encrypt_all rmap] in *. now rewrite <- Q.
Qed.
Lemma run_v ok pr K ws (post : outcome (cached * option (list bytes)) -> Prop) : vt (f_encrypt_all ok pr K [] ws) post -> vt (f_encrypt_run ok pr K ws) post.
Proof.
  intros H. unfold f_encrypt_run. apply v_malloc. intros n. vs. eapply v_fbind; [exact H| |auto|auto]. intros a Q. vs. now apply v_ret.
Qed.
