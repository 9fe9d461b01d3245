(** Proofs about the life of a licence manager. *)
From Verif Require Import Base BaseProofs ParseModel WireModel LveModel MainModel ReleaseModel ReleaseSpec.

Lemma life_app a l b m c : Life a l b -> Life b m c -> Life a (l ++ m) c.
Proof. intros H. revert m c. induction H; intros m0 c0 K; cbn [app]; try (constructor; auto; fail). exact K. Qed.
Lemma life_det a l b : Life a l b -> forall c, Life a l c -> b = c.
Proof. induction 1; intros c K; inversion K; subst; auto. Qed.
Lemma life_split a l m c : Life a (l ++ m) c -> exists b, Life a l b /\ Life b m c.
Proof.
  revert a. induction l as [|x l IH]; intros a H; [exists a; split; [constructor|exact H]|]. cbn [app] in H.
  inversion H; subst; match goal with K : Life _ (l ++ m) c |- _ => destruct (IH _ K) as (b0 & K1 & K2) end; exists b0; (split; [constructor; exact K1|exact K2]).
Qed.

(** A function run from a state with or without a manager; [f] reads off the result whether there is one afterwards. *)
Definition goes {A} (b : bool) (f : A -> bool) (m : M A) : Prop :=
  exists b', Life b (map Does (fst m)) b' /\ forall a, snd m = Ok a -> b' = f a.
Lemma goes_ret {A} b (f : A -> bool) a : b = f a -> goes b f (ret a).
Proof. intros ->. exists (f a). split; [constructor|]. cbn. intros x [= ->]. reflexivity. Qed.
Lemma goes_crash {A} b (f : A -> bool) r : goes b f (crash r).
Proof. exists b. split; [constructor|discriminate]. Qed.
Lemma goes_lift {A} b (o : outcome A) : goes b (fun _ => b) (lift o).
Proof. exists b. split; [constructor|reflexivity]. Qed.
Lemma goes_reply b o : goes b (fun _ => b) (reply o).
Proof.
  exists b. split; [|reflexivity]. destruct o as [ms|r|]; cbn; try constructor.
  induction ms as [|x ms IH]; cbn; constructor; exact IH.
Qed.
Lemma goes_bind {A C} b (f : A -> bool) (g : C -> bool) (m : M A) k : goes b f m -> (forall a, goes (f a) g (k a)) -> goes b g (mbind m k).
Proof.
  intros (b1 & L & E) H. destruct m as [es [a|r|]]; cbn [fst snd mbind] in *.
  - rewrite (E a eq_refl) in L. destruct (H a) as (b2 & L2 & E2). destruct (k a) as [es2 o]. cbn [fst snd] in *. exists b2. cbn [fst snd]. split; [|exact E2].
    rewrite map_app. exact (life_app _ _ _ _ _ L L2).
  - exists b1. split; [exact L|discriminate].
  - exists b1. split; [exact L|discriminate].
Qed.
Lemma goes_weak {A C} b (g : C -> bool) (m : M A) k : goes b (fun _ => b) m -> (forall a, goes b g (k a)) -> goes b g (mbind m k).
Proof. intros H K. exact (goes_bind b (fun _ => b) g m k H K). Qed.
Lemma goes_if {A} b (f : A -> bool) (c : bool) m n : goes b f m -> goes b f n -> goes b f (if c then m else n).
Proof. now destruct c. Qed.

Definition lic_fst {D A} (x : lve D * A) : bool := s_lic (fst x).

Lemma setup_goes {D} (e : env D) s : goes (s_lic s) lic_fst (setup_licensing e s) /\
  forall s1 r, snd (setup_licensing e s) = Ok (s1, r) -> r = None -> s_lic s1 = true.
Proof.
  unfold setup_licensing. destruct (s_lic s) eqn:L.
  - split; [apply goes_ret; symmetry; exact L|]. cbn. intros s1 r [= <- <-] _. exact L.
  - cbv zeta. destruct (e_lic_new e _) as [|t]; cbn [lic_ok].
    + split; [|cbn; intros s1 r [= <- <-] _; reflexivity]. exists true. split; [cbn; do 2 constructor|]. cbn. intros a [= <-]. reflexivity.
    + split; [|cbn; intros s1 r [= <- <-] [=]]. exists false. split; [cbn; do 2 constructor|]. cbn. intros a [= <-]. symmetry. exact L.
Qed.
(** After a bind the second part may use that a manager is there. *)
Lemma goes_setup {D C} (e : env D) s (g : C -> bool) k :
  (forall s1 r, (r = None -> s_lic s1 = true) -> goes (s_lic s1) g (k (s1, r))) -> goes (s_lic s) g (mbind (setup_licensing e s) k).
Proof.
  intros H. destruct (setup_goes e s) as [(b1 & L & E) T]. destruct (setup_licensing e s) as [es [[s1 r]|u|]]; cbn [fst snd mbind] in *.
  - specialize (E _ eq_refl). unfold lic_fst in E. cbn [fst] in E. subst b1. destruct (H s1 r (T s1 r eq_refl)) as (b2 & L2 & E2).
    destruct (k (s1, r)) as [es2 o]. cbn [fst snd] in *. exists b2. cbn [fst snd]. split; [|exact E2]. rewrite map_app. exact (life_app _ _ _ _ _ L L2).
  - exists b1. split; [exact L|discriminate].
  - exists b1. split; [exact L|discriminate].
Qed.
Lemma goes_emit_out f ok : goes true (fun _ => true) (emit (Checkout f ok)).
Proof. exists true. split; [cbn; do 2 constructor|reflexivity]. Qed.
Lemma goes_emit_in f ok : goes true (fun _ => true) (emit (Checkin f ok)).
Proof. exists true. split; [cbn; do 2 constructor|reflexivity]. Qed.

Lemma global_goes {D} cfg (e : env D) q s : goes (s_lic s) lic_fst (global_licence cfg e q s).
Proof.
  unfold global_licence. destruct (cfg_global cfg) as [f|]; [|now apply goes_ret]. apply goes_if; [|now apply goes_ret].
  apply goes_setup. intros s1 r T. apply goes_weak.
  - destruct r as [t|]; [now apply goes_ret|]. rewrite (T eq_refl). apply goes_weak; [apply goes_emit_out|]. intros _. now apply goes_ret.
  - intros [[t|]|]; [|apply goes_crash|now apply goes_ret]. cbv zeta. apply goes_weak; [|intros _; now apply goes_ret].
    apply goes_if; [now apply goes_ret|apply goes_reply].
Qed.
Lemma handle_lib_goes {D} cfg (e : env D) q s len d : goes (s_lic s) lic_fst (handle_lib cfg e q s len d).
Proof.
  unfold handle_lib. destruct d as [p|]; [|now apply goes_ret]. apply goes_if; [now apply goes_ret|]. apply goes_if; [apply goes_crash|].
  apply goes_weak; [apply goes_lift|]. intros raw. cbv zeta. destruct (e_cr_create e _) as [c|]; [|now apply goes_ret].
  eapply (goes_bind _ lic_fst); [exact (global_goes cfg e q (set_cr (set_lib s (Some (trim raw))) (Some c)))|]. intros [s3 go]. unfold lic_fst at 1. cbn [fst].
  apply goes_if; [|now apply goes_ret]. apply goes_weak; [apply goes_if; [now apply goes_ret|apply goes_reply]|]. intros _. apply goes_ret.
  unfold validate_directory, lic_fst. now destruct (e_stat e _).
Qed.
Lemma goes_check {D C} (e : env D) s (g : C -> bool) k :
  (forall s1 ok, (ok = true -> s_lic s1 = true) -> goes (s_lic s1) g (k (s1, ok))) -> goes (s_lic s) g (mbind (setup_check e s) k).
Proof.
  intros H. unfold setup_check.
  assert (X : exists b', Life (s_lic s) (map Does (fst (setup_check e s))) b' /\
     forall a, snd (setup_check e s) = Ok a -> b' = s_lic (fst a) /\ (snd a = true -> s_lic (fst a) = true)).
  { unfold setup_check. destruct (setup_goes e s) as [(b1 & L & E) T]. destruct (setup_licensing e s) as [es [[s1 r]|u|]]; cbn [fst snd mbind] in *.
    - specialize (E _ eq_refl). unfold lic_fst in E. cbn [fst] in E. subst b1. destruct r as [[t|]|].
      + destruct (goes_reply (s_lic s1) (send_error (e_alloc e) ERR_LICENSE (Some t))) as (b2 & L2 & E2).
        destruct (reply _) as [es2 [[]|u|]]; cbn [fst snd mbind ret] in *; exists b2; rewrite ?app_nil_r, map_app; (split; [exact (life_app _ _ _ _ _ L L2)|]); intros a [= <-].
        cbn. split; [exact (E2 tt eq_refl)|discriminate].
      + exists (s_lic s1). cbn. rewrite app_nil_r. split; [exact L|discriminate].
      + exists (s_lic s1). cbn. rewrite app_nil_r. split; [exact L|]. intros a [= <-]. cbn. split; [reflexivity|]. intros _. exact (T s1 None eq_refl eq_refl).
    - exists b1. split; [exact L|discriminate].
    - exists b1. split; [exact L|discriminate]. }
  fold (setup_check e s). destruct X as (b1 & L & E). destruct (setup_check e s) as [es [[s1 ok]|u|]]; cbn [fst snd mbind] in *.
  - destruct (E _ eq_refl) as [-> T]. cbn [fst snd] in T, L. destruct (H s1 ok T) as (b2 & L2 & E2).
    destruct (k (s1, ok)) as [es2 o]. cbn [fst snd] in *. exists b2. cbn [fst snd]. split; [|exact E2]. rewrite map_app. exact (life_app _ _ _ _ _ L L2).
  - exists b1. split; [exact L|discriminate].
  - exists b1. split; [exact L|discriminate].
Qed.
Lemma handle_feature_goes {D} (e : env D) q s d : goes (s_lic s) lic_fst (handle_feature e q s d).
Proof.
  unfold handle_feature. apply goes_check. intros s1 ok T. destruct ok; [|now apply goes_ret]. rewrite (T eq_refl).
  apply goes_weak; [apply goes_lift|]. intros n. cbv zeta. apply goes_weak; [apply goes_emit_out|]. intros _.
  assert (R : forall x, goes true (@lic_fst D bool) (ret (s1, x))) by (intros x; apply goes_ret; symmetry; exact (T eq_refl)).
  destruct (e_checkout e n) as [|[t|]].
  - apply goes_weak; [apply goes_if; [now apply goes_ret|apply goes_reply]|intros _; apply R].
  - apply goes_if; [apply R|]. apply goes_weak; [apply goes_reply|intros _; apply R].
  - apply goes_if; [apply R|apply goes_crash].
Qed.
Lemma handle_return_goes {D} (e : env D) s d : goes (s_lic s) s_lic (handle_returnfeature e s d).
Proof.
  unfold handle_returnfeature. apply goes_check. intros s1 ok T. destruct ok; [|now apply goes_ret]. rewrite (T eq_refl).
  apply goes_weak; [apply goes_lift|]. intros n. cbv zeta. apply goes_weak; [apply goes_emit_in|]. intros _.
  assert (R : goes true (@s_lic D) (ret s1)) by (apply goes_ret; symmetry; exact (T eq_refl)).
  destruct (e_checkin e n) as [|[t|]].
  - apply goes_weak; [apply goes_reply|intros _; exact R].
  - apply goes_weak; [apply goes_reply|intros _; exact R].
  - apply goes_crash.
Qed.
Lemma read_file_goes {D} b (e : env D) p : goes b (fun _ => b) (read_file e p).
Proof.
  assert (E : exists o, read_file e p = ([ReadFile p], Ok o)).
  { unfold read_file. cbn [mbind emit ret]. destruct (e_file e p) as [t|t|z a [t|]]; cbv zeta; try (eexists; reflexivity).
    - destruct (e_alloc e (z + 1)%Z); [destruct (zlen (firstn (Z.to_nat z) a) <? z)%Z|]; eexists; reflexivity.
    - destruct (e_alloc e (z + 1)%Z); eexists; reflexivity. }
  destruct E as [o ->]. exists b. split; [cbn; do 2 constructor|reflexivity].
Qed.
Lemma file_error_goes {D} b (e : env D) c n t : goes b (fun _ => b) (file_error e c n t).
Proof. unfold file_error. apply goes_if; [apply goes_reply|now apply goes_ret]. Qed.
Lemma handle_file_goes {D} (e : env D) s len d : goes (s_lic s) s_lic (handle_file e s len d).
Proof.
  assert (R : forall o, goes (s_lic s) s_lic (mbind (reply o) (fun _ => ret s))).
  { intros o. apply goes_weak; [apply goes_reply|]. intros _. now apply goes_ret. }
  unfold handle_file. apply goes_if; [destruct (s_errmsg s) as [m|]; [apply R|now apply goes_ret]|]. cbv zeta. apply goes_if; [apply R|].
  destruct (s_lib s) as [lib|]; [|destruct d; apply goes_crash]. destruct d as [p|]; [|apply goes_crash].
  apply goes_weak; [apply goes_lift|]. intros rel. apply goes_weak; [apply read_file_goes|]. intros [m|file]; [apply R|].
  apply goes_if; [|apply R]. apply goes_if.
  - apply goes_weak; [apply file_error_goes|]. intros _. now apply goes_ret.
  - apply goes_weak; [apply goes_lift|]. intros [cr [x|]]; (apply goes_weak; [first [apply goes_reply|apply file_error_goes]|]); intros _; now apply goes_ret.
Qed.
Lemma dispatch_goes {D} cfg (e : env D) s p' c r : goes (s_lic s) s_lic (dispatch cfg e s p' c r).
Proof.
  assert (K : forall {A} (m : M (lve D * A)), goes (s_lic s) lic_fst m -> goes (s_lic s) s_lic (mbind m (fun '(s1, _) => ret s1))).
  { intros A m H. apply goes_bind with lic_fst; [exact H|]. intros [s1 x]. now apply goes_ret. }
  assert (R : forall o (s1 : lve D), s_lic s1 = s_lic s -> goes (s_lic s) s_lic (mbind (reply o) (fun _ => ret s1))).
  { intros o s1 E. apply goes_weak; [apply goes_reply|]. intros _. now apply goes_ret. }
  unfold dispatch. apply goes_weak; [destruct (form_of (c_id c)); first [apply goes_lift|now apply goes_ret]|]. intros data. cbv zeta.
  change (s_lic s) with (s_lic (set_phase s p')) at 1.
  destruct (s_phase s).
  - unfold handle_version. cbv zeta. apply goes_if; apply R; reflexivity.
  - apply goes_if; [unfold handle_tools; now apply R|]. apply K. exact (handle_lib_goes cfg e false (set_phase s p') (c_length c) data).
  - apply K. exact (handle_lib_goes cfg e false (set_phase s p') (c_length c) data).
  - apply goes_if; [apply K; exact (handle_feature_goes e false (set_phase s p') data)|].
    apply goes_if; [exact (handle_return_goes e (set_phase s p') data)|].
    apply goes_if; [unfold handle_license; now apply R|]. apply goes_if; [unfold handle_returnlicense; now apply R|].
    exact (handle_file_goes e (set_phase s p') (c_length c) data).
Qed.
Lemma step_goes {D} cfg (e : env D) s r : goes (s_lic s) s_lic (lve_step cfg e s r).
Proof.
  unfold lve_step. apply goes_weak; [exists (s_lic s); split; [cbn; do 2 constructor|reflexivity]|]. intros _.
  apply goes_if; [apply goes_crash|]. destruct (parse_command ERROR_SIZE (cstr r)) as [[g c] m].
  assert (E : s_lic (match m with Some t => set_buf s t | None => s end) = s_lic s) by now destruct m.
  set (s0 := match m with Some t => set_buf s t | None => s end) in *. rewrite <- E. clearbody s0. clear E.
  assert (R : forall o (s1 : lve D), s_lic s1 = s_lic s0 -> goes (s_lic s0) s_lic (mbind (reply o) (fun _ => ret s1))).
  { intros o s1 E. apply goes_weak; [apply goes_reply|]. intros _. now apply goes_ret. }
  cbv zeta. destruct g; try (apply R; reflexivity). unfold handle_command. destruct (next_phase (s_phase s0) (c_id c)) as [p'|]; [apply dispatch_goes|].
  apply goes_weak; [apply goes_lift|]. intros t. now apply R.
Qed.
Lemma loop_goes {D} cfg (ts : list (turn D)) s : goes (s_lic s) s_lic (lve_loop cfg s ts).
Proof.
  revert s. induction ts as [|t ts IH]; intros s; [now apply goes_ret|]. cbn [lve_loop]. apply goes_bind with s_lic; [apply step_goes|].
  intros s1. apply goes_if; [now apply goes_ret|apply IH].
Qed.
Lemma session_goes {D} cfg key (ts : list (turn D)) : goes false s_lic (session cfg key ts).
Proof.
  unfold session. apply goes_bind with s_lic; [|intros s; apply loop_goes]. unfold validate_pubkey. apply goes_weak; [apply goes_lift|].
  intros ok. apply goes_if; now apply goes_ret.
Qed.

Lemma served_life {D} cfg key (ts : list (turn D)) acts o :
  serving (session cfg key ts) = (acts, o) -> exists b, Life false acts b /\ (o = Ok tt -> b = false).
Proof.
  intros H. destruct (session_goes cfg key ts) as (b & L & E). destruct (session cfg key ts) as [es [s|u|]]; cbn [serving fst snd] in *; injection H as <- <-.
  - specialize (E s eq_refl). subst b. exists false. split; [|reflexivity]. apply life_app with (s_lic s); [exact L|]. unfold shutdown. destruct (s_lic s); cbn; repeat constructor.
  - exists b. split; [exact L|discriminate].
  - exists b. split; [exact L|discriminate].
Qed.
(** The last thing of all is the shutdown. *)
Lemma served_shape {D} (m : M (lve D)) acts : serving m = (acts, Ok tt) -> exists es s, m = (es, Ok s) /\ acts = map Does es ++ shutdown s.
Proof. destruct m as [es [s|u|]]; cbn; intros [= <-]; eauto. Qed.
Lemma before_write_prefix l : exists r, l = before_write l ++ r /\ (r = [] \/ exists a r', r = a :: r' /\ writes a = true).
Proof.
  induction l as [|a l (r & E & H)]; [exists []; auto|]. cbn [before_write]. destruct (writes a) eqn:W.
  - exists (a :: l). split; [reflexivity|]. right. eauto.
  - exists r. split; [cbn; now rewrite <- E|exact H].
Qed.

Lemma close_last l r X : l ++ CloseNotify :: r = X ++ [CloseNotify] -> ~ In CloseNotify X -> r = [].
Proof.
  intros E N. destruct (rev r) as [|c q] eqn:R; [apply (f_equal (@rev act)) in R; now rewrite rev_involutive in R|]. exfalso. apply N.
  assert (r = rev q ++ [c]) by (apply (f_equal (@rev act)) in R; now rewrite rev_involutive in R). subst r.
  rewrite app_comm_cons, app_assoc in E. apply app_inj_tail in E. destruct E as [<- _]. apply in_or_app. right. now left.
Qed.
Lemma no_close es b : ~ In CloseNotify (map Does es ++ (if b : bool then [FreeManager] else [])).
Proof. intros H. apply in_app_or in H. destruct H as [H|H]; [apply in_map_iff in H; destruct H as (x & [=] & _)|destruct b; [destruct H as [[=]|[]]|destruct H]]. Qed.
Lemma quiet_life {D} cfg key (ts : list (turn D)) acts ignored n :
  serving (session cfg key ts) = (acts, Ok tt) -> (ignored = true \/ forall m, ~ In (Does (Reply m)) (skipn n acts)) ->
  Life false (performed ignored n acts) false.
Proof.
  intros H Q. destruct (served_life cfg key ts acts (Ok tt) H) as (b & L & E). rewrite (E eq_refl) in L. clear E.
  destruct ignored; [exact L|]. destruct Q as [[=]|Q]. destruct (served_shape _ _ H) as (es & s & _ & Ea).
  destruct (before_write_prefix (skipn n acts)) as (r & Er & W).
  assert (Es : acts = performed false n acts ++ r) by (unfold performed; rewrite <- app_assoc, <- Er; symmetry; apply firstn_skipn).
  destruct W as [-> | (a & r' & -> & W)]; [rewrite app_nil_r in Es; now rewrite <- Es|].
  assert (a = CloseNotify).
  { destruct a as [[]| |]; try discriminate W; [|reflexivity]. exfalso. apply (Q message). rewrite Er. apply in_or_app. right. now left. }
  subst a. assert (r' = []).
  { rewrite Ea in Es at 1. unfold shutdown in Es. rewrite app_assoc in Es. symmetry in Es. exact (close_last _ _ _ Es (no_close es (s_lic s))). }
  subst r'. rewrite Es in L. destruct (life_split _ _ _ _ L) as (b1 & L1 & L2). inversion L2 as [| | | | | | | | |? ? ? L3]; subst. inversion L3; subst. exact L1.
Qed.

(** Before a reply there are only events of the session. *)
Lemma events_before {D} es (s : lve D) l1 l2 e : map Does es ++ shutdown s = l1 ++ l2 -> In (Does e) l2 -> exists k, l1 = map Does k.
Proof.
  revert l1. induction es as [|y es IH]; intros l1 E I.
  - exfalso. cbn [map app] in E. assert (In (Does e) (shutdown s)) by (rewrite E; apply in_or_app; now right).
    unfold shutdown in H. destruct (s_lic s); cbn in H; intuition discriminate.
  - destruct l1 as [|x l1]; [now exists []|]. cbn [map app] in E. injection E as <- E. destruct (IH l1 E I) as (k & ->). now exists (y :: k).
Qed.
Lemma life_stays b k b' : Life b (map Does k) b' -> b = true -> b' = true.
Proof. remember (map Does k) as l eqn:E. intros H. revert k E. induction H; intros [|y k0] E Hb; try discriminate E; try discriminate Hb; try exact Hb; try (injection E; intros; subst; eauto; fail). Qed.
Lemma life_made b k b' p : Life b (map Does k) b' -> In (LicNew p true) k -> b' = true.
Proof.
  intros H I. apply in_split in I. destruct I as (k1 & k2 & ->). rewrite map_app in H. cbn [map] in H. destruct (life_split _ _ _ _ H) as (c & _ & H2).
  inversion H2; subst. now apply (life_stays true k2).
Qed.
Lemma killed_life {D} cfg key (ts : list (turn D)) acts n p m :
  serving (session cfg key ts) = (acts, Ok tt) -> In (Does (LicNew p true)) (firstn n acts) -> In (Does (Reply m)) (skipn n acts) ->
  Life false (performed false n acts) true /\ ~ In FreeManager (performed false n acts).
Proof.
  intros H I R. destruct (served_life cfg key ts acts (Ok tt) H) as (b & L & E). destruct (served_shape _ _ H) as (es & s & _ & Ea).
  destruct (before_write_prefix (skipn n acts)) as (r & Er & W).
  assert (Es : acts = performed false n acts ++ r) by (unfold performed; rewrite <- app_assoc, <- Er; symmetry; apply firstn_skipn).
  assert (Ir : In (Does (Reply m)) r).
  { rewrite Er in R. apply in_app_or in R. destruct R as [R|R]; [|exact R]. exfalso. clear - R. induction (skipn n acts) as [|a l IH]; [destruct R|].
    cbn [before_write] in R. destruct (writes a) eqn:Wa; [destruct R|]. destruct R as [-> |R]; [discriminate Wa|now apply IH]. }
  assert (K : exists k, performed false n acts = map Does k) by (eapply events_before; [rewrite <- Ea; exact Es|exact Ir]).
  destruct K as (k & K). split.
  - rewrite Es in L. destruct (life_split _ _ _ _ L) as (b1 & L1 & _). rewrite K in *. rewrite (life_made false k b1 p) in L1; [exact L1|exact L1|].
    assert (In (Does (LicNew p true)) (map Does k)) by (rewrite <- K; unfold performed; apply in_or_app; now left).
    apply in_map_iff in H0. destruct H0 as (x & [= ->] & Ix). exact Ix.
  - rewrite K. intros Hf. apply in_map_iff in Hf. destruct Hf as (x & [=] & _).
Qed.
