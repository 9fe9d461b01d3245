From Verif Require Import Base BaseProofs ParseModel ParseSpec ParseProofs WireModel WireSpec WireProofs
  LveModel LveSpec LveProofs LveSteps LveHist LveThms ToolModel ToolSpec SessionModel SessionSpec
  SessionProofs DummyModel.

(** ** Messages are read in one way only *)

Lemma sent_det al al' c c' d d' m : Sent al c d m -> Sent al' c' d' m -> c = c' /\ d = d'.
Proof.
  intros S S'. destruct (sent_shape _ _ _ _ S) as (Sd & E & _).
  destruct (sent_shape _ _ _ _ S') as (Sd' & E' & _).
  destruct (join_chars (header_words c) (header_words_good c)) as [J1 J2].
  destruct (join_chars (header_words c') (header_words_good c')) as [J1' J2'].
  destruct (header_then_det m (join (header_words c)) d (join (header_words c')) d') as [H1 H2];
    [now repeat split|now repeat split|].
  split; [|exact H2].
  apply (valid_det (join (header_words c) ++ []) c c').
  - apply valid_header; auto.
  - rewrite H1. apply valid_header; auto.
Qed.

Lemma first_reply a a' m m' b b' : Forall internal a -> Forall internal a' ->
  a ++ Reply m :: b = a' ++ Reply m' :: b' -> m = m'.
Proof.
  intros H. revert a'. induction H as [|x a Hx _ IH]; intros a' H' E.
  - destruct H' as [|y a' Hy _]; cbn in E; [congruence|]. injection E as <- _. destruct Hy.
  - destruct H' as [|y a' Hy H']; cbn in E.
    + injection E as -> _. destruct Hx.
    + injection E as _ E. exact (IH _ H' E).
Qed.

(** ** The state after VERSION and LIB *)

Lemma ready_calls {D} cfg (cs : list (link D * call)) : forall s,
  healthy_state s -> s_phase s = P_LICENSE -> Forall (fun '(k, c) => FairLink k /\ FairCall c) cs ->
  exists ds s1, api_calls cfg s [] cs = Ok (ds, s1, []) /\ healthy_state s1 /\ s_phase s1 = P_LICENSE.
Proof.
  induction cs as [|[k c] cs IH]; intros s HS SV F; cbn [api_calls].
  - exists [], s. auto.
  - apply Forall_cons_iff in F. destruct F as [F12 F3]. destruct F12 as [F1 F2].
    destruct (call_ok cfg k s c HS F1 F2) as (d & s1 & req & _ & St & E & HS1 & _). rewrite E. cbn [bind].
    assert (SV1 : s_phase s1 = P_LICENSE).
    { destruct (loop_after_lib cfg [{| t_env := k_env k; t_record := req; t_shutdown := true |}] s
                  (d_events d ++ []) s1 SV) as (P1 & L1 & A1).
      - cbn [lve_loop t_env t_record t_shutdown]. rewrite St, mbind_ok. reflexivity.
      - exact P1. }
    destruct (IH s1 HS1 SV1 F3) as (ds & s2 & E2 & K). rewrite E2. cbn [bind]. eauto.
Qed.

Lemma lib_phase {D} cfg (e : env D) s r d es s1 :
  s_phase s = P_TOOLS \/ s_phase s = P_LIB -> Request r C_LIB d -> AllocOk e ->
  lve_step cfg e s r = (es, Ok s1) -> s_phase s1 = P_LICENSE.
Proof.
  intros P R A E. rewrite (lib_step cfg e s r d P R A) in E. unfold after in E.
  destruct (handle_lib_tri cfg e false (set_phase s P_LICENSE) (zlen d) (Some (complete_payload d))) as [_ T].
  destruct (snd (handle_lib cfg e false _ _ _)) as [[s2 ok]|u|] eqn:H; try discriminate E.
  specialize (T _ eq_refl). cbn in T. injection E as _ <-. exact (proj1 T).
Qed.

Lemma reach_ready {D} cfg key (kv kl : link D) min max p mid rest :
  (1 <= max)%Z ->
  Forall (fun '(k, c) => FairLink k /\ FairCall c) ((kv, Version min max) :: (kl, LibPath p) :: mid) ->
  exists ds s, healthy_state s /\ s_phase s = P_LICENSE /\
    tool_session cfg (Some key) ((kv, Version min max) :: (kl, LibPath p) :: mid ++ rest) =
    do (ds2, s2, q2) <- api_calls cfg s [] rest ; Ok (ds ++ ds2, s2, q2).
Proof.
  intros Mx F.
  apply Forall_cons_iff in F. destruct F as [Fv F]. destruct Fv as [Fv1 Fv2].
  apply Forall_cons_iff in F. destruct F as [Fl F]. destruct Fl as [Fl1 Fl2].
  destruct (tool_session_start cfg key ((kv, Version min max) :: (kl, LibPath p) :: mid ++ rest)) as (b0 & _ & E).
  rewrite E. clear E.
  set (s0 := started b0). pose proof (started_healthy b0 : healthy_state s0) as HS0.
  cbn [api_calls].
  destruct (call_ok cfg kv s0 (Version min max) HS0 Fv1 Fv2) as (d1 & s1 & req1 & R1 & St1 & E1 & HS1 & _).
  rewrite E1. cbn [bind].
  destruct (call_request (k_alloc kv) (Version min max) (proj1 (proj2 Fv1)) Fv2) as (req1' & R1' & _ & _ & _ & V1).
  assert (req1' = req1) by congruence. subst req1'.
  assert (P0 : s_phase s0 = P_VERSION) by (subst s0; destruct b0; reflexivity).
  destruct (version_step cfg (k_env kv) s0 req1 _ P0 V1 eq_refl (proj1 (proj1 Fv1))) as [VS _].
  rewrite (VS Mx) in St1. assert (Es1 : s1 = set_phase s0 P_TOOLS) by congruence. subst s1. clear VS.
  destruct (call_ok cfg kl _ (LibPath p) HS1 Fl1 Fl2) as (d2 & s2 & req2 & R2 & St2 & E2 & HS2 & _).
  rewrite E2. cbn [bind].
  destruct (call_request (k_alloc kl) (LibPath p) (proj1 (proj2 Fl1)) Fl2) as (req2' & R2' & _ & _ & _ & V2).
  assert (req2' = req2) by congruence. subst req2'. cbn [call_cmd call_arg] in V2.
  assert (P2 : s_phase s2 = P_LICENSE).
  { eapply lib_phase; [|exact V2|exact (proj1 (proj1 Fl1))|exact St2]. now left. }
  rewrite api_calls_app.
  destruct (ready_calls cfg mid s2 HS2 P2 F) as (ds & s3 & E3 & HS3 & P3). rewrite E3. cbn [bind].
  exists (d1 :: d2 :: ds), s3. split; [exact HS3|]. split; [exact P3|].
  destruct (api_calls cfg s3 [] rest) as [[[x y] z]|u|]; reflexivity.
Qed.

(** ** Feature calls *)

Lemma feature_call {D} cfg (k : link D) s f :
  healthy_state s -> s_phase s = P_LICENSE -> FairLink k -> FairCall (Feature f) ->
  (forall p, e_lic_new (k_env k) p = Granted) ->
  exists d s1, api_call cfg k s [] (Feature f) = Ok (d, s1, []) /\
    ((exists v, d_result d = Some v) <-> e_checkout (k_env k) f = Granted) /\
    (forall t, e_checkout (k_env k) f = Refused (Some t) -> Says (d_error d) (firstn 2047 (cstr t))) /\
    (forall g b, In (Checkout g b) (d_events d) <-> g = f /\ b = lic_ok (e_checkout (k_env k) f)).
Proof.
  intros HS P FL FC LN. pose proof FL as (HE & Al & _). pose proof HE as (A & _ & _ & Hl & Hco & _).
  destruct (call_ok cfg k s (Feature f) HS FL FC) as (d & s1 & req & Rq & St & E & _ & An).
  exists d, s1. split; [exact E|].
  destruct (call_request (k_alloc k) (Feature f) Al FC) as (req' & Rq' & _ & _ & _ & R).
  assert (req' = req) by congruence. subst req'. cbn [call_cmd call_arg] in R.
  destruct (c17_feature cfg (k_env k) s req f P R A Hl Hco) as (a & m & s' & E17 & Ia & Y & N & _ & C).
  assert (MT : ManagerThere (k_env k) s) by (right; apply LN).
  destruct An as (req2 & m2 & a2 & b2 & al' & c & data & Rq2 & Ev & Ia2 & Ib2 & Sm & Pos & Er & _ & No & _).
  rewrite E17 in St.
  assert (Ev' : d_events d = Recv req :: a ++ [Reply m]) by congruence.
  assert (Em : m2 = m).
  { rewrite Ev' in Ev. assert (req2 = req) by congruence. subst req2. injection Ev as Ev.
    symmetry. exact (first_reply _ _ _ _ _ _ Ia Ia2 Ev). }
  subst m2.
  assert (SY : Sent (fun _ => true) {| c_id := C_YES; c_number := 0; c_length := 0 |} [] (B "YES" ++ [LF])).
  { change (B "YES" ++ [LF]) with (cmd_name C_YES ++ [LF]). rewrite <- send_simple_eq.
    apply (Sent_simple _ C_YES). reflexivity. }
  assert (CY : c_id c = C_YES <-> m = B "YES" ++ [LF]).
  { split; intro K.
    - destruct (sent_shape _ _ _ _ Sm) as (Sd & Es & _ & H0).
      destruct H0 as [-> _]; [now rewrite K|]. rewrite Es. unfold header_words. rewrite K. reflexivity.
    - rewrite K in Sm. destruct (sent_det _ _ _ _ _ _ _ Sm SY) as [-> _]. reflexivity. }
  split; [|split].
  - rewrite Pos. cbn [Positive]. rewrite CY, Y. tauto.
  - intros t Ht. specialize (N t MT Ht).
    pose proof (Hco f) as Ex. rewrite Ht in Ex. cbn in Ex. unfold InMemory in Ex.
    assert (SN : Sent (fun _ => true) {| c_id := C_NO; c_number := 0; c_length := zlen t |} t m).
    { rewrite N. apply (Sent_length _ C_NO t); [reflexivity|unfold LONG_MAX; lia|].
      apply (send_no_ok (fun _ => true)); [reflexivity|lia]. }
    destruct (sent_det _ _ _ _ _ _ _ Sm SN) as [-> ->]. exact (No eq_refl).
  - intros g b. rewrite Ev'. split.
    + intros [K|K]; [discriminate K|]. apply in_app_or in K as [K|[K|[]]]; [|discriminate K].
      apply C in K. tauto.
    + intros [-> ->]. right. apply in_or_app. left. apply C. auto.
Qed.

Lemma session_feature {D} cfg key (kv kl kf : link D) min max p mid f :
  (1 <= max)%Z ->
  Forall (fun '(k, c) => FairLink k /\ FairCall c)
    ((kv, Version min max) :: (kl, LibPath p) :: mid ++ [(kf, Feature f)]) ->
  (forall q, e_lic_new (k_env kf) q = Granted) ->
  exists ds d s,
    tool_session cfg (Some key) ((kv, Version min max) :: (kl, LibPath p) :: mid ++ [(kf, Feature f)]) =
      Ok (ds ++ [d], s, []) /\
    ((exists v, d_result d = Some v) <-> e_checkout (k_env kf) f = Granted) /\
    (forall t, e_checkout (k_env kf) f = Refused (Some t) -> Says (d_error d) (firstn 2047 (cstr t))) /\
    (forall g b, In (Checkout g b) (d_events d) <-> g = f /\ b = lic_ok (e_checkout (k_env kf) f)).
Proof.
  intros Mx F LN.
  change ((kv, Version min max) :: (kl, LibPath p) :: mid ++ [(kf, Feature f)]) with
    (((kv, Version min max) :: (kl, LibPath p) :: mid) ++ [(kf, Feature f)]) in F.
  apply Forall_app in F. destruct F as [F Ff]. apply Forall_cons_iff in Ff. destruct Ff as [Ff _].
  destruct Ff as [Ff1 Ff2].
  destruct (reach_ready cfg key kv kl min max p mid [(kf, Feature f)] Mx F) as (ds & s & HS & P & E).
  rewrite E. cbn [api_calls].
  destruct (feature_call cfg kf s f HS P Ff1 Ff2 LN) as (d & s1 & E1 & K). rewrite E1. cbn [bind].
  exists ds, d, s1. split; [reflexivity|exact K].
Qed.

(** ** The manager for tests *)

Lemma dummy_granted f : dummy_checkout f = Granted <-> cstr f = TEST_FEATURE.
Proof.
  unfold dummy_checkout. destruct (beq (cstr f) TEST_FEATURE) eqn:E.
  - apply beq_true in E. tauto.
  - apply beq_false in E. split; [discriminate|contradiction].
Qed.

Lemma dummy_session {D} cfg key (kv kl kf : link D) min max p mid f :
  (1 <= max)%Z -> (exists e, k_env kf = with_dummy e) ->
  Forall (fun '(k, c) => FairLink k /\ FairCall c)
    ((kv, Version min max) :: (kl, LibPath p) :: mid ++ [(kf, Feature f)]) ->
  exists ds d s,
    tool_session cfg (Some key) ((kv, Version min max) :: (kl, LibPath p) :: mid ++ [(kf, Feature f)]) =
      Ok (ds ++ [d], s, []) /\
    ((exists v, d_result d = Some v) <-> cstr f = TEST_FEATURE) /\
    (cstr f <> TEST_FEATURE -> Says (d_error d) (B "Feature not licensed")).
Proof.
  intros Mx (e & He) F.
  destruct (session_feature cfg key kv kl kf min max p mid f Mx F) as (ds & d & s & E & G & T & _).
  { intro q. rewrite He. reflexivity. }
  exists ds, d, s. split; [exact E|]. rewrite He in G, T. cbn [e_checkout with_dummy] in G, T.
  split; [rewrite G; apply dummy_granted|].
  intro N. specialize (T (B "Feature not licensed")).
  change (firstn 2047 (cstr (B "Feature not licensed"))) with (B "Feature not licensed") in T.
  apply T. unfold dummy_checkout. apply beq_false in N. now rewrite N.
Qed.

(** ** Checkouts in the trace are what the manager said *)

Definition honest {D} (e : env D) (ev : event) : Prop :=
  match ev with Checkout f b => b = lic_ok (e_checkout e f) | _ => True end.

Lemma reply_honest {D} (e : env D) o : tri (honest e) (fun _ => True) (reply o).
Proof. apply tri_reply; [|exact I]. intros. exact I. Qed.

Lemma step_honest {D} cfg (e : env D) s r : tri (honest e) (fun _ => True) (lve_step cfg e s r).
Proof.
  assert (Setup : forall s, tri (honest e) (fun _ => True) (setup_licensing e s)).
  { intro. eapply tri_conseq; [apply setup_licensing_tri| |auto]. intros ev (p & b & ->). exact I. }
  assert (Check : forall s, tri (honest e) (fun _ => True) (setup_check e s)).
  { intro. eapply tri_conseq; [apply setup_check_tri| |auto].
    intros ev [(p & b & ->)|(m & -> & _)]; exact I. }
  assert (Out : forall (s0 : lve D) o, tri (honest e) (fun _ => True) (run _ <- reply o ; ret s0)).
  { intros. eapply tri_bind; [apply reply_honest|]. intros _ _. apply tri_ret. exact I. }
  assert (Feat : forall s d, tri (honest e) (fun _ => True) (handle_feature e false s d)).
  { intros s0 d. unfold handle_feature. eapply tri_bind; [apply Check|]. intros [s1 ok] _.
    destruct ok; [|apply tri_ret; exact I].
    eapply (tri_bind _ (fun _ => True)); [apply tri_lift; auto|]. intros name _.
    eapply (tri_bind _ (fun _ => True)); [apply tri_emit; [reflexivity|exact I]|]. intros _ _.
    destruct (e_checkout e name) as [|[m|]]; [| |apply tri_crash];
      (eapply tri_bind; [apply reply_honest|intros _ _; apply tri_ret; exact I]). }
  assert (Glob : forall s, tri (honest e) (fun _ => True) (global_licence cfg e false s)).
  { intro s0. unfold global_licence. destruct (cfg_global cfg) as [f|]; [|apply tri_ret; exact I].
    destruct (s_approved s0); [|apply tri_ret; exact I].
    eapply tri_bind; [apply Setup|]. intros [s1 ref] _.
    eapply (tri_bind _ (fun _ => True)).
    { destruct ref; [apply tri_ret; exact I|].
      eapply (tri_bind _ (fun _ => True)); [apply tri_emit; [reflexivity|exact I]|]. intros _ _.
      apply tri_ret; exact I. }
    intros [[t|]|] _; [|apply tri_crash|apply tri_ret; exact I].
    eapply tri_bind; [apply reply_honest|]. intros _ _. apply tri_ret; exact I. }
  assert (Lib : forall s len d, tri (honest e) (fun _ => True)
      (run (s1, _) <- handle_lib cfg e false s len d ; ret s1)).
  { intros s0 len d. apply (tri_bind _ (fun _ => True)); [|intros [s1 ok] _; apply tri_ret; exact I].
    unfold handle_lib. destruct d as [p|]; [|apply tri_ret; exact I].
    destruct (len =? 0)%Z; [apply tri_ret; exact I|]. destruct (negb _); [apply tri_crash|].
    eapply (tri_bind _ (fun _ => True)); [apply tri_lift; auto|]. intros raw _.
    destruct (e_cr_create e _); [|apply tri_ret; exact I].
    eapply tri_bind; [apply Glob|]. intros [s3 go] _. destruct go; [|apply tri_ret; exact I].
    eapply tri_bind; [apply reply_honest|]. intros _ _. apply tri_ret; exact I. }
  unfold lve_step. eapply (tri_bind _ (fun _ => True)); [apply tri_emit; exact I|]. intros _ _.
  destruct (e_alloc e _); cbn [negb]; [|apply tri_crash].
  destruct (parse_command ERROR_SIZE (cstr r)) as [[g c] mm] eqn:X.
  destruct g; try apply Out.
  pose proof (valid_no_text _ _ _ _ X) as ->.
  assert (V : ValidLine (cstr r) c) by (apply (parse_valid_iff ERROR_SIZE); eauto).
  pose proof (valid_length_range _ _ V) as HL.
  unfold handle_command. destruct (next_phase (s_phase s) (c_id c)) as [p'|] eqn:N.
  2:{ eapply (tri_bind _ (fun _ => True)); [apply tri_lift; auto|]. intros t _. apply Out. }
  unfold dispatch. eapply (tri_bind _ (payload_for (c_length c))).
  { destruct (form_of (c_id c)); try (apply tri_ret; intros q [=]).
    apply tri_lift. intros d E. destruct (extract_data _ _ _) as [[d' n]|u|] eqn:Y; try discriminate.
    injection E as <-. eapply extract_payload_for; [|exact Y]. lia. }
  intros d Hd. destruct (s_phase s).
  - unfold handle_version. destruct (_ <? _)%Z; [|apply Out].
    eapply tri_bind; [apply reply_honest|]. intros _ _. apply tri_ret. exact I.
  - destruct (cmd_id_eqb (c_id c) C_TOOLS); [apply Out|apply Lib].
  - apply Lib.
  - destruct (cmd_id_eqb (c_id c) C_FEATURE).
    { eapply tri_bind; [apply Feat|]. intros [s1 ok] _. apply tri_ret. exact I. }
    destruct (cmd_id_eqb (c_id c) C_RETURNFEATURE).
    { eapply tri_conseq; [apply handle_returnfeature_tri| |auto].
      intros ev [(p & b & ->)|[(f & b & ->)|(m & -> & _)]]; exact I. }
    destruct (cmd_id_eqb (c_id c) C_LICENSE); [apply Out|].
    destruct (cmd_id_eqb (c_id c) C_RETURNLICENSE); [apply Out|].
    eapply tri_conseq; [apply handle_file_tri; exact Hd| |auto].
    intros ev H. destruct ev; try exact I. destruct H.
Qed.

Lemma session_honest {D} cfg key f (ts : list (turn D)) es o :
  Forall (fun t => e_checkout (t_env t) f <> Granted) ts -> session cfg key ts = (es, o) ->
  ~ In (Checkout f true) es.
Proof.
  intros F E.
  assert (K : forall a ev b, es = a ++ ev :: b -> ev <> Checkout f true).
  2:{ intro H. apply in_split in H as (a & b & H). exact (K _ _ _ H eq_refl). }
  eapply (session_invariant cfg key (fun t => e_checkout (t_env t) f <> Granted) (fun _ _ => True)
    (fun a ev => ev <> Checkout f true)); [auto| |exact F|exact E].
  intros pre s t Ht _. split; [|auto]. intros a ev b Ea ->.
  destruct (step_honest cfg (t_env t) s (t_record t)) as [H _].
  specialize (H (Checkout f true)). rewrite Ea in H.
  assert (X : honest (t_env t) (Checkout f true)) by (apply H, in_or_app; right; now left).
  cbn in X. destruct (e_checkout (t_env t) f); [congruence|discriminate X].
Qed.

Lemma dummy_no_files {D} cfg key g (ts : list (turn D)) es o m :
  cfg_global cfg = Some g -> cstr g <> TEST_FEATURE ->
  Forall (fun t => (exists e, t_env t = with_dummy e) /\ forall p, e_cr_create (t_env t) p <> None) ts ->
  session cfg key ts = (es, o) -> In (Reply m) es -> ~ CarriesFile m.
Proof.
  intros G N F E Im Cf. apply in_split in Im as (a & b & Es).
  assert (F1 : Forall (fun t => forall p, e_cr_create (t_env t) p <> None) ts)
    by (eapply Forall_impl; [|exact F]; cbn; tauto).
  assert (F2 : Forall (fun t => e_checkout (t_env t) g <> Granted) ts).
  { eapply Forall_impl; [|exact F]. intros t [(e & ->) _]. cbn. now rewrite dummy_granted. }
  apply (session_honest cfg key g ts es o F2 E). rewrite Es. apply in_or_app. left.
  exact (gl_session cfg key g ts es o G F1 E a m b Es Cf).
Qed.
