(** Invariants of whole sessions and progress. *)
From Verif Require Import Base BaseProofs ParseModel ParseSpec ParseProofs DecProofs
  WireModel WireSpec WireProofs LveModel LveSpec LveProofs LveSteps.

(** ** the error buffer never overflows *)

Definition anyev (ev : event) : Prop := True.

Ltac tb := match goal with
  | |- tri _ _ (ret _) => apply tri_ret; cbn; auto
  | |- tri _ _ (crash _) => apply tri_crash
  | |- tri _ _ (mbind (ret _) _) => rewrite mbind_ret
  | |- tri _ _ (mbind (reply _) _) =>
      eapply (tri_bind _ (fun _ => True)); [apply tri_reply; [intros; exact I|exact I]|intros _ _]
  | |- tri _ _ (mbind (emit _) _) =>
      eapply (tri_bind _ (fun _ => True)); [apply tri_emit; exact I|intros _ _]
  | |- tri _ _ (mbind (lift _) _) =>
      eapply (tri_bind _ (fun _ => True)); [apply tri_lift; intros; exact I|intros ? _]
  | |- tri _ _ (mbind (if ?q then _ else _) _) => destruct q
  | |- tri _ _ (match ?x with _ => _ end) => destruct x eqn:?
  end.

Lemma setup_licensing_buf {D} (e : env D) s :
  tri anyev (fun '(s1, _) => s_buf s1 = s_buf s) (setup_licensing e s).
Proof. unfold setup_licensing. repeat tb. Qed.

Lemma setup_check_buf {D} (e : env D) s :
  tri anyev (fun '(s1, _) => s_buf s1 = s_buf s) (setup_check e s).
Proof. unfold setup_check. eapply tri_bind; [apply setup_licensing_buf|]. intros [s1 x] H. repeat tb. Qed.

Lemma global_licence_buf {D} cfg (e : env D) q s :
  tri anyev (fun '(s1, _) => s_buf s1 = s_buf s) (global_licence cfg e q s).
Proof.
  unfold global_licence. tb; [|tb]. tb; [|tb].
  eapply tri_bind; [apply setup_licensing_buf|]. intros [s1 x] H.
  eapply (tri_bind _ (fun _ => True)); [repeat tb|]. intros y _. repeat tb.
Qed.

Lemma handle_lib_buf {D} cfg (e : env D) q s len d :
  tri anyev (fun '(s1, _) => s_buf s1 = s_buf s) (handle_lib cfg e q s len d).
Proof.
  unfold handle_lib. tb; [|tb]. tb; [tb|]. tb; [tb|]. tb. tb; [|tb].
  eapply tri_bind; [apply global_licence_buf|]. intros [s1 x] H. cbn in H.
  repeat tb; unfold validate_directory; destruct (e_stat e _); cbn; auto.
Qed.

Lemma handle_feature_buf {D} (e : env D) q s d :
  tri anyev (fun '(s1, _) => s_buf s1 = s_buf s) (handle_feature e q s d).
Proof. unfold handle_feature. eapply tri_bind; [apply setup_check_buf|]. intros [s1 x] H. repeat tb. Qed.

Lemma handle_returnfeature_buf {D} (e : env D) s d :
  tri anyev (fun s1 => s_buf s1 = s_buf s) (handle_returnfeature e s d).
Proof. unfold handle_returnfeature. eapply tri_bind; [apply setup_check_buf|]. intros [s1 x] H. repeat tb. Qed.

Lemma file_error_any {D} (e : env D) c n t : tri anyev (fun _ => True) (file_error e c n t).
Proof. unfold file_error. tb; [apply tri_reply; [intros; exact I|exact I]|tb]. Qed.

Lemma handle_file_buf {D} (e : env D) s len d :
  tri anyev (fun s1 => s_buf s1 = s_buf s) (handle_file e s len d).
Proof.
  unfold handle_file. tb; [repeat tb|]. tb; [repeat tb|]. tb; [|tb]. tb; [|tb]. tb.
  eapply (tri_bind _ (fun _ => True)); [unfold read_file; repeat tb|]. intros x _.
  tb; [repeat tb|]. tb; [|repeat tb]. tb.
  - eapply tri_bind; [apply file_error_any|]. intros _ _. repeat tb.
  - tb. tb. tb; [repeat tb|]. eapply tri_bind; [apply file_error_any|]. intros _ _. repeat tb.
Qed.

Lemma handle_version_buf {D} (e : env D) s n :
  length (s_buf s) < ERROR_SIZE ->
  tri anyev (fun s1 => length (s_buf s1) < ERROR_SIZE) (handle_version e s n).
Proof.
  intros H. unfold handle_version. tb; [tb|repeat tb].
  apply tri_ret. cbn [s_buf set_phase set_buf].
  assert (K : ERROR_SIZE <> 0) by discriminate.
  pose proof (snprintf_zlen ERROR_SIZE (B "Minimum supported protocol version is " ++ print_dec MIN_PROTOCOL_VERSION) K).
  unfold zlen in *. lia.
Qed.

Lemma dispatch_buf {D} cfg (e : env D) s p' c r :
  length (s_buf s) < ERROR_SIZE ->
  tri anyev (fun s1 => length (s_buf s1) < ERROR_SIZE) (dispatch cfg e s p' c r).
Proof.
  intros H. unfold dispatch.
  eapply (tri_bind _ (fun _ => True)).
  { destruct (form_of (c_id c)); try (apply tri_ret; exact I). apply tri_lift. auto. }
  intros d _.
  assert (L : tri anyev (fun s1 => length (s_buf s1) < ERROR_SIZE)
     (run (s1, _) <- handle_lib cfg e false (set_phase s p') (c_length c) d ; ret s1)).
  { eapply tri_bind; [apply handle_lib_buf|]. intros [s1 b] E. apply tri_ret. cbn in E. congruence. }
  destruct (s_phase s).
  - apply handle_version_buf. exact H.
  - destruct (cmd_id_eqb _ _); [|exact L]. unfold handle_tools. repeat tb.
  - exact L.
  - tb. { eapply tri_bind; [apply handle_feature_buf|]. intros [s1 b] E. apply tri_ret. cbn in E. congruence. }
    tb. { eapply tri_conseq; [apply handle_returnfeature_buf|auto|]. cbn. intros s1 ->. exact H. }
    tb. { unfold handle_license. repeat tb. }
    tb. { unfold handle_returnlicense. repeat tb. }
    eapply tri_conseq; [apply handle_file_buf|auto|]. cbn. intros s1 ->. exact H.
Qed.

Lemma lve_step_buf {D} cfg (e : env D) s r s' :
  length (s_buf s) < ERROR_SIZE -> snd (lve_step cfg e s r) = Ok s' ->
  length (s_buf s') < ERROR_SIZE.
Proof.
  intros H. unfold lve_step, emit. rewrite mbind_ok. cbn [snd].
  destruct (negb _); [discriminate|].
  destruct (parse_command ERROR_SIZE (cstr r)) as [[g c] m] eqn:X.
  assert (H0 : length (s_buf (match m with Some t => set_buf s t | None => s end)) < ERROR_SIZE).
  { destruct m as [t|]; [|exact H]. cbn [s_buf set_buf].
    eapply parse_text_fits; [|exact X]. unfold ERROR_SIZE; lia. }
  assert (K : forall t s0, length (s_buf s0) < ERROR_SIZE ->
     snd (run _ <- reply (send_error (e_alloc e) ERR_NOT_UNDERSTOOD t) ; ret s0) = Ok s' ->
     length (s_buf s') < ERROR_SIZE).
  { intros t s0 H1. destruct (reply _) as [es [[]|u|]]; cbn; try discriminate. intros [= <-]. exact H1. }
  destruct g; try (apply K; exact H0).
  pose proof (valid_no_text _ _ _ _ X) as ->.
  assert (V : ValidLine (cstr r) c) by (apply (parse_valid_iff ERROR_SIZE); eauto).
  unfold handle_command. destruct (next_phase (s_phase s) (c_id c)) as [p'|] eqn:N.
  - apply (dispatch_buf cfg e s p' c r H).
  - destruct (invalid_text_ok (s_phase s) (c_id c) (valid_not_undefined _ _ V)) as (t & E & L).
    rewrite E, mbind_lift_ok. apply K. cbn [s_buf set_buf]. unfold ERROR_SIZE. lia.
Qed.

Lemma reachable_buf {D} cfg (s : lve D) : Reachable cfg s -> length (s_buf s) < ERROR_SIZE.
Proof.
  intros (key & ts & es & E).
  refine (proj2 (session_invariant cfg key (fun _ => True) (fun _ s => length (s_buf s) < ERROR_SIZE)
     (fun _ _ => True) _ _ ts es (Ok s) _ E) s eq_refl).
  - intros ok _. destruct ok; cbn; unfold ERROR_SIZE; lia.
  - intros pre s0 t _ H. split; [auto|]. intros s' H'. eapply lve_step_buf; eauto.
  - apply Forall_forall. auto.
Qed.

(** ** unacceptable records *)

Lemma not_acceptable_step {D} cfg (e : env D) s r :
  length (s_buf s) < ERROR_SIZE -> AllocOk e -> NotAcceptable s r ->
  exists text s', lve_step cfg e s r = ([Recv r; Reply (error_message 1 text)], Ok s') /\
    SameSession s s' /\ length text < ERROR_SIZE.
Proof.
  intros Hb A [(g & Rj)|(c & V & N)].
  - destruct (lve_step_rejected cfg e s r g Rj (A _)) as (s0 & S & L & E).
    assert (L0 : length (s_buf s0) < ERROR_SIZE) by (destruct L; congruence).
    exists (s_buf s0), s0. split; [|auto]. rewrite E.
    rewrite send_error_ok; [reflexivity|apply A|unfold ERR_NOT_UNDERSTOOD; lia|].
    unfold zlen, ERROR_SIZE in *. lia.
  - destruct (invalid_text_ok (s_phase s) (c_id c) (valid_not_undefined _ _ V)) as (t & E & L).
    exists t, (set_buf s t).
    split; [|split; [repeat split|unfold ERROR_SIZE; lia]].
    rewrite (lve_step_valid cfg e s r c V (A _)). unfold handle_command.
    apply next_phase_none in N. rewrite N, E, mbind_lift_ok.
    rewrite send_error_ok; [reflexivity|apply A|unfold ERR_NOT_UNDERSTOOD; lia|].
    unfold zlen. lia.
Qed.

(** ** history of the handshake *)

Lemma accepted_app h h' : AcceptedVersion h -> AcceptedVersion (h ++ h').
Proof.
  intros (a & v & b & -> & H). exists a, v, (b ++ h'). split; [|exact H].
  rewrite <- app_assoc. reflexivity.
Qed.
Lemma lib_after_app h h' : LibAfterVersion h -> LibAfterVersion (h ++ h').
Proof.
  intros (a & v & b & -> & H). exists a, v, (b ++ h'). split; [|exact H].
  rewrite <- app_assoc. reflexivity.
Qed.

Definition hist {D} (h : list event) (s : lve D) : Prop :=
  match s_phase s with
  | P_VERSION => True
  | P_TOOLS | P_LIB => AcceptedVersion h
  | P_LICENSE => LibAfterVersion h
  end.

Definition needs_lib (h : list event) (ev : event) : Prop :=
  match ev with
  | Recv _ => True
  | Reply m => CarriesFile m -> LibAfterVersion h
  | ReadFile _ | LicNew _ _ | Checkout _ _ | Checkin _ _ => LibAfterVersion h
  end.

Lemma version_step_events {D} cfg (e : env D) s r s' :
  s_phase s = P_VERSION -> AsksVersion r -> snd (lve_step cfg e s r) = Ok s' ->
  fst (lve_step cfg e s r) = [Recv r; Reply (B "VERSION 1" ++ [LF])].
Proof.
  intros P (c & V & I & N) E.
  destruct (e_alloc e (zlen r + 1)%Z) eqn:A.
  - rewrite (no_payload_step cfg e s r c P_TOOLS V A); [|rewrite I; discriminate|rewrite P, I; reflexivity].
    rewrite P. cbn zeta. unfold handle_version, MIN_PROTOCOL_VERSION, MAX_PROTOCOL_VERSION.
    destruct (Z.ltb_spec (c_number c) 1); [lia|]. reflexivity.
  - exfalso. revert E. unfold lve_step, emit. rewrite mbind_ok, A. discriminate.
Qed.

Lemma hist_step {D} cfg (e : env D) pre s r :
  hist pre s ->
  (forall a ev b, fst (lve_step cfg e s r) = a ++ ev :: b -> needs_lib (pre ++ a) ev) /\
  (forall s', snd (lve_step cfg e s r) = Ok s' -> hist (pre ++ fst (lve_step cfg e s r)) s').
Proof.
  intros H. destruct (lve_step_tri cfg e s r) as (es & o & E & P1 & P2).
  split.
  - rewrite E. cbn [fst]. intros [|x a] ev b Eq.
    { injection Eq as <- _. exact I. }
    injection Eq as <- Eq.
    assert (Hin : In ev es) by (rewrite Eq; apply in_or_app; right; now left).
    specialize (P1 ev Hin).
    assert (F1 : s_phase s = P_LICENSE -> LibAfterVersion (pre ++ Recv r :: a)).
    { intros P. unfold hist in H. rewrite P in H. now apply lib_after_app. }
    assert (F2 : s_phase s = P_TOOLS \/ s_phase s = P_LIB -> Asks r C_LIB ->
                 LibAfterVersion (pre ++ Recv r :: a)).
    { intros P L. exists pre, r, a. split; [reflexivity|]. split; [|exact L].
      unfold hist in H. destruct P as [P|P]; rewrite P in H; exact H. }
    destruct ev; cbn in *; try tauto.
  - intros s' Hs.
    assert (M : Moves s r s') by (apply P2; rewrite E in Hs; exact Hs).
    unfold hist in *. destruct M as [F _ _ _ _|Fv Ft V _ _ _ _|Ft Fl V _ _ _ _|Ft Fl V _ _ _].
    + rewrite F. destruct (s_phase s); auto using accepted_app, lib_after_app.
    + rewrite Ft. rewrite (version_step_events cfg e s r s' Fv V Hs).
      exists pre, r, []. auto.
    + rewrite Fl. rewrite Ft in H. now apply accepted_app.
    + rewrite Fl, E. cbn [fst]. exists pre, r, es. split; [reflexivity|]. split; [|exact V].
      destruct Ft as [Ft|Ft]; rewrite Ft in H; exact H.
Qed.

Lemma session_needs_lib {D} cfg key (ts : list (turn D)) es o a ev b :
  session cfg key ts = (es, o) -> es = a ++ ev :: b -> needs_lib a ev.
Proof.
  intros E Eq.
  refine (proj1 (session_invariant cfg key (fun _ => True) hist needs_lib _ _ ts es o _ E) a ev b Eq).
  - intros ok _. destruct ok; exact I.
  - intros pre s t _. apply hist_step.
  - apply Forall_forall. auto.
Qed.

Lemma in_split_ev {A} (x : A) l : In x l -> exists a b, l = a ++ x :: b.
Proof. apply in_split. Qed.

(** ** after LIB the library and the approval stay *)

Lemma loop_after_lib {D} cfg (ts : list (turn D)) s es s' :
  s_phase s = P_LICENSE -> lve_loop cfg s ts = (es, Ok s') ->
  s_phase s' = P_LICENSE /\ s_lib s' = s_lib s /\ s_approved s' = s_approved s.
Proof.
  intros P E.
  pose proof (loop_invariant cfg (fun _ => True)
    (fun _ (x : lve D) => s_phase x = P_LICENSE /\ s_lib x = s_lib s /\ s_approved x = s_approved s)
    (fun _ _ => True)) as K.
  assert (St : forall (pre : list event) (x : lve D) (t : turn D), True ->
     s_phase x = P_LICENSE /\ s_lib x = s_lib s /\ s_approved x = s_approved s ->
     (forall a ev b, fst (lve_step cfg (t_env t) x (t_record t)) = a ++ ev :: b -> True) /\
     (forall s', snd (lve_step cfg (t_env t) x (t_record t)) = Ok s' ->
        s_phase s' = P_LICENSE /\ s_lib s' = s_lib s /\ s_approved s' = s_approved s)).
  { intros pre x t _ (H1 & H2 & H3). split; [auto|]. intros y Hy.
    destruct (lve_step_tri cfg (t_env t) x (t_record t)) as (es' & o & E' & _ & P2).
    rewrite E' in Hy. cbn in Hy. specialize (P2 y Hy).
    destruct P2 as [F L A _ _|Fv _ _ _ _ _ _|Ft _ _ _ _ _ _|Ft _ _ _ _ _]; [|congruence|congruence|].
    - rewrite F, L, A. auto.
    - destruct Ft; congruence. }
  specialize (K St ts [] s). 
  destruct K as [_ K]; [apply Forall_forall; auto|auto|].
  rewrite E in K. exact (K s' eq_refl).
Qed.

(** The versions and LIB commands after LIB are refused: they are not acceptable. *)
Lemma after_lib_not_acceptable {D} (s : lve D) r :
  s_phase s = P_LICENSE -> Asks r C_LIB \/ Asks r C_VERSION \/ Asks r C_TOOLS -> NotAcceptable s r.
Proof.
  intros P H. right.
  destruct H as [(c & V & I)|[(c & V & I)|(c & V & I)]]; exists c; (split; [exact V|]); rewrite P, I;
    intros K; inversion K.
Qed.

(** ** library path *)

Lemma lib_sets_path {D} cfg (e : env D) s r d s' :
  s_phase s = P_TOOLS \/ s_phase s = P_LIB -> Request r C_LIB d -> d <> [] -> AllocOk e ->
  snd (lve_step cfg e s r) = Ok s' ->
  exists lib, s_lib s' = Some lib /\ Trimmed d lib /\ s_phase s' = P_LICENSE.
Proof.
  intros P R Hd A E. rewrite (lib_step cfg e s r d P R A) in E. unfold after in E. cbn [snd] in E.
  destruct (snd (handle_lib cfg e false (set_phase s P_LICENSE) (zlen d) (Some (complete_payload d))))
    as [[s1 ok]|u|] eqn:K; try discriminate. injection E as <-.
  exists (trim d). split; [|split; [now apply trim_spec|]].
  - revert K. unfold handle_lib. pose proof (zlen_pos d Hd).
    destruct (Z.eqb_spec (zlen d) 0); [lia|]. rewrite A. cbn [negb].
    rewrite complete_bytes, mbind_lift_ok.
    destruct (e_cr_create e _) as [dd|]; [|intros [= <- _]; reflexivity].
    pose proof (global_licence_tri cfg e false (set_cr (set_lib (set_phase s P_LICENSE) (Some (trim d))) (Some dd))) as [_ T].
    destruct (global_licence _ _ _ _) as [es [[s3 go]|u|]]; [|discriminate|discriminate].
    cbn [snd] in T. specialize (T (s3, go) eq_refl). cbn in T. destruct T as (_ & T & _).
    rewrite mbind_ok. cbn [snd]. destruct go.
    + cbn. unfold validate_directory. destruct (e_stat e _); intros [= <- _]; exact T.
    + intros [= <- _]. exact T.
  - pose proof (handle_lib_tri cfg e false (set_phase s P_LICENSE) (zlen d) (Some (complete_payload d))) as [_ T].
    specialize (T _ K). cbn in T. apply T.
Qed.

(** ** unapproved tools *)

Lemma validate_in k keys : exists b, validate (Some k) keys = Ok b /\ (b = true <-> In k keys).
Proof.
  induction keys as [|x l (b & E & H)]; cbn.
  - exists false. split; [reflexivity|]. split; [discriminate|tauto].
  - destruct (beq_spec k x) as [->|N]; [exists true; tauto|].
    exists b. split; [exact E|]. rewrite H. split; [tauto|]. intros [->|K]; [congruence|exact K].
Qed.

Definition unapproved {D} (s : lve D) : Prop :=
  s_approved s = false /\ Small (s_errmsg s) /\
  (s_err s = 4 \/ s_err s = 5 \/ s_err s = 8)%Z.

Lemma unapproved_step {D} cfg (e : env D) s r s' :
  unapproved s -> snd (lve_step cfg e s r) = Ok s' -> unapproved s'.
Proof.
  intros (A & M & C) E.
  destruct (lve_step_tri cfg e s r) as (es & o & E' & _ & P2). rewrite E' in E. cbn in E.
  specialize (P2 s' E). unfold unapproved.
  destruct P2 as [_ _ H1 H2 H3|_ _ _ _ H1 H2 H3|_ _ _ _ H1 H2 H3|_ _ _ H1 _ H2].
  - rewrite H1, H2, H3. auto.
  - rewrite H1, H2, H3. auto.
  - rewrite H1, H2, H3. auto.
  - split; [destruct (s_approved s'); [rewrite H1 in A by reflexivity; congruence|reflexivity]|].
    destruct H2 as [[H2 H3]|[[[H2|H2] H3]|(_ & H2 & _)]]; [|auto|auto|congruence].
    rewrite H2, H3. auto.
Qed.

Lemma unapproved_session {D} cfg k (ts : list (turn D)) es o :
  ~ In k (cfg_keys cfg) -> session cfg (Some k) ts = (es, o) ->
  (forall a ev b, es = a ++ ev :: b ->
     match ev with Reply m => ~ CarriesFile m | ReadFile _ => False | _ => True end) /\
  (forall s, o = Ok s -> unapproved s).
Proof.
  intros N E.
  refine (session_invariant cfg (Some k) (fun _ => True) (fun _ s => unapproved s)
    (fun _ ev => match ev with Reply m => ~ CarriesFile m | ReadFile _ => False | _ => True end)
    _ _ ts es o _ E).
  - intros ok V. destruct (validate_in k (cfg_keys cfg)) as (b & V' & H). rewrite V in V'.
    injection V' as <-. destruct ok; [exfalso; tauto|]. split; [reflexivity|]. split; [small|cbn; tauto].
  - intros pre s t _ U. split; [|intros s'; now apply unapproved_step].
    intros a ev b Eq. destruct (lve_step_tri cfg (t_env t) s (t_record t)) as (es' & o' & E' & P1 & _).
    rewrite E' in Eq. cbn in Eq. destruct U as (U & _).
    destruct a as [|x a]; [injection Eq as <- _; exact I|]. injection Eq as _ Eq.
    specialize (P1 ev). rewrite Eq in P1. specialize (P1 (in_elt _ _ _)).
    destruct ev; try exact I.
    + cbn in P1. intros Hc. destruct (P1 Hc) as (_ & _ & K & _). congruence.
    + cbn in P1. destruct P1 as (_ & _ & K & _). congruence.
  - apply Forall_forall. auto.
Qed.

(** ** global licence *)

(** The feature was checked out successfully. *)
Definition gl {D} (f : bytes) (h : list event) (s : lve D) : Prop :=
  match s_phase s with
  | P_LICENSE => s_approved s = true -> s_lib s <> None -> In (Checkout f true) h
  | _ => s_lib s = None
  end.

Lemma global_licence_approved {D} cfg (e : env D) s f es s1 go :
  cfg_global cfg = Some f -> global_licence cfg e false s = (es, Ok (s1, go)) ->
  s_approved s1 = true -> In (Checkout f true) es.
Proof.
  intros G. unfold global_licence. rewrite G. destruct (s_approved s) eqn:Ap.
  2:{ intros [= <- <- <-]. congruence. }
  destruct (setup_licensing e s) as [es1 [[s0 ref]|u|]]; [|discriminate|discriminate].
  rewrite mbind_ok. cbn [fst snd]. destruct ref as [[t|]|].
  - rewrite mbind_ret. destruct (e_alloc e _); [|discriminate].
    destruct (reply _) as [es2 [[]|u|]]; cbn [mbind ret fst snd]; try discriminate.
    intros [= <- <- <-] Q. discriminate Q.
  - rewrite mbind_ret. discriminate.
  - unfold emit, ret. destruct (e_checkout e f) as [|t]; cbn [lic_ok].
    + cbn. intros [= <- <- <-] _. apply in_or_app. right. now left.
    + cbn [mbind app]. destruct t as [t|]; [|discriminate]. destruct (e_alloc e _); [|discriminate].
      destruct (reply _) as [es2 [[]|u|]]; cbn [mbind ret fst snd app]; try discriminate.
      intros [= <- <- <-] Q. discriminate Q.
Qed.

Lemma handle_lib_global {D} cfg (e : env D) s len d f es s1 ok :
  cfg_global cfg = Some f -> (forall p, e_cr_create e p <> None) ->
  handle_lib cfg e false s len d = (es, Ok (s1, ok)) ->
  s_approved s1 = true -> s_lib s1 <> s_lib s -> In (Checkout f true) es.
Proof.
  intros G C. unfold handle_lib. destruct d as [p|]; [|intros [= <- <- <-]; cbn; congruence].
  destruct (len =? 0)%Z; [intros [= <- <- <-]; cbn; congruence|].
  destruct (negb _); [discriminate|].
  destruct (payload_bytes p) as [raw|u|]; [|discriminate|discriminate]. rewrite mbind_lift_ok.
  destruct (e_cr_create e _) as [dd|] eqn:Cr; [|destruct (C _ Cr)].
  destruct (global_licence cfg e false _) as [es1 [[s3 go]|u|]] eqn:GL; [|discriminate|discriminate].
  rewrite mbind_ok. cbn [fst snd]. destruct go.
  - cbn. intros [= <- E] A _. apply in_or_app. left. eapply global_licence_approved; eauto.
    rewrite <- A. unfold validate_directory in E. destruct (e_stat e _); injection E as <- _; reflexivity.
  - intros [= <- <- <-] A _. cbn [ret fst]. apply in_or_app. left. eapply global_licence_approved; eauto.
Qed.

Lemma lib_step_global {D} cfg (e : env D) s r f s' :
  cfg_global cfg = Some f -> (forall p, e_cr_create e p <> None) ->
  (s_phase s = P_TOOLS \/ s_phase s = P_LIB) -> Asks r C_LIB ->
  snd (lve_step cfg e s r) = Ok s' -> s_approved s' = true -> s_lib s' <> s_lib s ->
  In (Checkout f true) (fst (lve_step cfg e s r)).
Proof.
  intros G C P (c & V & Ic) E A L.
  destruct (e_alloc e (zlen r + 1)%Z) eqn:Al.
  2:{ revert E. unfold lve_step, emit. rewrite mbind_ok, Al. discriminate. }
  rewrite (lve_step_valid cfg e s r c V Al) in *. cbn [fst snd] in *. right.
  unfold handle_command in *.
  assert (N : next_phase (s_phase s) (c_id c) = Some P_LICENSE)
    by (destruct P as [P|P]; rewrite P, Ic; reflexivity).
  rewrite N in *. unfold dispatch in *. rewrite Ic in *. cbn [form_of] in *.
  change (form_of C_LIB) with F_LENGTH in *. cbn iota in *.
  destruct (do (d, _) <- extract_data (e_alloc e) (c_length c) r ; Ok d) as [d|u|]; [|discriminate|discriminate].
  rewrite mbind_lift_ok in *.
  assert (K : snd (run (s1, _) <- handle_lib cfg e false (set_phase s P_LICENSE) (c_length c) d ; ret s1) = Ok s' ->
     In (Checkout f true) (fst (run (s1, _) <- handle_lib cfg e false (set_phase s P_LICENSE) (c_length c) d ; ret s1))).
  { rewrite mbind_fst_eq. cbn [fst snd].
    destruct (handle_lib _ _ _ _ _ _) as [es [[s1 ok]|u|]] eqn:HL; [|discriminate|discriminate].
    cbn [fst snd]. intros [= ->]. eapply handle_lib_global; eauto. }
  destruct P as [P|P]; rewrite P in *; exact (K E).
Qed.

Lemma gl_session {D} cfg key f (ts : list (turn D)) es o :
  cfg_global cfg = Some f ->
  Forall (fun t => forall p, e_cr_create (t_env t) p <> None) ts ->
  session cfg key ts = (es, o) ->
  forall a m b, es = a ++ Reply m :: b -> CarriesFile m -> In (Checkout f true) a.
Proof.
  intros G HT E.
  pose proof (session_invariant cfg key (fun t => forall p, e_cr_create (t_env t) p <> None) (@gl D f)
    (fun h ev => match ev with Reply m => CarriesFile m -> In (Checkout f true) h | _ => True end)) as K.
  destruct (K) with (3 := HT) (4 := E) as [K1 _].
  - intros ok _. destruct ok; reflexivity.
  - intros pre s t Ht H.
    destruct (lve_step_tri cfg (t_env t) s (t_record t)) as (es' & o' & E' & P1 & P2).
    split.
    + rewrite E'. cbn [fst]. intros [|x a] ev b Eq; [injection Eq as <- _; exact I|].
      injection Eq as <- Eq. specialize (P1 ev). rewrite Eq in P1. specialize (P1 (in_elt _ _ _)).
      destruct ev; try exact I. intros Hc. destruct (P1 Hc) as (F & _ & A & L).
      unfold gl in H. rewrite F in H. apply in_or_app. left. auto.
    + intros s' Hs. pose proof Hs as Hs'. rewrite E' in Hs'. cbn in Hs'. specialize (P2 s' Hs'). unfold gl in *.
      destruct P2 as [F L A _ _|Fv Ft _ L _ _ _|Ft Fl _ L _ _ _|Ft Fl V A L _].
      * rewrite F. destruct (s_phase s); try congruence. intros H1 H2. apply in_or_app. left.
        apply H; congruence.
      * rewrite Ft. rewrite Fv in H. congruence.
      * rewrite Fl. rewrite Ft in H. congruence.
      * rewrite Fl. intros H1 H2. apply in_or_app. right.
        apply (lib_step_global cfg (t_env t) s (t_record t) f s'); auto.
        assert (s_lib s = None) by (destruct Ft as [Ft|Ft]; rewrite Ft in H; exact H). congruence.
  - intros a m b Eq Hc. exact (K1 a (Reply m) b Eq Hc).
Qed.

(** ** progress *)

Definition healthy_state {D} (s : lve D) : Prop :=
  length (s_buf s) < ERROR_SIZE /\
  (s_phase s = P_LICENSE -> s_lib s <> None) /\
  (forall l, s_lib s = Some l -> InMemory l) /\
  (s_approved s = false -> exists m, s_errmsg s = Some m /\ InMemory m /\ (0 <= s_err s < 10)%Z).

(** The message is one made by the send functions. *)
Definition proper (m : bytes) : Prop := exists al c data, Sent al c data m.

Lemma proper_error code t : (0 <= code < 10)%Z -> (zlen t <= LONG_MAX)%Z -> proper (error_message code t).
Proof.
  intros C L. exists (fun _ => true). eexists _, t.
  apply (Sent_number_length _ C_ERROR code t); [reflexivity|unfold LONG_MIN, LONG_MAX; lia|exact L|].
  apply (send_error_ok (fun _ => true)); [reflexivity|exact C|unfold LONG_MAX in L; lia].
Qed.
Lemma proper_filecont d : (zlen d <= LONG_MAX)%Z -> proper (filecont_message d).
Proof.
  intros L. exists (fun _ => true). eexists _, d.
  apply (Sent_length _ C_FILECONT d); [reflexivity|exact L|].
  apply (send_filecont_ok (fun _ => true)); [reflexivity|unfold LONG_MAX in L; lia].
Qed.
Lemma proper_no d : (zlen d <= LONG_MAX)%Z -> proper (length_message (B "NO") d).
Proof.
  intros L. exists (fun _ => true). eexists _, d.
  apply (Sent_length _ C_NO d); [reflexivity|exact L|].
  apply (send_no_ok (fun _ => true)); [reflexivity|unfold LONG_MAX in L; lia].
Qed.
Lemma proper_simple id : form_of id = F_SIMPLE -> proper (cmd_name id ++ [LF]).
Proof. intros F. exists (fun _ => true). eexists _, []. rewrite <- send_simple_eq. now apply Sent_simple. Qed.
Lemma proper_version n : (0 <= n < 10)%Z -> proper (B "VERSION" ++ [SP] ++ print_dec n ++ [LF]).
Proof.
  intros H. exists (fun _ => true). eexists _, [].
  pose proof (Sent_number (fun _ => true) C_VERSION n eq_refl) as S.
  rewrite send_number_eq in S by lia. apply S. unfold LONG_MIN, LONG_MAX. lia.
Qed.

Definition answered {D} (r : bytes) (m : M (lve D)) (Q : lve D -> Prop) : Prop :=
  exists a msg b s', m = (Recv r :: a ++ Reply msg :: b, Ok s') /\ Forall internal a /\
    Forall internal b /\ proper msg /\ Q s'.

Lemma trim_le d : (zlen (trim d) <= zlen d)%Z.
Proof.
  destruct d as [|x d]; [cbn; lia|].
  destruct (trim_spec (x :: d)) as (sl & E & _); [discriminate|].
  rewrite E at 2. rewrite zlen_app. pose proof (zlen_nonneg sl). lia.
Qed.

Lemma header_then_le r h d : HeaderThen r h d -> (zlen d <= zlen r)%Z.
Proof. intros (-> & _). rewrite zlen_app. pose proof (zlen_nonneg h). unfold zlen in *. cbn [length]. lia. Qed.

Lemma file_answered {D} cfg (e : env D) s r d :
  healthy_state s -> Healthy e -> s_phase s = P_LICENSE -> Request r C_FILE d -> InMemory d ->
  answered r (lve_step cfg e s r) healthy_state.
Proof.
  intros (H1 & H2 & H3 & H4) (A & Hc & Hd & Hl & Hco & Hci & Hf) P R Id.
  assert (HS : healthy_state s) by (repeat split; auto).
  destruct (s_approved s) eqn:Ap.
  2:{ destruct (H4 eq_refl) as (m & E & Im & C).
      exists [], (error_message (s_err s) m), [], s. split; [|split; [|split; [|split]]]; auto.
      - apply (file_unapproved cfg e s r d m); auto.
      - apply proper_error; [exact C|unfold InMemory in Im; unfold LONG_MAX; lia]. }
  destruct (s_lib s) as [lib|] eqn:L; [|destruct (H2 P eq_refl)].
  assert (Il : InMemory lib) by auto.
  rewrite (file_step cfg e s r d P R A), (handle_file_eq e s lib d A Ap L). cbn zeta.
  set (path := file_path lib (cstr d)).
  assert (Lp : (zlen path < 2^62)%Z).
  { unfold path, file_path. rewrite !zlen_app. pose proof (cstr_le lib). pose proof (cstr_le d).
    change (zlen [SLASH]) with 1%Z. unfold InMemory, zlen in *. lia. }
  assert (RF : exists x, read_file e path = ([ReadFile path], Ok x) /\
     match x with inl m => (zlen m < 2048)%Z | inr b => InMemory b end).
  { unfold read_file, emit. rewrite mbind_ok. specialize (Hf path).
    assert (K : DEFAULT_MSG_SIZE <> 0) by discriminate.
    assert (T : forall t, (zlen (snprintf DEFAULT_MSG_SIZE t) < 2048)%Z).
    { intros t. pose proof (snprintf_zlen DEFAULT_MSG_SIZE t K). unfold DEFAULT_MSG_SIZE in *. lia. }
    assert (F : forall n b, InMemory b -> InMemory (firstn n b)).
    { intros n b. unfold InMemory, zlen. rewrite firstn_length. lia. }
    destruct (e_file e path) as [t|t|sz av fe].
    - eexists. split; [reflexivity|apply T].
    - eexists. split; [reflexivity|apply T].
    - rewrite A. destruct fe; [destruct (_ <? _)%Z|]; (eexists; split; [reflexivity|]); first [apply T|apply F; exact Hf]. }
  destruct RF as (x & RF & Hx). rewrite RF, mbind_ok.
  assert (HS' : forall cr, healthy_state (set_cr s cr)) by (intros cr; exact HS).
  destruct x as [m|b].
  - rewrite send_error_ok; [|apply A|unfold ERR_FILE_IO; lia|lia].
    exists [ReadFile path], (error_message ERR_FILE_IO m), [], s. split; [reflexivity|]. split; [repeat constructor|]. split; [constructor|split; [|exact HS]].
    apply proper_error; [unfold ERR_FILE_IO; lia|unfold LONG_MAX; lia].
  - destruct (is_moc (cstr d)).
    + destruct (Hd (s_cr s) (cstr d) b) as (cr & o & E & Ho). rewrite E, mbind_lift_ok.
      destruct o as [pl|].
      * assert (Ip : InMemory pl) by auto.
        rewrite send_filecont_ok; [|apply A|unfold InMemory in Ip; lia].
        exists [ReadFile path], (filecont_message pl), [], (set_cr s cr).
        split; [reflexivity|]. split; [repeat constructor|]. split; [constructor|split; [|apply HS']].
        apply proper_filecont. unfold InMemory in Ip. unfold LONG_MAX. lia.
      * rewrite send_error_ok; [|apply A|unfold ERR_OTHER; lia|].
        2:{ rewrite !zlen_app. change (zlen (B "Failed to decrypt file ")) with 23%Z.
            change (zlen (B ", might be corrupted.")) with 21%Z. lia. }
        eexists [ReadFile path], _, [], (set_cr s cr).
        split; [reflexivity|]. split; [repeat constructor|]. split; [constructor|split; [|apply HS']].
        apply proper_error; [unfold ERR_OTHER; lia|]. rewrite !zlen_app.
        change (zlen (B "Failed to decrypt file ")) with 23%Z.
        change (zlen (B ", might be corrupted.")) with 21%Z. unfold LONG_MAX. lia.
    + rewrite send_filecont_ok; [|apply A|unfold InMemory in Hx; lia].
      exists [ReadFile path], (filecont_message b), [], s. split; [reflexivity|]. split; [repeat constructor|]. split; [constructor|split; [|exact HS]].
      apply proper_filecont. unfold InMemory in Hx. unfold LONG_MAX. lia.
Qed.

Lemma healthy_lic {D} (s : lve D) : healthy_state s -> healthy_state (set_lic s true).
Proof. intros (H1 & H2 & H3 & H4). repeat split; auto. Qed.

Lemma lib_answered {D} cfg (e : env D) s r d :
  healthy_state s -> Healthy e -> s_phase s = P_TOOLS \/ s_phase s = P_LIB -> Request r C_LIB d ->
  d <> [] -> InMemory d ->
  answered r (lve_step cfg e s r) healthy_state.
Proof.
  intros (H1 & H2 & H3 & H4) (A & Hc & Hd & Hl & Hco & Hci & Hf) P R Nd Id.
  rewrite (lib_step cfg e s r d P R A). unfold handle_lib.
  pose proof (zlen_pos d Nd). destruct (Z.eqb_spec (zlen d) 0); [lia|]. rewrite A. cbn [negb].
  rewrite complete_bytes, mbind_lift_ok.
  destruct (e_cr_create e (cstr (trim d))) as [dd|] eqn:Cr; [|destruct (Hc _ Cr)].
  set (s2 := set_cr _ (Some dd)).
  assert (HS2 : healthy_state s2).
  { repeat split; auto; [discriminate|]. cbn. intros l [= <-]. pose proof (trim_le d).
    unfold InMemory in *. lia. }
  assert (VD : forall s3, healthy_state s3 ->
     healthy_state (fst (validate_directory e s3 (trim d)))).
  { intros s3 (K1 & K2 & K3 & K4). unfold validate_directory. destruct (e_stat e _); cbn [fst]; [..|repeat split; auto].
    - repeat split; auto. intros _. eexists. split; [reflexivity|]. cbn. unfold ERR_FILE_NOT_FOUND. split; [reflexivity|lia].
    - repeat split; auto. intros _. eexists. split; [reflexivity|]. cbn. unfold ERR_FILE_NOT_FOUND. split; [reflexivity|lia]. }
  assert (YES : forall es s3, Forall internal es -> healthy_state s3 ->
    answered r (after r (mbind (es, Ok (s3, true)) (fun '(s3, go) =>
       if go : bool then run _ <- reply (Ok [send_simple C_YES]) ; ret (validate_directory e s3 (trim d))
       else ret (s3, false))) fst) healthy_state).
  { intros es s3 Hes Hs3. rewrite mbind_ok. unfold after. cbn [fst snd reply map mbind ret app].
    exists es, (send_simple C_YES), [], (fst (validate_directory e s3 (trim d))).
    split; [reflexivity|]. split; [exact Hes|]. split; [constructor|split; [|apply VD, Hs3]].
    rewrite send_simple_eq. now apply proper_simple. }
  pose proof (global_licence_eq cfg e s2 A Hl Hco) as G.
  destruct (global_wanted cfg s2) as [f|].
  - destruct (manager_ok e s2 && lic_ok (e_checkout e f)).
    + rewrite G. apply YES; [|apply healthy_lic, HS2].
      apply Forall_app. split; [apply manager_internal|repeat constructor].
    + destruct G as (t & co & s0 & It & Hs0 & G). rewrite G, mbind_ok. unfold after. cbn [fst snd ret].
      exists (manager_events e s2 ++ co), (error_message 7 t), [], (set_approved (set_error s0 7 (Some t)) false).
      split; [now rewrite app_nil_r, <- app_assoc|].
      assert (HS0 : healthy_state s0).
      { destruct Hs0 as [(_ & -> & _)|(_ & -> & _)]; [exact HS2|apply healthy_lic, HS2]. }
      split; [|split; [constructor|split]].
      * apply Forall_app. split; [apply manager_internal|].
        destruct Hs0 as [(-> & _)|(-> & _)]; repeat constructor.
      * apply proper_error; [lia|unfold InMemory in It; unfold LONG_MAX; lia].
      * destruct HS0 as (K1 & K2 & K3 & K4). repeat split; auto. intros _. exists t.
        split; [reflexivity|]. split; [exact It|cbn; lia].
  - rewrite G. apply YES; [constructor|exact HS2].
Qed.

Lemma valid_or_rejected s : (exists c, ValidLine s c) \/ (exists g, Rejected s g).
Proof.
  destruct (parse_command ERROR_SIZE s) as [[g c] m] eqn:X.
  destruct g.
  1: left; exists c; apply (parse_valid_iff ERROR_SIZE); eauto.
  all: right; eexists;
    assert (c = undefined_command) as ->;
    [ revert X; unfold parse_command; destruct (tokenize s) as [[|w args] many]; [congruence|];
      destruct (lookup_word _ w) as [[id f]|]; [|congruence];
      destruct (many || _); [congruence|]; destruct (_ <? _); [congruence|];
      destruct f; try congruence;
        destruct (parse_int _ _) as [n1|]; try congruence;
      [ destruct (n1 <? 0)%Z; congruence
      | destruct (parse_int _ _) as [n2|]; [|congruence]; destruct (n2 <? 0)%Z; congruence ]
    | eapply (parse_reject_iff ERROR_SIZE); [|exists m; exact X]; discriminate ].
Qed.

Lemma step_answered {D} cfg (e : env D) s r :
  healthy_state s -> Healthy e -> GoodRequest r ->
  answered r (lve_step cfg e s r) healthy_state.
Proof.
  intros HS HE (Ir & G). pose proof HS as (H1 & H2 & H3 & H4).
  pose proof HE as (A & Hc & Hd & Hl & Hco & Hci & Hf).
  assert (NA : NotAcceptable s r -> answered r (lve_step cfg e s r) healthy_state).
  { intros N. destruct (not_acceptable_step cfg e s r H1 A N) as (t & s' & E & S & L).
    exists [], (error_message 1 t), [], s'. split; [exact E|]. split; [constructor|]. split; [constructor|].
    split; [apply proper_error; [lia|unfold zlen, ERROR_SIZE, LONG_MAX in *; lia]|].
    destruct S as (S1 & S2 & S3 & S4 & S5 & S6 & S7).
    repeat split.
    - eapply lve_step_buf; [exact H1|]. rewrite E. reflexivity.
    - rewrite S1, S2. exact H2.
    - rewrite S2. exact H3.
    - rewrite S3, S4, S5. exact H4. }
  destruct (valid_or_rejected (cstr r)) as [(c & V)|Rj]; [|apply NA; left; exact Rj].
  destruct (next_phase (s_phase s) (c_id c)) as [p'|] eqn:N.
  2:{ apply NA. right. exists c. split; [exact V|]. now apply next_phase_none. }
  assert (Rq : form_of (c_id c) = F_LENGTH -> exists d, Request r (c_id c) d /\ InMemory d /\
               (c_id c = C_LIB -> d <> [])).
  { intros F. destruct (G c V F) as ((h & d & Hh & Hlen) & Hlib). exists d. split; [exists c, h; auto|].
    split; [unfold InMemory in *; pose proof (header_then_le _ _ _ Hh); lia|].
    intros E ->. apply (Hlib E). rewrite <- Hlen. reflexivity. }
  apply next_phase_inv in N as [(P & I & ->)|[(P & I & ->)|[(P & I & ->)|(P & -> & I)]]].
  - destruct (version_step cfg e s r c P V I A) as [V1 V2].
    destruct (Z.le_gt_cases 1 (c_number c)) as [L|L].
    + rewrite (V1 L). exists [], (B "VERSION 1" ++ [LF]), [], (set_phase s P_TOOLS).
      split; [reflexivity|]. split; [constructor|]. split; [constructor|].
      split; [apply (proper_version 1); lia|]. repeat split; auto. discriminate.
    + rewrite (V2 L). exists [], (error_message 2 version_low_text), [], (set_buf s version_low_text).
      split; [reflexivity|]. split; [constructor|]. split; [constructor|].
      split; [apply proper_error; [lia|vm_compute; discriminate]|]. repeat split; auto. cbn. unfold ERROR_SIZE. lia.
  - rewrite (tools_step cfg e s r P); [|exists c; auto|exact A].
    exists [], (B "VERSION 4" ++ [LF]), [], (set_phase s P_LIB).
    split; [reflexivity|]. split; [constructor|]. split; [constructor|].
    split; [apply (proper_version 4); lia|]. repeat split; auto. discriminate.
  - destruct Rq as (d & R & Id & Nd); [rewrite I; reflexivity|]. rewrite I in *.
    eapply lib_answered; eauto.
  - destruct Rq as (d & R & Id & _).
    { destruct I as [I|[I|[I|[I|I]]]]; rewrite I; reflexivity. }
    destruct I as [I|[I|[I|[I|I]]]]; rewrite I in *.
    + rewrite (feature_reply cfg e s r d P R A Hl Hco).
      eexists (manager_events e s ++ (if manager_ok e s then [Checkout d (lic_ok (e_checkout e d))] else [])), _, [], _.
      split; [rewrite <- app_assoc; reflexivity|].
      split; [apply Forall_app; split; [apply manager_internal|destruct (manager_ok e s); repeat constructor]|].
      split; [constructor|]. split; [|destruct (manager_ok e s); [apply healthy_lic|]; exact HS].
      specialize (Hl (manager_path s)). specialize (Hco d).
      destruct (manager_ok e s).
      * destruct (e_checkout e d) as [|[t|]]; [now apply (proper_simple C_YES)| |destruct Hco].
        apply proper_no. unfold Explains, InMemory in Hco. unfold LONG_MAX. lia.
      * destruct (e_lic_new e (manager_path s)) as [|[t|]];
          (apply proper_error; [lia|]); unfold Explains, InMemory in Hl; unfold LONG_MAX; first [lia|vm_compute; discriminate].
    + rewrite (returnfeature_reply cfg e s r d P R A Hl Hci).
      eexists (manager_events e s ++ (if manager_ok e s then [Checkin d (lic_ok (e_checkin e d))] else [])), _, [], _.
      split; [rewrite <- app_assoc; reflexivity|].
      split; [apply Forall_app; split; [apply manager_internal|destruct (manager_ok e s); repeat constructor]|].
      split; [constructor|]. split; [|destruct (manager_ok e s); [apply healthy_lic|]; exact HS].
      specialize (Hl (manager_path s)). specialize (Hci d).
      destruct (manager_ok e s).
      * destruct (e_checkin e d) as [|[t|]]; [now apply (proper_simple C_YES)| |destruct Hci].
        apply proper_error; [lia|]. unfold Explains, InMemory in Hci. unfold LONG_MAX. lia.
      * destruct (e_lic_new e (manager_path s)) as [|[t|]];
          (apply proper_error; [lia|]); unfold Explains, InMemory in Hl; unfold LONG_MAX; first [lia|vm_compute; discriminate].
    + rewrite (license_step cfg e s r d P R A).
      eexists [], _, [], s. split; [reflexivity|]. split; [constructor|]. split; [constructor|].
      split; [now apply (proper_simple C_NOTSIMPLE)|exact HS].
    + rewrite (returnlicense_step cfg e s r d P R A).
      eexists [], _, [], s. split; [reflexivity|]. split; [constructor|]. split; [constructor|].
      split; [now apply (proper_simple C_NOTSIMPLE)|exact HS].
    + eapply file_answered; eauto.
Qed.

Lemma loop_answered {D} cfg (ts : list (turn D)) : forall s,
  healthy_state s -> Forall (fun t => Healthy (t_env t) /\ GoodRequest (t_record t)) ts ->
  exists es s', lve_loop cfg s ts = (es, Ok s') /\ OneReplyEach (taken ts) es.
Proof.
  induction ts as [|t ts IH]; intros s HS HT.
  - exists [], s. split; [reflexivity|constructor].
  - inversion HT as [|x y [He Hr] HT']; subst.
    destruct (step_answered cfg (t_env t) s (t_record t) HS He Hr) as (a & m & b & s1 & E & Fa & Fb & _ & HS1).
    cbn [lve_loop taken]. rewrite E, mbind_ok.
    destruct (t_shutdown t).
    + eexists _, s1. split; [reflexivity|]. cbn [ret fst]. cbn [app]. rewrite <- app_assoc. cbn [app].
      apply ORE_cons; auto. constructor.
    + destruct (IH s1 HS1 HT') as (es & s' & E' & O). rewrite E'. cbn [fst snd].
      eexists _, s'. split; [reflexivity|]. cbn [app]. rewrite <- app_assoc. cbn [app].
      apply ORE_cons; auto.
Qed.

Lemma session_answered {D} cfg k (ts : list (turn D)) :
  Forall (fun t => Healthy (t_env t) /\ GoodRequest (t_record t)) ts ->
  exists es s', session cfg (Some k) ts = (es, Ok s') /\ OneReplyEach (taken ts) es.
Proof.
  intros HT. unfold session, validate_pubkey.
  destruct (validate_in k (cfg_keys cfg)) as (b & V & _). rewrite V, mbind_lift_ok.
  assert (HS : healthy_state (@started D b)).
  { destruct b; repeat split; cbn; try discriminate; try (unfold ERROR_SIZE; lia).
    intros _. eexists. split; [reflexivity|]. unfold ERR_TOOL_NOT_ALLOWED. split; [reflexivity|lia]. }
  destruct (loop_answered cfg ts _ HS HT) as (es & s' & E & O).
  exists es, s'. split; [|exact O]. destruct b; rewrite mbind_ret; exact E.
Qed.

(** ** paths *)

Lemma split_slash_cons x r : split_slash (x :: r) =
  if Ascii.eqb x SLASH then [] :: split_slash r
  else match split_slash r with w :: ws => (x :: w) :: ws | [] => [[x]] end.
Proof. reflexivity. Qed.

Lemma split_slash_nonempty s : split_slash s <> [].
Proof.
  destruct s as [|x r]; [discriminate|]. rewrite split_slash_cons.
  destruct (Ascii.eqb x SLASH); [discriminate|]. destruct (split_slash r); discriminate.
Qed.

Lemma split_slash_app a b : split_slash (a ++ SLASH :: b) = split_slash a ++ split_slash b.
Proof.
  induction a as [|x a IH]; [reflexivity|].
  change ((x :: a) ++ SLASH :: b) with (x :: (a ++ SLASH :: b)).
  rewrite !split_slash_cons, IH. destruct (Ascii.eqb x SLASH); [reflexivity|].
  pose proof (split_slash_nonempty a). destruct (split_slash a); [congruence|reflexivity].
Qed.

Lemma walk_inside comps : forall here, ~ In (B "..") comps -> Inside here (walk here comps).
Proof.
  induction comps as [|c comps IH]; intros here H; [exists []; reflexivity|].
  change (walk here (c :: comps)) with (walk (walk1 here c) comps).
  assert (H' : ~ In (B "..") comps) by (intros K; apply H; now right).
  destruct (IH (walk1 here c) H') as [below E]. rewrite E. unfold walk1.
  destruct (beq c [] || beq c (B ".")); [exists below; reflexivity|].
  destruct (beq_spec c (B "..")) as [->|]; [exfalso; apply H; now left|].
  exists (below ++ [c]). rewrite <- app_assoc. reflexivity.
Qed.

Lemma denotes_inside cwd lib rel :
  lib <> [] -> ~ In (B "..") (split_slash rel) ->
  Inside (denotes cwd lib) (denotes cwd (lib ++ [SLASH] ++ rel)).
Proof.
  intros Hl H. destruct lib as [|c l]; [congruence|].
  change ((c :: l) ++ [SLASH] ++ rel) with (c :: (l ++ SLASH :: rel)). unfold denotes.
  change (c :: (l ++ SLASH :: rel)) with ((c :: l) ++ SLASH :: rel).
  destruct (Ascii.eqb c SLASH); rewrite split_slash_app; unfold walk; rewrite fold_left_app;
    apply walk_inside; exact H.
Qed.

(** The path of every file a session reads. *)
Lemma file_reads_request {D} cfg (e : env D) s r d p :
  s_phase s = P_LICENSE -> Request r C_FILE d -> AllocOk e ->
  In (ReadFile p) (fst (lve_step cfg e s r)) ->
  exists lib, s_lib s = Some lib /\ p = file_path lib (cstr d).
Proof.
  intros P R A. rewrite (file_step cfg e s r d P R A). cbn [fst].
  intros [K|K]; [discriminate|]. revert K.
  destruct (s_approved s) eqn:Ap.
  2:{ unfold handle_file. rewrite Ap. cbn [negb]. destruct (s_errmsg s); [|intros []].
      destruct (reply (send_error _ _ _)) as [es o] eqn:Er.
      assert (Hr : forall ev, In ev es -> exists m, ev = Reply m).
      { unfold reply in Er. destruct (send_error _ _ _); injection Er as <- _; [|intros ev []|intros ev []].
        intros ev Hin. apply in_map_iff in Hin as (m & <- & _). eauto. }
      destruct o as [[]|u|]; cbn [mbind ret fst]; rewrite ?app_nil_r; intros Hin; apply Hr in Hin as [m Hm]; discriminate. }
  destruct (s_lib s) as [lib|] eqn:L.
  2:{ unfold handle_file. rewrite Ap, L, A. intros []. }
  intros K. exists lib. split; [reflexivity|]. revert K.
  rewrite (handle_file_eq e s lib d A Ap L). cbn zeta.
  assert (RF : fst (read_file e (file_path lib (cstr d))) = [ReadFile (file_path lib (cstr d))]).
  { unfold read_file, emit. rewrite mbind_ok. destruct (e_file e _) as [t|t|sz av fe]; cbn; try reflexivity.
    rewrite A. destruct fe; [destruct (_ <? _)%Z|]; reflexivity. }
  destruct (read_file e (file_path lib (cstr d))) as [es o]. cbn [fst] in RF. subst es.
  assert (Hr : forall o (x : lve D), ~ In (ReadFile p) (fst (run _ <- reply o ; ret x))).
  { intros o' x. unfold reply. destruct o' as [ms|u|]; cbn [mbind ret fst]; [|intros []|intros []].
    rewrite app_nil_r. intros Hin. apply in_map_iff in Hin as (m & Hm & _). discriminate. }
  destruct o as [x|u|]; cbn [fst].
  - rewrite mbind_ok. cbn [fst]. intros [K|K]; [now injection K|exfalso].
    destruct x as [m|b]; [exact (Hr _ _ K)|].
    destruct (is_moc (cstr d)); [|exact (Hr _ _ K)].
    destruct (e_decrypt e (s_cr s) (cstr d) b) as [[cr [pl|]]|u|]; [| |exact K|exact K];
      rewrite mbind_lift_ok in K; exact (Hr _ _ K).
  - intros [K|[]]. now injection K.
  - intros [K|[]]. now injection K.
Qed.

(** ** replies to LIB *)

Lemma handle_lib_no_global {D} cfg (e : env D) s r d :
  s_phase s = P_TOOLS \/ s_phase s = P_LIB -> Request r C_LIB d -> d <> [] -> AllocOk e ->
  e_cr_create e (cstr (trim d)) <> None -> cfg_global cfg = None ->
  exists s', lve_step cfg e s r = ([Recv r; Reply (B "YES" ++ [LF])], Ok s').
Proof.
  intros P R Nd A C G. rewrite (lib_step cfg e s r d P R A). unfold handle_lib.
  pose proof (zlen_pos d Nd). destruct (Z.eqb_spec (zlen d) 0); [lia|]. rewrite A. cbn [negb].
  rewrite complete_bytes, mbind_lift_ok.
  destruct (e_cr_create e (cstr (trim d))) as [dd|]; [|congruence].
  unfold global_licence. rewrite G. eexists. reflexivity.
Qed.

Definition yes_message : bytes := B "YES" ++ [LF].
Lemma error_not_yes al code t ms : send_error al code t = Ok ms -> ~ In yes_message ms.
Proof.
  intros E Hin. apply (send_error_starts _ _ _ _ _ E) in Hin as [r K].
  vm_compute in K. discriminate.
Qed.

Lemma global_licence_yes {D} cfg (e : env D) q s :
  tri (fun ev => ev <> Reply yes_message)
      (fun '(s1, go) => go = true -> s_approved s1 = s_approved s /\
         forall f, cfg_global cfg = Some f -> s_approved s = true -> e_checkout e f = Granted)
      (global_licence cfg e q s).
Proof.
  unfold global_licence. destruct (cfg_global cfg) as [f|].
  2:{ apply tri_ret. intros _. split; [reflexivity|discriminate]. }
  destruct (s_approved s) eqn:Ap.
  2:{ apply tri_ret. intros _. split; [exact Ap|discriminate]. }
  eapply tri_bind.
  { eapply tri_conseq; [apply setup_licensing_tri| |intros a H; exact H].
    intros ev (p & b & ->). discriminate. }
  intros [s1 ref] (_ & _ & U & _).
  eapply (tri_bind _ (fun x => x = None -> e_checkout e f = Granted)).
  { destruct ref as [t|]; [apply tri_ret; discriminate|].
    eapply (tri_bind _ (fun _ => True)); [apply tri_emit; [discriminate|exact I]|]. intros _ _.
    apply tri_ret. destruct (e_checkout e f); [reflexivity|discriminate]. }
  intros [[t|]|] H.
  - eapply (tri_bind _ (fun _ => True)).
    { destruct q; [apply tri_ret; exact I|]. apply tri_reply; [|exact I].
      intros ms m E Hin [= ->]. exact (error_not_yes _ _ _ _ E Hin). }
    intros _ _. apply tri_ret. discriminate.
  - apply tri_crash.
  - apply tri_ret. intros _. split; [congruence|]. intros g [= <-] _. auto.
Qed.

Lemma lib_yes_only {D} cfg (e : env D) s r d :
  s_phase s = P_TOOLS \/ s_phase s = P_LIB -> Request r C_LIB d -> AllocOk e ->
  In (Reply yes_message) (fst (lve_step cfg e s r)) ->
  d <> [] /\ e_cr_create e (cstr (trim d)) <> None /\
  (forall f, cfg_global cfg = Some f -> s_approved s = true ->
     e_checkout e f = Granted /\ In (Checkout f true) (fst (lve_step cfg e s r))).
Proof.
  intros P R A. rewrite (lib_step cfg e s r d P R A). unfold after. cbn [fst].
  intros [K|K]; [discriminate|]. revert K. unfold handle_lib.
  destruct (Z.eqb_spec (zlen d) 0); [intros []|]. rewrite A. cbn [negb].
  rewrite complete_bytes, mbind_lift_ok.
  destruct (e_cr_create e (cstr (trim d))) as [dd|] eqn:C; [|intros []].
  intros Hin. split; [intros ->; now apply n|]. split; [discriminate|].
  intros f G Ap. revert Hin.
  set (s2 := set_cr _ _).
  destruct (global_licence_yes cfg e false s2) as [Y1 Y2].
  pose proof (fun es s1 go => global_licence_approved cfg e s2 f es s1 go G) as Ga.
  destruct (global_licence cfg e false s2) as [es [[s3 go]|u|]]; cbn [fst snd] in *.
  - specialize (Y2 (s3, go) eq_refl). cbn in Y2. specialize (Ga es s3 go eq_refl).
    rewrite mbind_ok. cbn [fst snd]. destruct go.
    + intros _. destruct (Y2 eq_refl) as [Y3 Y4]. split; [exact (Y4 f G Ap)|].
      right. rewrite ?A. cbn [negb fst]. apply in_or_app. left. apply Ga. rewrite Y3. exact Ap.
    + cbn [ret fst]. rewrite app_nil_r. intros Hin. destruct (Y1 _ Hin eq_refl).
  - intros Hin. destruct (Y1 _ Hin eq_refl).
  - intros Hin. destruct (Y1 _ Hin eq_refl).
Qed.

(** ** messages in one record *)

Lemma sent_request al c data m :
  Sent al c data m -> form_of (c_id c) = F_LENGTH ->
  ValidLine (cstr m) c /\ Request m (c_id c) data.
Proof.
  intros S F. destruct (sent_shape _ _ _ _ S) as (Sd & E & H1 & _).
  assert (Hp : has_payload (c_id c) = true) by (unfold has_payload; now rewrite F).
  destruct (join_chars (header_words c) (header_words_good c)) as [J1 J2].
  assert (V : ValidLine (cstr m) c).
  { rewrite E, cstr_app_no_nul, cstr_lf by exact J2. apply valid_header; [exact Sd|right; eauto]. }
  split; [exact V|]. exists c, (join (header_words c)). split; [exact V|]. split; [reflexivity|].
  split; [|symmetry; auto]. split; [exact E|auto].
Qed.

Lemma short_lib {D} cfg (e : env D) s r c h d :
  s_phase s = P_TOOLS \/ s_phase s = P_LIB -> ValidLine (cstr r) c -> c_id c = C_LIB ->
  HeaderThen r h d -> (zlen d < c_length c)%Z -> AllocOk e ->
  lve_step cfg e s r = ([Recv r], UB UninitRead).
Proof.
  intros P V I H L A. rewrite (lve_step_valid cfg e s r c V (A _)). unfold handle_command.
  assert (N : next_phase (s_phase s) (c_id c) = Some P_LICENSE)
    by (destruct P as [P|P]; rewrite P, I; reflexivity).
  rewrite N. unfold dispatch. rewrite I. change (form_of C_LIB) with F_LENGTH. cbn iota.
  rewrite (extract_header (e_alloc e) (c_length c) r h d H (A _)) by lia.
  cbn [bind]. rewrite mbind_lift_ok.
  assert (K : handle_lib cfg e false (set_phase s P_LICENSE) (c_length c)
     (Some {| p_len := c_length c; p_bytes := firstn (Z.to_nat (c_length c)) d; p_term := NUL |}) = ([], UB UninitRead)).
  { unfold handle_lib. pose proof (zlen_nonneg d). destruct (Z.eqb_spec (c_length c) 0); [lia|].
    rewrite A. cbn [negb]. unfold payload_bytes. cbn [p_bytes p_len]. rewrite firstn_zlen by lia.
    destruct (Z.ltb_spec (zlen d) (c_length c)); [reflexivity|lia]. }
  destruct P as [P|P]; rewrite P; cbn [cmd_id_eqb]; rewrite K; reflexivity.
Qed.

(** ** a version is accepted once *)

Lemma loop_after_version {D} cfg (ts : list (turn D)) s es s' :
  s_phase s <> P_VERSION -> lve_loop cfg s ts = (es, Ok s') -> s_phase s' <> P_VERSION.
Proof.
  intros P E.
  pose proof (loop_invariant cfg (fun _ => True) (fun _ (x : lve D) => s_phase x <> P_VERSION)
    (fun _ _ => True)) as K.
  assert (St : forall (pre : list event) (x : lve D) (t : turn D), True -> s_phase x <> P_VERSION ->
     (forall a ev b, fst (lve_step cfg (t_env t) x (t_record t)) = a ++ ev :: b -> True) /\
     (forall s', snd (lve_step cfg (t_env t) x (t_record t)) = Ok s' -> s_phase s' <> P_VERSION)).
  { intros pre x t _ H1. split; [auto|]. intros y Hy.
    destruct (lve_step_tri cfg (t_env t) x (t_record t)) as (es' & o & E' & _ & P2).
    rewrite E' in Hy. cbn in Hy. specialize (P2 y Hy).
    destruct P2 as [F _ _ _ _|Fv _ _ _ _ _ _|_ Ft _ _ _ _ _|_ Ft _ _ _ _]; congruence. }
  specialize (K St ts [] s). destruct K as [_ K]; [apply Forall_forall; auto|auto|].
  rewrite E in K. exact (K s' eq_refl).
Qed.

(** Reachable states are closed under further turns. *)
Lemma loop_app {D} cfg (ts1 ts2 : list (turn D)) s es s1 :
  lve_loop cfg s ts1 = (es, Ok s1) -> Forall (fun t => t_shutdown t = false) ts1 ->
  lve_loop cfg s (ts1 ++ ts2) = (es ++ fst (lve_loop cfg s1 ts2), snd (lve_loop cfg s1 ts2)).
Proof.
  revert s es. induction ts1 as [|t ts1 IH]; intros s es E H.
  - injection E as <- <-. cbn. destruct (lve_loop cfg s ts2); reflexivity.
  - inversion H as [|x y Ht H']; subst. cbn [lve_loop app] in *.
    destruct (lve_step cfg (t_env t) s (t_record t)) as [es1 [s2|u|]]; try discriminate.
    rewrite mbind_ok in *. rewrite Ht in *. cbn [fst snd] in *.
    destruct (lve_loop cfg s2 ts1) as [es2 o] eqn:L. cbn [fst snd] in E. injection E as <- ->.
    rewrite (IH s2 es2 L H'). cbn [fst snd]. now rewrite app_assoc.
Qed.
