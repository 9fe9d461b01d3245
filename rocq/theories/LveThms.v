(** The lemmas behind LveProps.v in the form in which they are stated there. *)
From Verif Require Import Base BaseProofs ParseModel ParseSpec ParseProofs DecProofs
  WireModel WireSpec WireProofs LveModel LveSpec LveProofs LveSteps LveHist.

(** ** C08 *)

Lemma c08_order {D} cfg key (ts : list (turn D)) es o a ev b :
  session cfg key ts = (es, o) -> es = a ++ ev :: b ->
  match ev with Recv _ => False | Reply m => CarriesFile m | _ => True end ->
  LibAfterVersion a.
Proof.
  intros E Eq H. pose proof (session_needs_lib cfg key ts es o a ev b E Eq) as K.
  destruct ev; cbn in K; auto; contradiction.
Qed.

Lemma buf_loop {D} cfg (ts : list (turn D)) s es s' :
  length (s_buf s) < ERROR_SIZE -> lve_loop cfg s ts = (es, Ok s') -> length (s_buf s') < ERROR_SIZE.
Proof.
  intros P E.
  pose proof (loop_invariant cfg (fun _ => True) (fun _ (x : lve D) => length (s_buf x) < ERROR_SIZE)
    (fun _ _ => True)) as K.
  assert (St : forall (pre : list event) (x : lve D) (t : turn D), True -> length (s_buf x) < ERROR_SIZE ->
     (forall a ev b, fst (lve_step cfg (t_env t) x (t_record t)) = a ++ ev :: b -> True) /\
     (forall s', snd (lve_step cfg (t_env t) x (t_record t)) = Ok s' -> length (s_buf s') < ERROR_SIZE)).
  { intros pre x t _ H1. split; [auto|]. intros y Hy. eapply lve_step_buf; eauto. }
  specialize (K St ts [] s). destruct K as [_ K]; [apply Forall_forall; auto|auto|].
  rewrite E in K. exact (K s' eq_refl).
Qed.

Lemma c08_once {D} cfg (e e2 : env D) s r es1 s1 ts es2 s2 id r2 :
  Reachable cfg s -> Asks r id -> id = C_LIB \/ id = C_VERSION /\ AsksVersion r ->
  Allowed (s_phase s) id -> lve_step cfg e s r = (es1, Ok s1) ->
  lve_loop cfg s1 ts = (es2, Ok s2) -> Asks r2 id -> AllocOk e2 ->
  exists text s3, lve_step cfg e2 s2 r2 = ([Recv r2; Reply (error_message 1 text)], Ok s3) /\
    SameSession s2 s3.
Proof.
  intros R As Hid Al E1 E2 As2 A.
  pose proof (reachable_buf cfg s R) as Hb.
  assert (Hb1 : length (s_buf s1) < ERROR_SIZE).
  { eapply (lve_step_buf cfg e s r s1); [exact Hb|]. rewrite E1. reflexivity. }
  pose proof (buf_loop cfg ts s1 es2 s2 Hb1 E2) as Hb2.
  assert (Mv : Moves s r s1).
  { destruct (lve_step_tri cfg e s r) as (es & o & E & _ & P2). rewrite E1 in E. injection E as _ E4. auto. }
  assert (NA : NotAcceptable s2 r2).
  { destruct As as (c & V & I). destruct Hid as [->|(-> & AV)].
    - assert (P1 : s_phase s1 = P_LICENSE).
      { destruct Mv as [F _ _ _ _|Fv Ft (c' & V' & I' & _) _ _ _ _|Ft Fl (c' & V' & I') _ _ _ _|Ft Fl V' _ _ _]; [| | |exact Fl].
        - exfalso. revert E1. destruct (e_alloc e (zlen r + 1)%Z) eqn:Al0.
          2:{ unfold lve_step, emit. rewrite mbind_ok, Al0. discriminate. }
          rewrite (lve_step_valid cfg e s r c V Al0). intros [= _ E].
          revert E. unfold handle_command. rewrite I.
          assert (N : next_phase (s_phase s) C_LIB = Some P_LICENSE) by (inversion Al as [| | H | H | | | | |]; rewrite <- ?H; reflexivity).
          rewrite N. unfold dispatch. rewrite I. change (form_of C_LIB) with F_LENGTH. cbn iota.
          destruct (do (d, _) <- extract_data (e_alloc e) (c_length c) r ; Ok d) as [d|u|]; [|discriminate|discriminate].
          rewrite mbind_lift_ok.
          assert (Ph : s_phase s = P_TOOLS \/ s_phase s = P_LIB) by (inversion Al; auto).
          assert (K : snd (run (s1, _) <- handle_lib cfg e false (set_phase s P_LICENSE) (c_length c) d ; ret s1) = Ok s1 ->
                      s_phase s1 = P_LICENSE).
          { rewrite mbind_fst_eq. cbn [snd].
            pose proof (handle_lib_tri cfg e false (set_phase s P_LICENSE) (c_length c) d) as [_ T].
            destruct (snd (handle_lib _ _ _ _ _ _)) as [[x ok]|u|]; try discriminate.
            intros [= ->]. specialize (T _ eq_refl). cbn in T. apply T. }
          destruct Ph as [Ph|Ph]; rewrite Ph; cbn [cmd_id_eqb]; intros E; apply K in E; congruence.
        - exfalso. pose proof (valid_det _ _ _ V V'). congruence.
        - exfalso. pose proof (valid_det _ _ _ V V'). congruence. }
      destruct (loop_after_lib cfg ts s1 es2 s2 P1 E2) as (P2 & _).
      apply after_lib_not_acceptable; auto.
    - assert (P0 : s_phase s = P_VERSION) by (inversion Al; reflexivity).
      assert (P1 : s_phase s1 <> P_VERSION).
      { destruct Mv as [F _ _ _ _|Fv Ft _ _ _ _ _|Ft Fl _ _ _ _ _|Ft Fl V' _ _ _]; try congruence.
        exfalso. destruct AV as (c' & V' & I' & N).
        destruct (e_alloc e (zlen r + 1)%Z) eqn:Al0.
        - rewrite (no_payload_step cfg e s r c' P_TOOLS V' Al0) in E1;
            [|rewrite I'; discriminate|rewrite P0, I'; reflexivity].
          rewrite P0 in E1. cbn zeta in E1. unfold handle_version, MIN_PROTOCOL_VERSION in E1.
          destruct (Z.ltb_spec (c_number c') 1); [lia|]. cbn in E1. injection E1 as _ <-. cbn in F. congruence.
        - revert E1. unfold lve_step, emit. rewrite mbind_ok, Al0. discriminate. }
      pose proof (loop_after_version cfg ts s1 es2 s2 P1 E2) as P2.
      destruct As2 as (c2 & V2 & I2). right. exists c2. split; [exact V2|]. rewrite I2.
      intros K. inversion K as [H| | | | | | | |]. congruence. }
  destruct (not_acceptable_step cfg e2 s2 r2 Hb2 A NA) as (t & s3 & E3 & S & _).
  exists t, s3. auto.
Qed.

(** ** C09 *)
Lemma c09 {D} cfg (e : env D) s r :
  Reachable cfg s -> AllocOk e -> NotAcceptable s r ->
  exists text s', lve_step cfg e s r = ([Recv r; Reply (error_message 1 text)], Ok s') /\ SameSession s s'.
Proof.
  intros R A N. destruct (not_acceptable_step cfg e s r (reachable_buf cfg s R) A N) as (t & s' & E & S & _).
  eauto.
Qed.

(** ** C11 *)
Lemma c11_no_contents {D} cfg k (ts : list (turn D)) es o m :
  ~ In k (cfg_keys cfg) -> session cfg (Some k) ts = (es, o) -> In (Reply m) es -> ~ CarriesFile m.
Proof.
  intros N E Hin. apply in_split in Hin as (a & b & Eq).
  exact (proj1 (unapproved_session cfg k ts es o N E) a (Reply m) b Eq).
Qed.
Lemma c11_no_read {D} cfg k (ts : list (turn D)) es o p :
  ~ In k (cfg_keys cfg) -> session cfg (Some k) ts = (es, o) -> ~ In (ReadFile p) es.
Proof.
  intros N E Hin. apply in_split in Hin as (a & b & Eq).
  exact (proj1 (unapproved_session cfg k ts es o N E) a (ReadFile p) b Eq).
Qed.

Lemma c11_reply {D} cfg (e : env D) k (ts : list (turn D)) es s r d :
  ~ In k (cfg_keys cfg) -> session cfg (Some k) ts = (es, Ok s) ->
  s_phase s = P_LICENSE -> Request r C_FILE d -> AllocOk e ->
  exists code text, (code = 4 \/ code = 5 \/ code = 8)%Z /\
  lve_step cfg e s r = ([Recv r; Reply (error_message code text)], Ok s).
Proof.
  intros N E P R A. destruct (unapproved_session cfg k ts es (Ok s) N E) as [_ U].
  destruct (U s eq_refl) as (U1 & (m & M & Hm) & U3).
  exists (s_err s), m. split; [tauto|].
  apply (file_unapproved cfg e s r d m); auto; [lia|]. unfold InMemory, zlen. lia.
Qed.

(** ** C12 *)
Lemma c12 {D} cfg k :
  exists s : lve D, validate_pubkey cfg (Some k) fresh = ([], Ok s) /\
    (s_approved s = true <-> In k (cfg_keys cfg)).
Proof.
  destruct (validate_in k (cfg_keys cfg)) as (b & V & H).
  exists (started b). unfold validate_pubkey. rewrite V, mbind_lift_ok.
  split; [destruct b; reflexivity|]. rewrite <- H. destruct b; cbn; tauto.
Qed.

(** ** C13 *)
Lemma c13_inside {D} cfg (e : env D) s r d p cwd lib :
  s_phase s = P_LICENSE -> s_lib s = Some lib -> Request r C_FILE d -> AllocOk e ->
  In (ReadFile p) (fst (lve_step cfg e s r)) ->
  cstr lib <> [] -> ~ In (B "..") (split_slash (cstr d)) ->
  Inside (denotes cwd (cstr lib)) (denotes cwd p).
Proof.
  intros P L R A Hin Hl Hd. destruct (file_reads_request cfg e s r d p P R A Hin) as (l & L' & ->).
  assert (l = lib) by congruence. subst. now apply denotes_inside.
Qed.

(** ** C17 *)
Lemma manager_there {D} (e : env D) s : manager_ok e s = true <-> ManagerThere e s.
Proof.
  unfold manager_ok, ManagerThere, manager_path. rewrite orb_true_iff.
  destruct (e_lic_new e _); cbn; split; intros [H|H]; auto; discriminate.
Qed.

Lemma not_in_manager {D} (e : env D) s ev :
  match ev with Checkout _ _ | Checkin _ _ => True | _ => False end -> ~ In ev (manager_events e s).
Proof.
  unfold manager_events. destruct (s_lic s); [intros _ []|].
  intros H [<-|[]]. exact H.
Qed.

Lemma c17_feature {D} cfg (e : env D) s r f :
  s_phase s = P_LICENSE -> Request r C_FEATURE f -> AllocOk e ->
  (forall p, Explains (e_lic_new e p)) -> (forall g, Explains (e_checkout e g)) ->
  exists a m s', lve_step cfg e s r = (Recv r :: a ++ [Reply m], Ok s') /\ Forall internal a /\
    (m = B "YES" ++ [LF] <-> ManagerThere e s /\ e_checkout e f = Granted) /\
    (forall t, ManagerThere e s -> e_checkout e f = Refused (Some t) -> m = length_message (B "NO") t) /\
    (forall t, s_lic s = false -> e_lic_new e (option_map cstr (s_lib s)) = Refused (Some t) ->
       m = error_message 7 t) /\
    (forall g b, In (Checkout g b) a <-> ManagerThere e s /\ g = f /\ b = lic_ok (e_checkout e f)).
Proof.
  intros P R A X1 X2. pose proof (feature_reply cfg e s r f P R A X1 X2) as E.
  pose proof (manager_there e s) as MT.
  destruct (manager_ok e s) eqn:K.
  - assert (T : ManagerThere e s) by now apply MT.
    eexists (manager_events e s ++ [Checkout f (lic_ok (e_checkout e f))]), _, _.
    split; [rewrite E, <- app_assoc; reflexivity|].
    split; [apply Forall_app; split; [apply manager_internal|repeat constructor]|].
    split; [|split; [|split]].
    + destruct (e_checkout e f) as [|[t|]] eqn:C; [tauto| |].
      * split; [|intros [_ C']; discriminate].
        intros Q. vm_compute in Q. discriminate.
      * specialize (X2 f). rewrite C in X2. destruct X2.
    + intros t _ ->. reflexivity.
    + intros t L N. destruct T as [T|T]; congruence.
    + intros g b. rewrite in_app_iff. split.
      * intros [H|[H|[]]]; [destruct (not_in_manager e s (Checkout g b) I H)|]. injection H as <- <-. auto.
      * intros (_ & -> & ->). right. now left.
  - assert (T : ~ ManagerThere e s) by (intros T; apply MT in T; congruence).
    eexists (manager_events e s), _, _.
    split; [rewrite E; reflexivity|]. split; [apply manager_internal|].
    split; [|split; [|split]].
    + split; [|tauto]. intros Q. exfalso. revert Q. unfold error_message.
      intros Q. vm_compute in Q. discriminate.
    + tauto.
    + intros t L N. unfold manager_path. rewrite N. reflexivity.
    + intros g b. split; [|tauto]. intros H. destruct (not_in_manager e s (Checkout g b) I H).
Qed.

Lemma c17_return {D} cfg (e : env D) s r f :
  s_phase s = P_LICENSE -> Request r C_RETURNFEATURE f -> AllocOk e ->
  (forall p, Explains (e_lic_new e p)) -> (forall g, Explains (e_checkin e g)) ->
  exists a m s', lve_step cfg e s r = (Recv r :: a ++ [Reply m], Ok s') /\ Forall internal a /\
    (m = B "YES" ++ [LF] <-> ManagerThere e s /\ e_checkin e f = Granted) /\
    (forall t, ManagerThere e s -> e_checkin e f = Refused (Some t) -> m = error_message 7 t) /\
    (forall t, s_lic s = false -> e_lic_new e (option_map cstr (s_lib s)) = Refused (Some t) ->
       m = error_message 7 t) /\
    (forall g b, In (Checkin g b) a <-> ManagerThere e s /\ g = f /\ b = lic_ok (e_checkin e f)).
Proof.
  intros P R A X1 X2. pose proof (returnfeature_reply cfg e s r f P R A X1 X2) as E.
  pose proof (manager_there e s) as MT.
  destruct (manager_ok e s) eqn:K.
  - assert (T : ManagerThere e s) by now apply MT.
    eexists (manager_events e s ++ [Checkin f (lic_ok (e_checkin e f))]), _, _.
    split; [rewrite E, <- app_assoc; reflexivity|].
    split; [apply Forall_app; split; [apply manager_internal|repeat constructor]|].
    split; [|split; [|split]].
    + destruct (e_checkin e f) as [|[t|]] eqn:C; [tauto| |].
      * split; [|intros [_ C']; discriminate].
        intros Q. vm_compute in Q. discriminate.
      * specialize (X2 f). rewrite C in X2. destruct X2.
    + intros t _ ->. reflexivity.
    + intros t L N. destruct T as [T|T]; congruence.
    + intros g b. rewrite in_app_iff. split.
      * intros [H|[H|[]]]; [destruct (not_in_manager e s (Checkin g b) I H)|]. injection H as <- <-. auto.
      * intros (_ & -> & ->). right. now left.
  - assert (T : ~ ManagerThere e s) by (intros T; apply MT in T; congruence).
    eexists (manager_events e s), _, _.
    split; [rewrite E; reflexivity|]. split; [apply manager_internal|].
    split; [|split; [|split]].
    + split; [|tauto]. intros Q. exfalso. revert Q. unfold error_message.
      intros Q. vm_compute in Q. discriminate.
    + tauto.
    + intros t L N. unfold manager_path. rewrite N. reflexivity.
    + intros g b. split; [|tauto]. intros H. destruct (not_in_manager e s (Checkin g b) I H).
Qed.

(** ** C16 *)
Lemma c16 {D} cfg (e : env D) s r d es1 s1 ts es2 s2 :
  s_phase s = P_TOOLS \/ s_phase s = P_LIB -> Request r C_LIB d -> d <> [] -> AllocOk e ->
  lve_step cfg e s r = (es1, Ok s1) -> lve_loop cfg s1 ts = (es2, Ok s2) ->
  exists lib, Trimmed d lib /\ s_lib s1 = Some lib /\ s_lib s2 = Some lib.
Proof.
  intros P R Nd A E1 E2.
  destruct (lib_sets_path cfg e s r d s1 P R Nd A) as (lib & L & T & F); [now rewrite E1|].
  exists lib. split; [exact T|]. split; [exact L|].
  destruct (loop_after_lib cfg ts s1 es2 s2 F E2) as (_ & K & _). congruence.
Qed.

(** ** C47 *)
Lemma c47_lve p id size :
  id <> C_UNDEFINED -> ERROR_SIZE <= size ->
  exists t, invalid_text ERROR_SIZE p id = Ok t /\ invalid_text size p id = Ok t.
Proof.
  intros Hid Hs. destruct (invalid_text_ok p id Hid) as (t & E & L). exists t. split; [exact E|].
  revert E. unfold invalid_text.
  assert (K : forall x, snprintf ERROR_SIZE x = t -> snprintf size x = t).
  { intros x Hx. assert (length x < ERROR_SIZE).
    { unfold snprintf in Hx. apply (f_equal (@length _)) in Hx. rewrite firstn_length in Hx.
      unfold ERROR_SIZE in *. lia. }
    rewrite snprintf_fits in Hx by lia. rewrite snprintf_fits by lia. exact Hx. }
  destruct (existsb _ _).
  - destruct (list_valid _ _ _ _) as [[n v]|u|]; [|discriminate|discriminate]. cbn [bind].
    intros [= E]. f_equal. now apply K.
  - intros [= E]. f_equal. now apply K.
Qed.

(** ** requests exist *)
Lemma request_made id d :
  form_of id = F_LENGTH -> (zlen d <= LONG_MAX)%Z ->
  Request (cmd_name id ++ [SP] ++ print_dec (zlen d) ++ [LF] ++ d) id d.
Proof.
  intros F L. apply (sent_request (fun _ => true) {| c_id := id; c_number := 0; c_length := zlen d |}); [|exact F].
  apply Sent_length; [exact F|exact L|]. rewrite send_length_eq; [reflexivity|unfold LONG_MAX in L; lia].
Qed.
Lemma version_made n : (LONG_MIN <= n <= LONG_MAX)%Z ->
  ValidLine (cstr (B "VERSION" ++ [SP] ++ print_dec n ++ [LF])) {| c_id := C_VERSION; c_number := n; c_length := 0 |}.
Proof.
  intros H. destruct (sent_shape (fun _ => true) _ _ _ (Sent_number (fun _ => true) C_VERSION n eq_refl H)) as (Sd & E & _).
  rewrite send_number_eq in E by (unfold LONG_MIN, LONG_MAX in H; lia).
  change (B "VERSION") with (cmd_name C_VERSION). rewrite E.
  destruct (join_chars _ (header_words_good {| c_id := C_VERSION; c_number := n; c_length := 0 |})) as [J1 J2].
  rewrite cstr_app_no_nul, cstr_lf by exact J2. apply valid_header; [exact Sd|right; eauto].
Qed.

(** ** as many replies as records *)
Definition is_reply (e : event) : bool := match e with Reply _ => true | _ => false end.
Lemma internal_no_reply a : Forall internal a -> filter is_reply a = [].
Proof. induction 1 as [|x a H _ IH]; [reflexivity|]. destruct x; [destruct H|destruct H|exact IH..]. Qed.
Lemma one_reply_count rs es : OneReplyEach rs es -> length (filter is_reply es) = length rs.
Proof.
  induction 1 as [|r m a b rs es Ha Hb _ IH]; [reflexivity|].
  cbn [filter is_reply]. rewrite filter_app. cbn [filter is_reply]. rewrite filter_app.
  rewrite !internal_no_reply by assumption. cbn. now rewrite IH.
Qed.
