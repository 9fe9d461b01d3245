From Verif Require Import Base BaseProofs ParseModel ParseSpec ParseProofs WireModel WireSpec WireProofs LveModel LveSpec LveProofs LveSteps
  LveHist LveThms DocSpec.

(** The replies of the code, with the two that are not documented. *)
Definition given (r m : bytes) : Prop :=
  Documented r m \/ Asks r C_TOOLS /\ m = B "VERSION 4" ++ [LF] \/ Asks r C_RETURNLICENSE /\ m = B "NOTSIMPLE" ++ [LF].
Definition docev (r : bytes) (ev : event) : Prop :=
  match ev with Reply m => given r m | Recv _ => False | _ => True end.
(** The code that is kept for FILE. *)
Definition kept {D} (s : lve D) : Prop := s_errmsg s <> None -> In (s_err s) [4; 5; 7; 8]%Z.

Lemma error_form al code t ms m : send_error al code t = Ok ms -> In m ms -> exists x, m = error_message code x.
Proof.
  unfold send_error, send_number_and_length. destruct t as [d|]; [|discriminate].
  destruct (al _); [|intros [= <-] []]. destruct (_ <=? _)%Z; [discriminate|]. intros H I.
  assert (E : ms = [number_and_length_header C_ERROR code (zlen d) ++ d]) by congruence. rewrite E in I. destruct I as [<-|[]].
  exists d. unfold number_and_length_header, error_message. change (B "ERROR ") with (cmd_name C_ERROR ++ [SP]). change (B " ") with [SP].
  rewrite <- !app_assoc. reflexivity.
Qed.
Lemma length_form al id d ms m : send_length al id d = Ok ms -> In m ms -> m = length_message (cmd_name id) d.
Proof.
  unfold send_length. destruct (al _); [|intros [= <-] []]. destruct (_ <=? _)%Z; [discriminate|]. intros H I.
  assert (E : ms = [length_header id (zlen d) ++ d]) by congruence. rewrite E in I. destruct I as [<-|[]].
  unfold length_header, length_message. change (B " ") with [SP]. rewrite <- !app_assoc. reflexivity.
Qed.
Lemma error_doc {Q : unit -> Prop} r al code t : Q tt -> (forall x, given r (error_message code x)) -> tri (docev r) Q (reply (send_error al code t)).
Proof. intros q H. apply tri_reply; [|exact q]. intros ms m E I. destruct (error_form _ _ _ _ _ E I) as [x ->]. apply H. Qed.
Lemma simple_doc {Q : unit -> Prop} r id : Q tt -> given r (cmd_name id ++ [LF]) -> tri (docev r) Q (reply (Ok [send_simple id])).
Proof. intros q H. apply tri_reply; [|exact q]. intros ms m [= <-] [<-|[]]. rewrite send_simple_eq. exact H. Qed.
Lemma common r code : In code [1; 6; 7; 8]%Z -> forall x, given r (error_message code x).
Proof. intros I x. left. now apply Doc_error. Qed.

Lemma setup_doc {D} r (e : env D) s : tri (docev r) (fun _ => True) (setup_licensing e s).
Proof.
  unfold setup_licensing. destruct (s_lic s); [apply tri_ret; exact I|].
  eapply (tri_bind _ (fun _ => True)); [apply tri_emit; exact I|]. intros _ _. destruct (e_lic_new _ _); apply tri_ret; exact I.
Qed.
Lemma check_doc {D} r (e : env D) s : tri (docev r) (fun _ => True) (setup_check e s).
Proof.
  unfold setup_check. eapply tri_bind; [apply setup_doc|]. intros [s1 [[t|]|]] _; [|apply tri_crash|apply tri_ret; exact I].
  eapply (tri_bind _ (fun _ => True)); [apply error_doc; [exact I|apply common; cbn; auto]|]. intros _ _. apply tri_ret. exact I.
Qed.
Lemma global_doc {D} r cfg (e : env D) s : tri (docev r) (fun _ => True) (global_licence cfg e false s).
Proof.
  unfold global_licence. destruct (cfg_global cfg) as [f|]; [|apply tri_ret; exact I]. destruct (s_approved s); [|apply tri_ret; exact I].
  eapply tri_bind; [apply setup_doc|]. intros [s1 ref] _.
  eapply (tri_bind _ (fun _ => True)).
  { destruct ref as [t|]; [apply tri_ret; exact I|]. eapply (tri_bind _ (fun _ => True)); [apply tri_emit; exact I|]. intros _ _. apply tri_ret. exact I. }
  intros [[t|]|] _; [|apply tri_crash|apply tri_ret; exact I].
  eapply (tri_bind _ (fun _ => True)); [apply error_doc; [exact I|apply common; cbn; auto]|]. intros _ _. apply tri_ret. exact I.
Qed.
Lemma lib_doc {D} r cfg (e : env D) s len d : Asks r C_LIB -> tri (docev r) (fun _ => True) (handle_lib cfg e false s len d).
Proof.
  intros A. unfold handle_lib. destruct d as [p|]; [|apply tri_ret; exact I]. destruct (len =? 0)%Z; [apply tri_ret; exact I|].
  destruct (negb _); [apply tri_crash|]. eapply (tri_bind _ (fun _ => True)); [apply tri_lift; auto|]. intros raw _.
  destruct (e_cr_create _ _); [|apply tri_ret; exact I]. eapply tri_bind; [apply global_doc|]. intros [s3 [|]] _; [|apply tri_ret; exact I].
  eapply (tri_bind _ (fun _ => True)); [apply simple_doc; [exact I|left; now apply Doc_lib]|]. intros _ _. apply tri_ret. exact I.
Qed.
Lemma feature_doc {D} r (e : env D) s d : Asks r C_FEATURE -> tri (docev r) (fun _ => True) (handle_feature e false s d).
Proof.
  intros A. unfold handle_feature. eapply tri_bind; [apply check_doc|]. intros [s1 [|]] _; [|apply tri_ret; exact I].
  eapply (tri_bind _ (fun _ => True)); [apply tri_lift; auto|]. intros name _.
  eapply (tri_bind _ (fun _ => True)); [apply tri_emit; exact I|]. intros _ _. destruct (e_checkout e name) as [|[m|]]; [| |apply tri_crash].
  - eapply (tri_bind _ (fun _ => True)); [apply simple_doc; [exact I|left; apply Doc_yes; auto]|]. intros _ _. apply tri_ret. exact I.
  - eapply (tri_bind _ (fun _ => True)).
    { apply tri_reply; [|exact I]. intros ms x E In0. unfold send_string in E. rewrite (length_form _ _ _ _ _ E In0). left. apply Doc_no. auto. }
    intros _ _. apply tri_ret. exact I.
Qed.
Lemma returnfeature_doc {D} r (e : env D) s d : Asks r C_RETURNFEATURE -> tri (docev r) (fun _ => True) (handle_returnfeature e s d).
Proof.
  intros A. unfold handle_returnfeature. eapply tri_bind; [apply check_doc|]. intros [s1 [|]] _; [|apply tri_ret; exact I].
  eapply (tri_bind _ (fun _ => True)); [apply tri_lift; auto|]. intros name _.
  eapply (tri_bind _ (fun _ => True)); [apply tri_emit; exact I|]. intros _ _. destruct (e_checkin e name) as [|[m|]]; [| |apply tri_crash].
  - eapply (tri_bind _ (fun _ => True)); [apply simple_doc; [exact I|left; apply Doc_yes; auto]|]. intros _ _. apply tri_ret. exact I.
  - eapply (tri_bind _ (fun _ => True)); [apply error_doc; [exact I|apply common; cbn; auto]|]. intros _ _. apply tri_ret. exact I.
Qed.
Lemma version_doc {D} r (e : env D) s n : Asks r C_VERSION -> tri (docev r) (fun _ => True) (handle_version e s n).
Proof.
  intros A. unfold handle_version. destruct (n <? MIN_PROTOCOL_VERSION)%Z.
  - eapply (tri_bind _ (fun _ => True)); [apply error_doc; [exact I|intros x; left; now apply Doc_version_too_low]|]. intros _ _. apply tri_ret. exact I.
  - eapply (tri_bind _ (fun _ => True)); [|intros _ _; apply tri_ret; exact I].
    apply tri_reply; [|exact I]. intros ms m [= <-] [<-|[]]. left. now apply Doc_version.
Qed.
Lemma file_error_doc {D} r (e : env D) code n t : In code [1; 6; 7; 8]%Z -> tri (docev r) (fun _ => True) (file_error e code n t).
Proof. intros H. unfold file_error. destruct (e_alloc e _); [|apply tri_ret; exact I]. apply error_doc; [exact I|]. now apply common. Qed.
Lemma file_doc {D} r (e : env D) s len d : Asks r C_FILE -> kept s -> tri (docev r) (fun _ => True) (handle_file e s len d).
Proof.
  intros A K. unfold handle_file. destruct (s_approved s); cbn [negb].
  2:{ unfold kept in K. destruct (s_errmsg s) as [m|]; [|apply tri_ret; exact I].
      eapply (tri_bind _ (fun _ => True)); [apply error_doc; [exact I|]|intros _ _; apply tri_ret; exact I].
      intros x. specialize (K ltac:(discriminate)). cbn [In] in K. destruct K as [<-|[<-|K]].
      - left. apply Doc_not_found. auto.
      - left. now apply Doc_not_allowed.
      - apply common. cbn [In]. tauto. }
  destruct (e_alloc e _); cbn [negb].
  2:{ eapply (tri_bind _ (fun _ => True)); [apply error_doc; [exact I|apply common; cbn; auto]|]. intros _ _. apply tri_ret. exact I. }
  destruct (s_lib s) as [lib|]; [|destruct d; apply tri_crash]. destruct d as [p|]; [|apply tri_crash].
  eapply (tri_bind _ (fun _ => True)); [apply tri_lift; auto|]. intros rel _.
  eapply (tri_bind _ (fun _ => True)).
  { unfold read_file. eapply (tri_bind _ (fun _ => True)); [apply tri_emit; exact I|]. intros _ _.
    destruct (e_file e _) as [t|t|sz av fe]; try (apply tri_ret; exact I). destruct (e_alloc e (sz + 1)%Z); [|apply tri_ret; exact I].
    destruct fe; [destruct (_ <? _)%Z|]; apply tri_ret; exact I. }
  assert (C : forall dd, tri (docev r) (fun _ => True) (reply (send_length (e_alloc e) C_FILECONT dd))).
  { intros dd. apply tri_reply; [|exact I]. intros ms m E In0. rewrite (length_form _ _ _ _ _ E In0). left. now apply Doc_contents. }
  intros [m|file] _.
  { eapply (tri_bind _ (fun _ => True)); [apply error_doc; [exact I|apply common; cbn; auto]|]. intros _ _. apply tri_ret. exact I. }
  destruct (is_moc rel).
  - destruct (e_alloc e (zlen file + 1)%Z); cbn [negb].
    + eapply (tri_bind _ (fun _ => True)); [apply tri_lift; auto|]. intros [cr [dd|]] _.
      * eapply tri_bind; [apply C|]. intros _ _. apply tri_ret. exact I.
      * eapply tri_bind; [apply file_error_doc; cbn; auto|]. intros _ _. apply tri_ret. exact I.
    + eapply tri_bind; [apply file_error_doc; cbn; auto|]. intros _ _. apply tri_ret. exact I.
  - eapply tri_bind; [apply C|]. intros _ _. apply tri_ret. exact I.
Qed.

Lemma dispatch_doc {D} cfg (e : env D) s p' c r : ValidLine (cstr r) c -> next_phase (s_phase s) (c_id c) = Some p' -> kept s ->
  tri (docev r) (fun _ => True) (dispatch cfg e s p' c r).
Proof.
  intros V N K. unfold dispatch. eapply (tri_bind _ (fun _ => True)).
  { destruct (form_of (c_id c)); try (apply tri_ret; exact I). apply tri_lift. auto. }
  intros d _. assert (A : Asks r (c_id c)) by (exists c; auto). apply next_phase_inv in N.
  destruct N as [(P & Ic & ->)|[(P & Ic & ->)|[(P & Ic & ->)|(P & -> & Ic)]]].
  - rewrite P. apply version_doc. congruence.
  - rewrite P, Ic. cbn [cmd_id_eqb]. unfold handle_tools. rewrite Ic in A.
    eapply (tri_bind _ (fun _ => True)); [|intros _ _; apply tri_ret; exact I].
    apply tri_reply; [|exact I]. intros ms m [= <-] [<-|[]]. right. left. split; [exact A|reflexivity].
  - assert (G : tri (docev r) (fun _ => True) (run (s1, _) <- handle_lib cfg e false (set_phase s P_LICENSE) (c_length c) d ; ret s1)).
    { eapply tri_bind; [apply lib_doc; congruence|]. intros [s1 ok] _. apply tri_ret. exact I. }
    destruct P as [P|P]; rewrite P; [rewrite Ic; cbn [cmd_id_eqb]|]; exact G.
  - rewrite P. destruct Ic as [Ic|[Ic|[Ic|[Ic|Ic]]]]; rewrite Ic in A |- *; cbn [cmd_id_eqb].
    + eapply tri_bind; [apply feature_doc, A|]. intros [s1 ok] _. apply tri_ret. exact I.
    + apply returnfeature_doc, A.
    + unfold handle_license. eapply (tri_bind _ (fun _ => True)); [apply simple_doc; [exact I|left; now apply Doc_not_simple]|]. intros _ _. apply tri_ret. exact I.
    + unfold handle_returnlicense. eapply (tri_bind _ (fun _ => True)); [apply simple_doc; [exact I|right; right; split; [exact A|reflexivity]]|].
      intros _ _. apply tri_ret. exact I.
    + apply file_doc; [exact A|exact K].
Qed.

Lemma step_doc {D} cfg (e : env D) s r : kept s -> exists es o, lve_step cfg e s r = (Recv r :: es, o) /\ (forall ev, In ev es -> docev r ev) /\
  (forall s', o = Ok s' -> kept s').
Proof.
  intros K. destruct (lve_step_tri cfg e s r) as (es & o & E & _ & Mv). exists es, o. split; [exact E|]. split.
  2:{ intros s' Eo. specialize (Mv s' Eo). unfold kept in *. destruct Mv as [_ _ _ E1 E2|_ _ _ _ _ E1 E2|_ _ _ _ _ E1 E2|_ _ _ _ _ [[E1 E2]|[[[E1|E1] _]|[E1 _]]]]; rewrite ?E1, ?E2; cbn [In]; auto 10. }
  revert E. unfold lve_step, emit. rewrite mbind_ok. set (m := if negb (e_alloc e (zlen r + 1)%Z) then _ else _).
  assert (T : tri (docev r) (fun _ => True) m).
  { subst m. destruct (e_alloc e _); cbn [negb]; [|apply tri_crash].
    destruct (parse_command ERROR_SIZE (cstr r)) as [[g c] mm] eqn:X.
    assert (Same : forall (s0 : lve D) t, tri (docev r) (fun _ => True) (run _ <- reply (send_error (e_alloc e) ERR_NOT_UNDERSTOOD t) ; ret s0)).
    { intros s0 t. eapply (tri_bind _ (fun _ => True)); [apply error_doc; [exact I|apply common; cbn; auto]|]. intros _ _. apply tri_ret. exact I. }
    destruct g; try apply Same. pose proof (valid_no_text _ _ _ _ X) as ->.
    assert (V : ValidLine (cstr r) c) by (apply (parse_valid_iff ERROR_SIZE); eauto).
    unfold handle_command. destruct (next_phase (s_phase s) (c_id c)) as [p'|] eqn:N; [now apply dispatch_doc|].
    eapply (tri_bind _ (fun _ => True)); [apply tri_lift; auto|]. intros t _. apply Same. }
  intros E. destruct T as [T _]. destruct m as [es' o']. assert (es = es') as -> by (cbn in E; congruence). exact T.
Qed.

(** The replies of a session, with the record that was taken last. *)
Definition noted (pre : list event) (ev : event) : Prop :=
  match ev with Reply m => forall a r mid, pre = a ++ Recv r :: mid -> (forall x, ~ In (Recv x) mid) -> given r m | _ => True end.

Lemma last_recv (pre : list event) r mid a r' mid' : pre ++ Recv r :: mid = a ++ Recv r' :: mid' ->
  (forall x, ~ In (Recv x) mid) -> (forall x, ~ In (Recv x) mid') -> r = r'.
Proof.
  intros E N N'. assert (H : forall l1 x m1 l2 y m2, l1 ++ Recv x :: m1 = l2 ++ Recv y :: m2 -> length l1 < length l2 -> In (Recv y) m1).
  { clear. induction l1 as [|z l1 IH]; intros x m1 [|w l2] y m2 E L; cbn in *; try lia.
    - injection E as _ ->. apply in_or_app. right. now left.
    - injection E as _ E. apply (IH _ _ _ _ _ E). lia. }
  destruct (Nat.lt_trichotomy (length pre) (length a)) as [L|[L|L]].
  - exfalso. apply (N r'). apply (H _ _ _ _ _ _ E L).
  - clear - E L. revert a E L. induction pre as [|z pre IH]; intros [|w a] E L; cbn in *; try lia; [congruence|].
    injection E as _ E. apply (IH a E). lia.
  - exfalso. apply (N' r). apply (H _ _ _ _ _ _ (eq_sym E) L).
Qed.

Lemma session_doc {D} cfg key (ts : list (turn D)) es o : session cfg key ts = (es, o) ->
  forall r m, Answers es r m -> given r m.
Proof.
  intros E r m (a & mid & b & Ee & N).
  destruct (@session_invariant D cfg key (fun _ => True) (fun _ s => kept s) noted) with (ts := ts) (es := es) (o := o) as [H _].
  - intros ok _. unfold kept, started. destruct ok; cbn; [congruence|]. intros _. right. now left.
  - intros pre s t _ K. destruct (step_doc cfg (t_env t) s (t_record t) K) as (es0 & o0 & Es & Ev & Ks). rewrite Es. cbn [fst snd]. split; [|exact Ks].
    intros a0 ev b0 Eq. destruct a0 as [|x a0]; [injection Eq as <- _; exact I|]. injection Eq as <- Eq.
    assert (Hev := Ev ev). assert (Ha : forall x, ~ In (Recv x) a0).
    { intros x Hx. apply (Ev (Recv x)). rewrite Eq. apply in_or_app. now left. }
    specialize (Hev ltac:(rewrite Eq; apply in_or_app; right; now left)).
    destruct ev as [|m0| | | |]; try exact I. cbn [docev] in Hev. intros a1 r1 mid1 Ep N1.
    rewrite <- (last_recv pre (t_record t) a0 a1 r1 mid1 Ep Ha N1). exact Hev.
  - apply Forall_forall. auto.
  - exact E.
  - specialize (H (a ++ Recv r :: mid) (Reply m) b). rewrite Ee, <- app_assoc in H. exact (H eq_refl a r mid eq_refl N).
Qed.

Lemma asks_one r i j : Asks r i -> Asks r j -> i = j.
Proof. intros (c & V & <-) (d & W & <-). now rewrite (valid_det _ _ _ V W). Qed.
Lemma version4_undocumented r : ~ Documented r (B "VERSION 4" ++ [LF]).
Proof. intros H. inversion H. Qed.
Lemma notsimple_undocumented r : Asks r C_RETURNLICENSE -> ~ Documented r (B "NOTSIMPLE" ++ [LF]).
Proof. intros A H. inversion H; match goal with L : Asks r C_LICENSE |- _ => discriminate (asks_one _ _ _ A L) end. Qed.
Lemma info_rejected {D} (s : lve D) : NotAcceptable s (B "LICENSEINFO" ++ [LF]).
Proof.
  left. exists UNKNOWN_CMD. apply (parse_reject_iff ERROR_SIZE); [discriminate|]. eexists. vm_compute. reflexivity.
Qed.
Lemma tools_late {D} (s : lve D) r : Asks r C_TOOLS -> s_phase s <> P_TOOLS -> NotAcceptable s r.
Proof. intros (c & V & Ic) P. right. exists c. split; [exact V|]. rewrite Ic. intros H. inversion H. congruence. Qed.
