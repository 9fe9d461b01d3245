(** Proofs about the library a licence manager is made for. *)
From Verif Require Import Base BaseProofs ParseModel WireModel WireSpec WireProofs LveModel LveSpec LveProofs LveSteps LveHist.

(** The managers that are made are for this library. *)
Definition names {A} (p : option bytes) (m : M A) : Prop := forall q ok, In (LicNew q ok) (fst m) -> q = p.
Lemma names_ret {A} p (a : A) : names p (ret a).
Proof. intros q ok []. Qed.
Lemma names_crash {A} p r : names p (@crash A r).
Proof. intros q ok []. Qed.
Lemma names_lift {A} p (o : outcome A) : names p (lift o).
Proof. intros q ok []. Qed.
Lemma names_reply p o : names p (reply o).
Proof. intros q ok H. destruct o as [ms|r|]; cbn in H; try destruct H. apply in_map_iff in H. destruct H as (x & [=] & _). Qed.
Lemma names_bind {A C} p (m : M A) (k : A -> M C) : names p m -> (forall a, names p (k a)) -> names p (mbind m k).
Proof.
  intros H K q ok I. destruct m as [es [a|r|]]; cbn [mbind fst] in *.
  - destruct (k a) as [es2 o] eqn:E. cbn [fst] in I. apply in_app_or in I. destruct I as [I|I]; [exact (H q ok I)|]. apply (K a q ok). now rewrite E.
  - exact (H q ok I).
  - exact (H q ok I).
Qed.
Lemma names_if {A} p (c : bool) (m n : M A) : names p m -> names p n -> names p (if c then m else n).
Proof. now destruct c. Qed.
Lemma names_out p f ok : names p (emit (Checkout f ok)).
Proof. intros q b [[=]|[]]. Qed.
Lemma names_in p f ok : names p (emit (Checkin f ok)).
Proof. intros q b [[=]|[]]. Qed.
Ltac walk := repeat first
  [ apply names_ret | apply names_crash | apply names_lift | apply names_reply | apply names_out | apply names_in | apply names_if
  | apply names_bind; [|intros ?] ].

Definition path {D} (s : lve D) : option bytes := match s_lib s with Some l => Some (cstr l) | None => None end.
Lemma setup_names {D} (e : env D) s : names (path s) (setup_licensing e s).
Proof.
  unfold setup_licensing. apply names_if; [apply names_ret|]. cbv zeta. apply names_bind.
  - intros q ok [[= <- _]|[]]. reflexivity.
  - intros _. destruct (e_lic_new e _); apply names_ret.
Qed.
Lemma global_names {D} cfg (e : env D) q s : names (path s) (global_licence cfg e q s).
Proof.
  unfold global_licence. destruct (cfg_global cfg) as [f|]; [|apply names_ret]. apply names_if; [|apply names_ret].
  apply names_bind; [apply setup_names|]. intros [s1 r]. apply names_bind.
  - destruct r; cbv zeta; walk.
  - intros [[t|]|]; cbv zeta; walk.
Qed.
Lemma lib_names {D} cfg (e : env D) q s len d : names (Some (cstr (trim d))) (handle_lib cfg e q s len (Some (complete_payload d))).
Proof.
  unfold handle_lib. cbv zeta. apply names_if; [apply names_ret|]. apply names_if; [apply names_crash|].
  assert (E : payload_bytes (complete_payload d) = Ok d).
  { unfold payload_bytes, complete_payload. cbn [p_bytes p_len]. now rewrite Z.ltb_irrefl. }
  rewrite E. cbn [lift mbind]. destruct (e_cr_create e _) as [c|]; [|intros ? ? []].
  intros x ok I. assert (N : names (Some (cstr (trim d))) (mbind (global_licence cfg e q (set_cr (set_lib s (Some (trim d))) (Some c)))
    (fun '(s3, go) => if go : bool then mbind (if q then ret tt else reply (Ok [send_simple C_YES])) (fun _ => ret (validate_directory e s3 (trim d))) else ret (s3, false)))).
  { apply names_bind; [exact (global_names cfg e q (set_cr (set_lib s (Some (trim d))) (Some c)))|]. intros [s3 go]. walk. }
  apply (N x ok). revert I. cbn [fst]. clear N. intros I.
  match type of I with In _ (fst (let '(b, y) := ?t in (_, _))) => destruct t as [b y] eqn:T end. cbn [fst app] in I. exact I.
Qed.
Lemma check_names {D} (e : env D) s : names (path s) (setup_check e s).
Proof. unfold setup_check. apply names_bind; [apply setup_names|]. intros [s1 [[t|]|]]; walk. Qed.
Lemma feature_names {D} (e : env D) q s d : names (path s) (handle_feature e q s d).
Proof.
  unfold handle_feature. apply names_bind; [apply check_names|]. intros [s1 ok]. cbv zeta. walk. destruct (e_checkout e _) as [|[t|]]; walk.
Qed.
Lemma return_names {D} (e : env D) s d : names (path s) (handle_returnfeature e s d).
Proof.
  unfold handle_returnfeature. apply names_bind; [apply check_names|]. intros [s1 ok]. cbv zeta. walk. destruct (e_checkin e _) as [|[t|]]; walk.
Qed.
Lemma read_names {D} p (e : env D) f : names p (read_file e f).
Proof.
  unfold read_file. apply names_bind; [intros q ok [[=]|[]]|]. intros _. destruct (e_file e f) as [t|t|z a [t|]]; cbv zeta; walk.
Qed.
Lemma file_names {D} p (e : env D) s len d : names p (handle_file e s len d).
Proof.
  unfold handle_file. cbv zeta. apply names_if; [destruct (s_errmsg s); walk|]. apply names_if; [walk|].
  destruct (s_lib s); [|destruct d; walk]. destruct d; [|walk]. apply names_bind; [walk|]. intros rel. apply names_bind; [apply read_names|].
  intros [m|f]; [walk|]. unfold file_error. apply names_if; [|walk]. apply names_if; [walk|]. apply names_bind; [walk|]. intros [cr [x|]]; walk.
Qed.
(** After LIB. *)
Lemma step_names {D} cfg (e : env D) s r : s_phase s = P_LICENSE -> names (path s) (lve_step cfg e s r).
Proof.
  intros P. unfold lve_step. apply names_bind; [intros q ok [[=]|[]]|]. intros _. apply names_if; [walk|].
  destruct (parse_command ERROR_SIZE (cstr r)) as [[g c] m].
  set (s0 := match m with Some t => set_buf s t | None => s end).
  assert (E : path s0 = path s) by (unfold s0; now destruct m).
  assert (P0 : s_phase s0 = P_LICENSE) by (unfold s0; destruct m; exact P).
  rewrite <- E. clearbody s0. clear E P. cbv zeta. destruct g; try (walk; fail).
  unfold handle_command. destruct (next_phase (s_phase s0) (c_id c)) as [p'|]; [|walk].
  unfold dispatch. apply names_bind; [destruct (form_of (c_id c)); walk|]. intros d. cbv zeta. rewrite P0.
  apply names_if; [apply names_bind; [exact (feature_names e false (set_phase s0 p') d)|intros [s1 x]; walk]|].
  apply names_if; [exact (return_names e (set_phase s0 p') d)|].
  apply names_if; [unfold handle_license; walk|]. apply names_if; [unfold handle_returnlicense; walk|]. apply file_names.
Qed.
Lemma loop_names {D} cfg (ts : list (turn D)) : forall s, s_phase s = P_LICENSE -> names (path s) (lve_loop cfg s ts).
Proof.
  induction ts as [|t ts IH]; intros s P; [apply names_ret|]. intros q ok I. cbn [lve_loop] in I.
  pose proof (step_names cfg (t_env t) s (t_record t) P) as N. destruct (lve_step cfg (t_env t) s (t_record t)) as [es [s1|u|]] eqn:E; cbn [mbind fst] in I; [|exact (N q ok I)..].
  assert (K : s_phase s1 = P_LICENSE /\ s_lib s1 = s_lib s).
  { destruct (loop_after_lib cfg [{| t_env := t_env t; t_record := t_record t; t_shutdown := true |}] s (es ++ []) s1 P) as (K1 & K2 & _); [|auto].
    cbn [lve_loop t_env t_record t_shutdown]. rewrite E. reflexivity. }
  destruct K as [K1 K2]. assert (Ep : path s = path s1) by (unfold path; now rewrite K2).
  destruct (t_shutdown t).
  - cbn in I. rewrite app_nil_r in I. exact (N q ok I).
  - destruct (lve_loop cfg s1 ts) as [es2 o] eqn:E2. cbn [fst] in I. apply in_app_or in I. destruct I as [I|I]; [exact (N q ok I)|].
    rewrite Ep. apply (IH s1 K1 q ok). now rewrite E2.
Qed.
(** From LIB on. *)
Lemma named_library {D} cfg (e : env D) s r d sh (ts : list (turn D)) :
  s_phase s = P_TOOLS \/ s_phase s = P_LIB -> Request r C_LIB d -> d <> [] -> AllocOk e ->
  exists lib, Trimmed d lib /\
    forall p ok, In (LicNew p ok) (fst (lve_loop cfg s ({| t_env := e; t_record := r; t_shutdown := sh |} :: ts))) -> p = Some (cstr lib).
Proof.
  intros P R Nd A. exists (trim d). split; [exact (trim_spec d Nd)|]. intros q ok I. cbn [lve_loop t_env t_record t_shutdown] in I.
  assert (N : names (Some (cstr (trim d))) (lve_step cfg e s r)).
  { intros q' ok' H. rewrite (lib_step cfg e s r d P R A) in H. unfold after in H. cbn [fst] in H. destruct H as [[=]|H].
    exact (lib_names _ _ _ _ _ _ q' ok' H). }
  destruct (lve_step cfg e s r) as [es [s1|u|]] eqn:E; cbn [mbind fst] in I; [|exact (N q ok I)..].
  destruct (lib_sets_path cfg e s r d s1 P R Nd A) as (lib & L & T & F); [now rewrite E|].
  assert (Ep : path s1 = Some (cstr (trim d))) by (unfold path; rewrite L, (trimmed_unique d lib (trim d) T (trim_spec d Nd)); reflexivity).
  destruct sh.
  - cbn in I. rewrite app_nil_r in I. exact (N q ok I).
  - destruct (lve_loop cfg s1 ts) as [es2 o] eqn:E2. cbn [fst] in I. apply in_app_or in I. destruct I as [I|I]; [exact (N q ok I)|].
    rewrite <- Ep. apply (loop_names cfg ts s1 F q ok). now rewrite E2.
Qed.
