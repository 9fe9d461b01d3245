(** Proofs about whole sessions. *)
From Verif Require Import Base BaseProofs ParseModel ParseSpec ParseProofs DecProofs WireModel WireSpec WireProofs
  LveModel LveSpec LveProofs LveSteps LveHist LveThms ToolModel ToolSpec ToolProofs SessionModel SessionSpec.

Lemma arriving_internal cut a : Forall internal a -> arriving cut a = [].
Proof.
  unfold arriving. induction 1 as [|ev a H _ IH]; [reflexivity|]. cbn [map concat]. rewrite IH, app_nil_r.
  destruct ev; cbn in H; tauto || reflexivity.
Qed.
Lemma arriving_app cut a b : arriving cut (a ++ b) = arriving cut a ++ arriving cut b.
Proof. unfold arriving. now rewrite map_app, concat_app. Qed.
Lemma arriving_one cut r a m b : Forall internal a -> Forall internal b ->
  arriving cut (Recv r :: a ++ Reply m :: b) = map RMsg (cut m).
Proof.
  intros Ha Hb. change (Recv r :: a ++ Reply m :: b) with ([Recv r] ++ a ++ [Reply m] ++ b).
  rewrite !arriving_app, !(arriving_internal cut a), !(arriving_internal cut b) by assumption.
  unfold arriving. cbn [map concat app]. now rewrite !app_nil_r.
Qed.

Definition call_cmd (c : call) : cmd_id :=
  match c with
  | Version _ _ => C_VERSION | LibPath _ => C_LIB | Feature _ => C_FEATURE
  | ReturnFeature _ => C_RETURNFEATURE | License _ => C_LICENSE | ReturnLicense _ => C_RETURNLICENSE
  | File _ => C_FILE
  end.
Definition call_arg (c : call) : bytes :=
  match c with
  | Version _ _ => []
  | LibPath s | Feature s | ReturnFeature s | License s | ReturnLicense s | File s => s
  end.

Lemma call_request al c : (forall n, al n = true) -> FairCall c ->
  exists req, request al c = Ok [req] /\ (zlen req <= 16384)%Z /\ req <> [] /\ GoodRequest req /\
    match c with
    | Version _ max => ValidLine (cstr req) {| c_id := C_VERSION; c_number := max; c_length := 0 |}
    | _ => Request req (call_cmd c) (call_arg c)
    end.
Proof.
  intros A F.
  assert (L : forall id s, form_of id = F_LENGTH -> (zlen s <= 16000)%Z -> (id = C_LIB -> s <> []) ->
     exists req, send_string al id s = Ok [req] /\ (zlen req <= 16384)%Z /\ req <> [] /\ GoodRequest req /\
       Request req id s).
  { intros id s Fi Ls Ne. unfold send_string. rewrite send_length_eq, A by lia.
    eexists. split; [reflexivity|].
    assert (R : Request (cmd_name id ++ [SP] ++ print_dec (zlen s) ++ [LF] ++ s) id s).
    { apply request_made; [exact Fi|unfold LONG_MAX; lia]. }
    assert (Lr : (zlen (cmd_name id ++ [SP] ++ print_dec (zlen s) ++ [LF] ++ s) <= 16384)%Z).
    { destruct (cmd_name_chars id) as (_ & _ & _ & _ & Hl).
      pose proof (print_dec_length (zlen s) ltac:(pose proof (zlen_nonneg s); lia)).
      rewrite !zlen_app. change (zlen [SP]) with 1%Z. change (zlen [LF]) with 1%Z.
      unfold zlen in *. lia. }
    split; [exact Lr|]. split; [|split; [|exact R]].
    - intros E. apply (f_equal (@length byte)) in E. rewrite !app_length in E. cbn in E. lia.
    - split; [unfold InMemory; lia|]. intros c0 V _. destruct R as (c' & h & V' & Ic & Hh & Hl).
      rewrite (valid_det _ _ _ V V'). split; [exists h, s; auto|].
      intros E E0. apply (Ne (eq_trans (eq_sym Ic) E)). destruct s; [reflexivity|]. rewrite E0 in Hl. discriminate. }
  destruct c as [min max|s|s|s|s|s|s]; cbn [request call_cmd call_arg FairCall] in *.
  2:{ destruct F as [F1 F2]. apply L; [reflexivity|exact F2|auto]. }
  2-6: apply L; [reflexivity|exact F|discriminate].
  rewrite send_number_eq by (unfold LONG_MIN, LONG_MAX in F; lia).
  eexists. split; [reflexivity|].
  pose proof (version_made max F) as V.
  change (cmd_name C_VERSION) with (B "VERSION").
  assert (Lr : (zlen (B "VERSION" ++ [SP] ++ print_dec max ++ [LF]) <= 16384)%Z).
  { pose proof (print_dec_length max ltac:(unfold LONG_MIN, LONG_MAX in F; lia)).
    rewrite !zlen_app. change (zlen [SP]) with 1%Z. change (zlen [LF]) with 1%Z.
    change (zlen (B "VERSION")) with 7%Z. unfold zlen. lia. }
  split; [exact Lr|]. split; [discriminate|]. split; [|exact V].
  split; [unfold InMemory; lia|]. intros c0 Vc Fc.
  rewrite (valid_det _ _ _ Vc V) in Fc. vm_compute in Fc. discriminate.
Qed.

Lemma call_ok {D} cfg (k : link D) s c :
  healthy_state s -> FairLink k -> FairCall c ->
  exists d s1 req, request (k_alloc k) c = Ok [req] /\
    lve_step cfg (k_env k) s req = (d_events d, Ok s1) /\
    api_call cfg k s [] c = Ok (d, s1, []) /\ healthy_state s1 /\ Answered (k_alloc k) c d.
Proof.
  intros HS (HE & A & Cut1 & Cut2) F.
  destruct (call_request (k_alloc k) c A F) as (req & Rq & Lr & Ne & G & _).
  destruct (step_answered cfg (k_env k) s req HS HE G) as (a & m & b & s1 & E & Ha & Hb & (al' & c' & data & S) & HS1).
  destruct (Cut2 al' c' data m S) as (first & more & Cm & Cr).
  assert (I : Incoming (map RMsg (first :: more)) c' data []).
  { exists al', m, first, more. rewrite app_nil_r. auto. }
  destruct (await_reply (k_alloc k) _ [] c' data A I 1 c ltac:(lia)) as (r & e & Aw & P1 & P2 & P3 & P4 & P5 & _).
  exists {| d_result := r; d_error := e; d_events := Recv req :: a ++ Reply m :: b |}, s1, req.
  split; [exact Rq|]. split; [exact E|]. split; [|split; [exact HS1|]].
  - unfold api_call. rewrite Rq. cbn [bind]. cbn [map concat]. rewrite app_nil_r, (Cut1 req Ne Lr).
    cbn [handle_all]. rewrite E, mbind_ok. cbn [ret fst snd]. rewrite app_nil_r.
    rewrite arriving_one by assumption. rewrite Cm. cbn [app]. rewrite Aw. reflexivity.
  - exists req, m, a, b, al', c', data. cbn [d_events d_result d_error]. repeat (split; [assumption || reflexivity|]). assumption.
Qed.

Lemma calls_ok {D} cfg (cs : list (link D * call)) : forall s,
  healthy_state s -> Forall (fun '(k, c) => FairLink k /\ FairCall c) cs ->
  exists ds s1, api_calls cfg s [] cs = Ok (ds, s1, []) /\ healthy_state s1 /\
    Forall2 (fun '(k, c) d => Answered (k_alloc k) c d) cs ds.
Proof.
  induction cs as [|[k c] cs IH]; intros s HS F; cbn [api_calls].
  - exists [], s. auto.
  - apply Forall_cons_iff in F. destruct F as [F12 F3]. destruct F12 as [F1 F2].
    destruct (call_ok cfg k s c HS F1 F2) as (d & s1 & req & _ & _ & E & HS1 & An). rewrite E. cbn [bind].
    destruct (IH s1 HS1 F3) as (ds & s2 & E2 & HS2 & An2). rewrite E2. cbn [bind].
    exists (d :: ds), s2. split; [reflexivity|]. split; [exact HS2|]. constructor; auto.
Qed.

Lemma started_healthy {D} b : healthy_state (@started D b).
Proof.
  destruct b; repeat split; cbn; try discriminate; try (unfold ERROR_SIZE; lia).
  intros _. eexists. split; [reflexivity|]. unfold ERR_TOOL_NOT_ALLOWED. split; [reflexivity|lia].
Qed.

Lemma tool_session_start {D} cfg k (cs : list (link D * call)) :
  exists b, (b = true <-> In k (cfg_keys cfg)) /\
  tool_session cfg (Some k) cs = api_calls cfg (started b) [] cs.
Proof.
  destruct (validate_in k (cfg_keys cfg)) as (b & V & H). exists b. split; [exact H|].
  unfold tool_session, validate_pubkey. rewrite V, mbind_lift_ok. destruct b; reflexivity.
Qed.

Lemma session_lock_step {D} cfg key (cs : list (link D * call)) :
  Forall (fun '(k, c) => FairLink k /\ FairCall c) cs ->
  exists ds s1, tool_session cfg (Some key) cs = Ok (ds, s1, []) /\
    Forall2 (fun '(k, c) d => Answered (k_alloc k) c d) cs ds.
Proof.
  intros F. destruct (tool_session_start cfg key cs) as (b & _ & E). rewrite E.
  destruct (calls_ok cfg cs _ (started_healthy b) F) as (ds & s1 & E1 & _ & An). eauto.
Qed.

(** ** files *)

Definition serving {D} (lib : bytes) (s : lve D) : Prop :=
  s_phase s = P_LICENSE /\ s_lib s = Some lib /\ s_approved s = true.

Lemma serving_calls {D} cfg lib (cs : list (link D * call)) : forall s,
  healthy_state s -> serving lib s -> Forall (fun '(k, c) => FairLink k /\ FairCall c) cs ->
  exists ds s1, api_calls cfg s [] cs = Ok (ds, s1, []) /\ healthy_state s1 /\ serving lib s1.
Proof.
  induction cs as [|[k c] cs IH]; intros s HS SV F; cbn [api_calls].
  - exists [], s. auto.
  - apply Forall_cons_iff in F. destruct F as [F12 F3]. destruct F12 as [F1 F2].
    destruct (call_ok cfg k s c HS F1 F2) as (d & s1 & req & _ & St & E & HS1 & _). rewrite E. cbn [bind].
    assert (SV1 : serving lib s1).
    { destruct SV as (P & L & Ap).
      destruct (loop_after_lib cfg [{| t_env := k_env k; t_record := req; t_shutdown := true |}] s
                  (d_events d ++ []) s1 P) as (P1 & L1 & A1).
      - cbn [lve_loop t_env t_record t_shutdown]. rewrite St, mbind_ok. reflexivity.
      - unfold serving. now rewrite P1, L1, A1. }
    destruct (IH s1 HS1 SV1 F3) as (ds & s2 & E2 & K). rewrite E2. cbn [bind]. eauto.
Qed.

Lemma api_calls_app {D} cfg (cs1 cs2 : list (link D * call)) : forall s q,
  api_calls cfg s q (cs1 ++ cs2) =
  do (ds1, s1, q1) <- api_calls cfg s q cs1 ;
  do (ds2, s2, q2) <- api_calls cfg s1 q1 cs2 ; Ok (ds1 ++ ds2, s2, q2).
Proof.
  induction cs1 as [|[k c] cs1 IH]; intros s q; cbn [app api_calls bind].
  - destruct (api_calls cfg s q cs2) as [[[? ?] ?]|u|]; reflexivity.
  - destruct (api_call cfg k s q c) as [[[d s1] q1]|u|]; cbn [bind]; try reflexivity.
    rewrite IH. destruct (api_calls cfg s1 q1 cs1) as [[[ds1 s2] q2]|u|]; cbn [bind]; try reflexivity.
    destruct (api_calls cfg s2 q2 cs2) as [[[ds2 s3] q3]|u|]; reflexivity.
Qed.

Lemma lib_approved {D} cfg (e : env D) s r d lib :
  s_phase s = P_TOOLS \/ s_phase s = P_LIB -> s_lic s = false -> s_approved s = true ->
  Request r C_LIB d -> d <> [] -> Healthy e -> Trimmed d lib ->
  (forall g, cfg_global cfg = Some g ->
     e_lic_new e (Some (cstr lib)) = Granted /\ e_checkout e g = Granted) ->
  exists es s', lve_step cfg e s r = (es, Ok s') /\ serving lib s'.
Proof.
  intros P Li Ap R Nd (A & Hc & Hd & Hl & Hco & Hci & Hf) T G.
  rewrite (trimmed_unique d lib (trim d) T (trim_spec d Nd)) in *. clear T.
  rewrite (lib_step cfg e s r d P R A). unfold handle_lib.
  pose proof (zlen_pos d Nd). destruct (Z.eqb_spec (zlen d) 0); [lia|]. rewrite A. cbn [negb].
  rewrite complete_bytes, mbind_lift_ok.
  destruct (e_cr_create e (cstr (trim d))) as [dd|] eqn:Cr; [|destruct (Hc _ Cr)].
  set (s2 := set_cr _ (Some dd)).
  pose proof (global_licence_eq cfg e s2 A Hl Hco) as GL.
  assert (Sv : forall x, serving (trim d) x -> serving (trim d) (fst (validate_directory e x (trim d)))).
  { intros x X. unfold validate_directory. destruct (e_stat e _); exact X. }
  assert (Go : exists es s3, global_licence cfg e false s2 = (es, Ok (s3, true)) /\ serving (trim d) s3).
  { unfold global_wanted in GL. change (s_approved s2) with (s_approved s) in GL. rewrite Ap in GL.
    destruct (cfg_global cfg) as [g|].
    - destruct (G g eq_refl) as [G1 G2].
      assert (M : manager_ok e s2 = true).
      { unfold manager_ok. change (manager_path s2) with (Some (cstr (trim d))). rewrite G1. apply orb_true_r. }
      rewrite M, G2 in GL. cbn [andb lic_ok] in GL. rewrite GL. eexists _, _. split; [reflexivity|].
      repeat split; assumption.
    - rewrite GL. eexists _, _. split; [reflexivity|]. repeat split; assumption. }
  destruct Go as (es & s3 & -> & S3). rewrite mbind_ok. unfold after. cbn [fst snd].
  eexists _, (fst (validate_directory e s3 (trim d))). split; [reflexivity|]. now apply Sv.
Qed.

Lemma file_delivered {D} cfg (k : link D) s lib f b :
  healthy_state s -> serving lib s -> FairLink k -> FairCall (File f) ->
  Plaintext (k_env k) lib f b ->
  exists d s1 h, api_call cfg k s [] (File f) = Ok (d, s1, []) /\
    d_result d = Some (Contents h) /\ Opened b h.
Proof.
  intros HS (P & L & Ap) FL FC (Ib & raw & err & Ef & Em & En).
  pose proof FL as (HE & Al & Cut1 & Cut2). pose proof HE as (A & _).
  destruct (call_request (k_alloc k) (File f) Al FC) as (req & Rq & Lr & Ne & G & R).
  cbn [call_cmd call_arg] in R.
  assert (St : exists s1, lve_step cfg (k_env k) s req =
     ([Recv req; ReadFile (file_path lib (cstr f)); Reply (filecont_message b)], Ok s1)).
  { destruct (is_moc (cstr f)) eqn:M.
    - destruct (Em (proj1 (is_moc_spec _) M) (s_cr s)) as (cr & Dc). eexists.
      now apply (file_moc cfg (k_env k) s req lib f raw err cr b).
    - assert (NM : ~ MocFile (cstr f)) by (intros X; apply is_moc_spec in X; congruence).
      rewrite (En NM) in *. exists s. now apply (file_plain cfg (k_env k) s req lib f raw err). }
  destruct St as (s1 & St).
  assert (Lb : (zlen b <= LONG_MAX)%Z) by (unfold InMemory in Ib; unfold LONG_MAX; lia).
  assert (S : Sent (fun _ => true) {| c_id := C_FILECONT; c_number := 0; c_length := zlen b |} b (filecont_message b)).
  { apply (Sent_length _ C_FILECONT b); [reflexivity|exact Lb|].
    apply (send_filecont_ok (fun _ => true)); [reflexivity|unfold LONG_MAX in Lb; lia]. }
  destruct (Cut2 _ _ _ _ S) as (first & more & Cm & Cr).
  assert (I : Incoming (map RMsg (first :: more)) {| c_id := C_FILECONT; c_number := 0; c_length := zlen b |} b []).
  { exists (fun _ => true), (filecont_message b), first, more. rewrite app_nil_r. auto. }
  destruct (await_reply (k_alloc k) _ [] _ b Al I 1 (File f) ltac:(lia)) as (r & e & Aw & P1 & P2 & P3 & P4 & P5 & P6).
  destruct (proj2 P1 eq_refl) as [v ->]. destruct (P6 f v eq_refl eq_refl) as [h ->].
  exists {| d_result := Some (Contents h); d_error := e;
            d_events := [Recv req; ReadFile (file_path lib (cstr f)); Reply (filecont_message b)] |}, s1, h.
  split; [|split; [reflexivity|now apply (P5 f h)]].
  unfold api_call. rewrite Rq. cbn [bind map concat]. rewrite app_nil_r, (Cut1 req Ne Lr).
  cbn [handle_all]. rewrite St, mbind_ok. cbn [ret fst snd]. rewrite app_nil_r.
  pose proof (arriving_one (k_cut k) req [ReadFile (file_path lib (cstr f))] (filecont_message b) []) as AO.
  cbn [app] in AO. rewrite AO by (repeat constructor). rewrite Cm. cbn [app]. rewrite Aw. reflexivity.
Qed.

Lemma session_file {D} cfg key (kv kl kf : link D) min max p mid lib f b :
  In key (cfg_keys cfg) -> (1 <= max)%Z ->
  Forall (fun '(k, c) => FairLink k /\ FairCall c)
    ((kv, Version min max) :: (kl, LibPath p) :: mid ++ [(kf, File f)]) ->
  Trimmed p lib ->
  (forall g, cfg_global cfg = Some g ->
     e_lic_new (k_env kl) (Some (cstr lib)) = Granted /\ e_checkout (k_env kl) g = Granted) ->
  Plaintext (k_env kf) lib f b ->
  exists ds d s h,
    tool_session cfg (Some key) ((kv, Version min max) :: (kl, LibPath p) :: mid ++ [(kf, File f)]) =
      Ok (ds ++ [d], s, []) /\
    d_result d = Some (Contents h) /\ Opened b h.
Proof.
  intros K Mx F T G Pl.
  apply Forall_cons_iff in F. destruct F as [Fv F]. destruct Fv as [Fv1 Fv2].
  apply Forall_cons_iff in F. destruct F as [Fl F]. destruct Fl as [Fl1 Fl2].
  apply Forall_app in F. destruct F as [Fm Ff].
  apply Forall_cons_iff in Ff. destruct Ff as [Ff _]. destruct Ff as [Ff1 Ff2].
  destruct (tool_session_start cfg key ((kv, Version min max) :: (kl, LibPath p) :: mid ++ [(kf, File f)])) as (b0 & Hb & E).
  rewrite E. rewrite (proj2 Hb K). clear E Hb b0.
  set (s0 := started true). pose proof (started_healthy true : healthy_state s0) as HS0.
  cbn [api_calls].
  (* VERSION *)
  destruct (call_ok cfg kv s0 (Version min max) HS0 Fv1 Fv2) as (d1 & s1 & req1 & R1 & St1 & E1 & HS1 & _).
  rewrite E1. cbn [bind].
  destruct (call_request (k_alloc kv) (Version min max) (proj1 (proj2 Fv1)) Fv2) as (req1' & R1' & _ & _ & _ & V1).
  assert (req1' = req1) by congruence. subst req1'.
  destruct (version_step cfg (k_env kv) s0 req1 _ eq_refl V1 eq_refl (proj1 (proj1 Fv1))) as [VS _].
  rewrite (VS Mx) in St1. assert (Es1 : s1 = set_phase s0 P_TOOLS) by congruence. subst s1. clear VS.
  (* LIB *)
  destruct (call_ok cfg kl _ (LibPath p) HS1 Fl1 Fl2) as (d2 & s2 & req2 & R2 & St2 & E2 & HS2 & _).
  rewrite E2. cbn [bind].
  destruct (call_request (k_alloc kl) (LibPath p) (proj1 (proj2 Fl1)) Fl2) as (req2' & R2' & _ & _ & _ & V2).
  assert (req2' = req2) by congruence. subst req2'. cbn [call_cmd call_arg] in V2.
  destruct (lib_approved cfg (k_env kl) (set_phase s0 P_TOOLS) req2 p lib) as (es2 & s2' & St2' & SV2);
    try assumption; try reflexivity; [now left|exact (proj1 Fl2)|exact (proj1 Fl1)|].
  assert (s2' = s2) by congruence. subst s2'.
  (* the rest *)
  rewrite api_calls_app.
  destruct (serving_calls cfg lib mid s2 HS2 SV2 Fm) as (ds & s3 & E3 & HS3 & SV3). rewrite E3. cbn [bind].
  destruct (file_delivered cfg kf s3 lib f b HS3 SV3 Ff1 Ff2 Pl) as (d & s4 & h & E4 & Rd & Op).
  cbn [api_calls]. rewrite E4. cbn [bind].
  exists (d1 :: d2 :: ds), d, s4, h. split; [reflexivity|]. auto.
Qed.

(** ** TLS records *)

Lemma chunks_concat f : forall m, length m <= f -> concat (chunks f m) = m.
Proof.
  induction f as [|f IH]; intros [|x m] H; try reflexivity; [cbn in H; lia|].
  cbn [chunks concat]. rewrite IH; [apply firstn_skipn|].
  rewrite skipn_length. unfold record_max in *. cbn [length] in *. lia.
Qed.
Lemma chunks_nonempty f : forall m b, In b (chunks f m) -> b <> [].
Proof.
  induction f as [|f IH]; intros [|x m] b; cbn [chunks]; [intros []|intros []|intros []|].
  intros [E|E]; [|exact (IH _ _ E)].
  subst b. unfold record_max. destruct (Z.to_nat 16384) eqn:K; [lia|]. discriminate.
Qed.

Lemma sent_header_short al c data m : Sent al c data m ->
  exists h, m = h ++ LF :: data /\ length h <= 62 /\ ~ In LF h /\ ~ In NUL h.
Proof.
  intros S. destruct (sent_shape _ _ _ _ S) as (Sd & E & _).
  destruct (join_chars (header_words c) (header_words_good c)) as [J1 J2].
  exists (join (header_words c)). split; [exact E|]. split; [|auto].
  assert (L : length (cmd_name (c_id c)) <= 17) by apply (cmd_name_chars (c_id c)).
  revert S E. clear. intros S E.
  assert (K : length m <= 62 + length data).
  { destruct S as [id F|id n F R|id d m F L Sl|id n d m F R L Sl].
    - rewrite send_simple_eq, app_length. destruct (cmd_name_chars id) as (_ & _ & _ & _ & H). cbn. lia.
    - unfold send_number, snprintf. rewrite firstn_length. unfold NUMBER_FORM_BUFFER_SIZE, SIMPLE_FORM_BUFFER_SIZE. lia.
    - unfold send_length in Sl. destruct (al _); [|discriminate].
      destruct (Z.leb_spec (Z.of_nat NUMBER_FORM_BUFFER_SIZE + zlen d + 1) (zlen (length_header id (zlen d)) + zlen d)); [discriminate|].
      injection Sl as <-. rewrite app_length. unfold zlen in *. unfold NUMBER_FORM_BUFFER_SIZE, SIMPLE_FORM_BUFFER_SIZE in *. lia.
    - unfold send_number_and_length in Sl. destruct (al _); [|discriminate].
      destruct (Z.leb_spec (Z.of_nat NUMBER_AND_LENGTH_FORM_BUFFER_SIZE + zlen d + 1) (zlen (number_and_length_header id n (zlen d)) + zlen d)); [discriminate|].
      injection Sl as <-. rewrite app_length. unfold zlen in *.
      unfold NUMBER_AND_LENGTH_FORM_BUFFER_SIZE, NUMBER_FORM_BUFFER_SIZE, SIMPLE_FORM_BUFFER_SIZE in *. lia. }
  rewrite E, app_length in K. cbn [length] in K. lia.
Qed.

Lemma tls_fair : FairCut tls_records.
Proof.
  split.
  - intros [|x m] Ne L; [congruence|]. unfold tls_records. set (n := length (x :: m)).
    assert (Hn : n = S (length m)) by reflexivity. rewrite Hn. cbn [chunks].
    rewrite firstn_all2, skipn_all2; [destruct (length m); reflexivity| |];
      unfold zlen, record_max in *; lia.
  - intros al c data m Sm. destruct (sent_header_short _ _ _ _ Sm) as (h & E & Lh & _ & _).
    unfold tls_records. destruct m as [|x m0] eqn:Em; [destruct h; discriminate|]. rewrite <- Em in *.
    assert (Hc : exists k, length m = S k) by (rewrite Em; cbn; eauto). destruct Hc as [k Hk].
    exists (firstn (Z.to_nat record_max) m), (chunks k (skipn (Z.to_nat record_max) m)).
    split; [rewrite Hk, Em; reflexivity|].
    split; [|split; [|split]].
    + rewrite chunks_concat; [symmetry; apply firstn_skipn|]. rewrite skipn_length. unfold record_max. lia.
    + intros b Hb. apply (chunks_nonempty (S k) m).
      rewrite Em in *. exact Hb.
    + unfold zlen, SSL_RECORD_SIZE, record_max. rewrite firstn_length. lia.
    + rewrite E. rewrite firstn_app. apply in_or_app. right. unfold record_max.
      destruct (Z.to_nat 16384 - length h) eqn:X; [lia|]. now left.
Qed.

Lemma long_library_path {D} cfg (k : link D) s q p :
  s_phase s = P_TOOLS \/ s_phase s = P_LIB -> AllocOk (k_env k) -> (forall n, k_alloc k n = true) ->
  k_cut k = tls_records -> (16384 < zlen p <= LONG_MAX)%Z ->
  api_call cfg k s q (LibPath p) = UB UninitRead.
Proof.
  intros P A Al Ck Lp. unfold api_call. cbn [request]. unfold send_string.
  rewrite send_length_eq, Al by (unfold LONG_MAX in Lp; lia). cbn [bind map concat]. rewrite app_nil_r, Ck.
  set (m := cmd_name C_LIB ++ [SP] ++ print_dec (zlen p) ++ [LF] ++ p).
  assert (S : Sent (k_alloc k) {| c_id := C_LIB; c_number := 0; c_length := zlen p |} p m).
  { apply Sent_length; [reflexivity|lia|]. rewrite send_length_eq, Al by (unfold LONG_MAX in Lp; lia). reflexivity. }
  destruct (sent_shape _ _ _ _ S) as (Sd & E & _).
  destruct (join_chars _ (header_words_good {| c_id := C_LIB; c_number := 0; c_length := zlen p |})) as [J1 J2].
  destruct (sent_header_short _ _ _ _ S) as (h & E' & Lh & N1 & N2).
  set (head := join (header_words {| c_id := C_LIB; c_number := 0; c_length := zlen p |})) in *.
  assert (h = head /\ True) as [-> _].
  { split; [|exact I]. rewrite E in E'. apply (f_equal (fun l => firstn (length l - length (LF :: p)) l)) in E'.
    rewrite !app_length in E'. rewrite !Nat.add_sub in E'.
    rewrite !firstn_app, !Nat.sub_diag, !firstn_all, !app_nil_r in E'. now symmetry. }
  set (n := Z.to_nat record_max - length head - 1).
  assert (F : firstn (Z.to_nat record_max) m = head ++ LF :: firstn n p).
  { rewrite E, firstn_app. f_equal; [apply firstn_all2; unfold record_max; lia|].
    replace (Z.to_nat record_max - length head) with (Datatypes.S n) by (unfold n, record_max; lia). reflexivity. }
  unfold tls_records. assert (Hc : exists j x m0, m = x :: m0 /\ length m = Datatypes.S j).
  { exists (length (tl m)), (hd NUL m), (tl m). split; reflexivity. }
  destruct Hc as (j & x & m0 & Em & ->).
  assert (Ec : chunks (Datatypes.S j) m = firstn (Z.to_nat record_max) m :: chunks j (skipn (Z.to_nat record_max) m)).
  { rewrite Em. reflexivity. }
  rewrite Ec. cbn [handle_all]. rewrite F.
  rewrite (short_lib cfg (k_env k) s (head ++ LF :: firstn n p)
            {| c_id := C_LIB; c_number := 0; c_length := zlen p |} head (firstn n p) P).
  - reflexivity.
  - rewrite cstr_app_no_nul, cstr_lf by exact J2. apply valid_header; [exact Sd|right; eauto].
  - reflexivity.
  - split; [reflexivity|auto].
  - cbn [c_length]. unfold zlen in *. rewrite firstn_length. unfold n, record_max. lia.
  - exact A.
Qed.

Lemma empty_library_path {D} cfg (k : link D) s :
  s_phase s = P_TOOLS \/ s_phase s = P_LIB -> FairLink k ->
  api_call cfg k s [] (LibPath []) = Blocked.
Proof.
  intros P (HE & Al & Cut1 & _). pose proof HE as (A & _).
  unfold api_call. cbn [request]. unfold send_string. rewrite send_length_eq, Al by (cbn; lia).
  cbn [bind map concat]. rewrite app_nil_r.
  assert (R : Request (cmd_name C_LIB ++ [SP] ++ print_dec (zlen []) ++ [LF] ++ []) C_LIB [])
    by (apply request_made; [reflexivity|vm_compute; discriminate]).
  rewrite Cut1; [|discriminate|vm_compute; discriminate].
  cbn [handle_all]. rewrite (lib_step cfg (k_env k) s _ [] P R A). unfold handle_lib, after.
  cbn [zlen length Z.of_nat Z.eqb ret fst snd]. rewrite mbind_ok. cbn [ret fst snd].
  cbn [app arriving map concat await]. reflexivity.
Qed.
