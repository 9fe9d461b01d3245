(** Proofs about sessions on an encrypted library. *)
From Verif Require Import Base BaseProofs ParseModel ParseSpec ParseProofs DecProofs WireModel WireSpec WireProofs
  LveModel LveSpec LveProofs LveSteps LveHist LveThms ToolModel ToolSpec ToolProofs SessionModel SessionSpec SessionProofs
  CryptModel CryptSpec CbcProofs MaskProofs DemaskProofs CryptProofs LibraryModel LibrarySpec.

(** ** A harmless decryptor *)

Definition harmless (w : env unit) : env context :=
  {| e_alloc := e_alloc w;
     e_cr_create := fun p => match e_cr_create w p with Some _ => Some (p, []) | None => None end;
     e_decrypt := fun cr _ _ => Ok (cr, None);
     e_lic_new := e_lic_new w; e_checkout := e_checkout w; e_checkin := e_checkin w;
     e_stat := e_stat w; e_file := e_file w |}.

Lemma harmless_healthy w : Healthy w -> Healthy (harmless w).
Proof.
  intros (A & Hc & Hd & Hl & Hco & Hci & Hf). split; [exact A|]. split; [|split; [|auto]].
  - intros p. cbn. specialize (Hc p). destruct (e_cr_create w p); [discriminate|contradiction].
  - intros d p f. exists d, None. split; [reflexivity|]. discriminate.
Qed.

Definition quiet_link (k : link unit) : link context :=
  {| k_env := harmless (k_env k); k_alloc := k_alloc k; k_cut := k_cut k |}.
Lemma quiet_fair k : FairLink k -> FairLink (quiet_link k).
Proof. intros (H & A & C). split; [apply harmless_healthy, H|]. split; [exact A|exact C]. Qed.

(** The decryptor does not matter for commands other than FILE ... *)
Lemma step_no_file pr K cfg w (s : lve context) r :
  (forall c, ValidLine (cstr r) c -> c_id c <> C_FILE) ->
  lve_step cfg (with_decryptor pr K w) s r = lve_step cfg (harmless w) s r.
Proof.
  intros N. unfold lve_step. cbn [with_decryptor harmless e_alloc].
  destruct (parse_command ERROR_SIZE (cstr r)) as [[g c] m] eqn:X. destruct g; try reflexivity.
  assert (V : ValidLine (cstr r) c) by (apply (parse_valid_iff ERROR_SIZE); eauto).
  specialize (N c V). set (s0 := match m with Some t => set_buf s t | None => s end). clearbody s0.
  enough (E : handle_command cfg (with_decryptor pr K w) s0 c r = handle_command cfg (harmless w) s0 c r) by (now rewrite E).
  unfold handle_command. destruct (next_phase (s_phase s0) (c_id c)) as [p'|] eqn:P; [|reflexivity].
  unfold dispatch. destruct (s_phase s0) eqn:Q; try reflexivity.
  apply next_phase_inv in P as [(Y & _)|[(Y & _)|[(Y & _)|(_ & _ & I)]]]; try discriminate; [destruct Y; discriminate|].
  destruct I as [I|[I|[I|[I|I]]]]; [..|contradiction]; rewrite I; reflexivity.
Qed.

(** ... nor for files that are not encrypted. *)
Lemma step_plain_file pr K cfg w (s : lve context) r lib d :
  AllocOk w -> serving lib s -> Request r C_FILE d -> is_moc (cstr d) = false ->
  lve_step cfg (with_decryptor pr K w) s r = lve_step cfg (harmless w) s r.
Proof.
  intros A (P & L & Ap) R M.
  rewrite (file_step cfg (with_decryptor pr K w) s r d P R A), (file_step cfg (harmless w) s r d P R A).
  rewrite (handle_file_eq (with_decryptor pr K w) s lib d A Ap L), (handle_file_eq (harmless w) s lib d A Ap L).
  cbn zeta. rewrite M. reflexivity.
Qed.

(** ** The context stays as it is *)

Lemma setup_licensing_cr {D} (e : env D) s :
  tri anyev (fun '(s1, _) => s_cr s1 = s_cr s) (setup_licensing e s).
Proof. unfold setup_licensing. repeat tb. Qed.
Lemma setup_check_cr {D} (e : env D) s :
  tri anyev (fun '(s1, _) => s_cr s1 = s_cr s) (setup_check e s).
Proof. unfold setup_check. eapply tri_bind; [apply setup_licensing_cr|]. intros [s1 x] H. repeat tb. Qed.
Lemma handle_feature_cr {D} (e : env D) q s d :
  tri anyev (fun '(s1, _) => s_cr s1 = s_cr s) (handle_feature e q s d).
Proof. unfold handle_feature. eapply tri_bind; [apply setup_check_cr|]. intros [s1 x] H. repeat tb. Qed.
Lemma handle_returnfeature_cr {D} (e : env D) s d :
  tri anyev (fun s1 => s_cr s1 = s_cr s) (handle_returnfeature e s d).
Proof. unfold handle_returnfeature. eapply tri_bind; [apply setup_check_cr|]. intros [s1 x] H. repeat tb. Qed.
Lemma handle_file_cr w s len d :
  tri anyev (fun s1 => s_cr s1 = s_cr s) (handle_file (harmless w) s len d).
Proof.
  unfold handle_file. tb; [repeat tb|]. tb; [repeat tb|]. tb; [|tb]. tb; [|tb]. tb.
  eapply (tri_bind _ (fun _ => True)); [unfold read_file; repeat tb|]. intros x _.
  tb; [repeat tb|]. tb; [|repeat tb]. tb.
  - eapply tri_bind; [apply file_error_any|]. intros _ _. repeat tb.
  - cbn [harmless e_decrypt]. rewrite mbind_lift_ok. eapply tri_bind; [apply file_error_any|]. intros _ _. repeat tb.
Qed.

Lemma harmless_keeps cfg w s r s' :
  s_phase s = P_LICENSE -> snd (lve_step cfg (harmless w) s r) = Ok s' -> s_cr s' = s_cr s.
Proof.
  intros P. unfold lve_step, emit. rewrite mbind_ok. cbn [snd].
  destruct (negb _); [discriminate|].
  destruct (parse_command ERROR_SIZE (cstr r)) as [[g c] m] eqn:X.
  set (s0 := match m with Some t => set_buf s t | None => s end).
  assert (H0 : s_cr s0 = s_cr s /\ s_phase s0 = s_phase s) by (unfold s0; destruct m; split; reflexivity).
  clearbody s0. destruct H0 as [H0 P0]. rewrite <- H0. rewrite P in P0.
  assert (T : tri anyev (fun s1 => s_cr s1 = s_cr s0)
     match g with
     | VALID_GRAMMAR => handle_command cfg (harmless w) s0 c r
     | UNKNOWN_ERROR =>
         run _ <- reply (send_error (e_alloc (harmless w)) ERR_NOT_UNDERSTOOD (Some (B "Internal error in parsing."))) ; ret s0
     | _ => run _ <- reply (send_error (e_alloc (harmless w)) ERR_NOT_UNDERSTOOD (Some (s_buf s0))) ; ret s0
     end).
  { destruct g; try (repeat tb; fail). unfold handle_command. tb; [|repeat tb]. unfold dispatch. rewrite P0.
    eapply (tri_bind _ (fun _ => True)).
    { destruct (form_of (c_id c)); try (apply tri_ret; exact I). apply tri_lift. auto. }
    intros d _.
    tb. { eapply tri_bind; [apply handle_feature_cr|]. intros [s1 b] E. apply tri_ret. cbn in E. congruence. }
    tb. { eapply tri_conseq; [apply handle_returnfeature_cr|auto|]. cbn. intros s1 ->. reflexivity. }
    tb. { unfold handle_license. repeat tb. }
    tb. { unfold handle_returnlicense. repeat tb. }
    eapply tri_conseq; [apply handle_file_cr|auto|]. cbn. intros s1 ->. reflexivity. }
  destruct T as [_ T]. exact (T s').
Qed.

(** ** After LIB *)

Lemma global_licence_cr {D} cfg (e : env D) q s :
  tri anyev (fun '(s1, _) => s_cr s1 = s_cr s) (global_licence cfg e q s).
Proof.
  unfold global_licence. tb; [|tb]. tb; [|tb].
  eapply tri_bind; [apply setup_licensing_cr|]. intros [s1 x] H.
  eapply (tri_bind _ (fun _ => True)); [repeat tb|]. intros y _. repeat tb.
Qed.

Lemma lib_context cfg w s r d lib s' :
  s_phase s = P_TOOLS \/ s_phase s = P_LIB -> Request r C_LIB d -> d <> [] -> Healthy w -> Trimmed d lib ->
  snd (lve_step cfg (harmless w) s r) = Ok s' -> s_cr s' = Some (cstr lib, []).
Proof.
  intros P R Nd (A & Hc & _) T E. rewrite (lib_step cfg (harmless w) s r d P R A) in E. unfold after in E. cbn [snd] in E.
  rewrite (trimmed_unique d lib (trim d) T (trim_spec d Nd)) in *. clear T.
  destruct (snd (handle_lib cfg (harmless w) false (set_phase s P_LICENSE) (zlen d) (Some (complete_payload d))))
    as [[s1 ok]|u|] eqn:X; try discriminate. injection E as <-. revert X.
  unfold handle_lib. pose proof (zlen_pos d Nd).
  destruct (Z.eqb_spec (zlen d) 0); [lia|]. cbn [harmless e_alloc e_cr_create]. rewrite A. cbn [negb].
  rewrite complete_bytes, mbind_lift_ok. specialize (Hc (cstr (trim d))).
  destruct (e_cr_create w (cstr (trim d))) as [u|]; [|contradiction].
  pose proof (global_licence_cr cfg (harmless w) false
    (set_cr (set_lib (set_phase s P_LICENSE) (Some (trim d))) (Some (cstr (trim d), [])))) as [_ T].
  fold (harmless w).
  destruct (global_licence _ _ _ _) as [es [[s3 go]|v|]]; [|discriminate|discriminate].
  cbn [snd] in T. specialize (T (s3, go) eq_refl). cbn in T.
  rewrite mbind_ok. cbn [snd]. destruct go.
  - cbn. unfold validate_directory. destruct (e_stat _ _); intros [= <- _]; exact T.
  - intros [= <- _]. exact T.
Qed.

(** ** Calls *)

(** A call whose request is handled alike by two LVEs. *)
Lemma api_call_same {D} cfg (k k' : link D) s q c req :
  request (k_alloc k) c = Ok [req] -> k_cut k req = [req] ->
  k_alloc k' = k_alloc k -> k_cut k' = k_cut k ->
  lve_step cfg (k_env k) s req = lve_step cfg (k_env k') s req ->
  api_call cfg k s q c = api_call cfg k' s q c.
Proof.
  intros Rq Cu Ea Ec E. unfold api_call. rewrite Ea, Ec, Rq. cbn [bind map concat]. rewrite app_nil_r, Cu.
  cbn [handle_all]. now rewrite E.
Qed.

Lemma nul_free_path d n : Forall Name d -> ~ In NUL n -> ~ In NUL (path_of d n).
Proof.
  induction 1 as [|x d (_ & _ & _ & N) _ IH]; intros Hn; [exact Hn|]. cbn [path_of].
  rewrite in_app_iff. intros [H|[H|H]]; [contradiction|discriminate|now apply IH].
Qed.
Lemma cstr_moc {pr : primitives} f : GoodEntry pr f -> cstr (moc_path f) = moc_path f.
Proof.
  intros (Fd & (_ & _ & _ & Nn) & _). apply cstr_no_nul. apply nul_free_path; [exact Fd|].
  rewrite in_app_iff. intros [H|[H|[]]]; [contradiction|discriminate].
Qed.
Lemma disk_whole {D} (w : env D) path b err : AllocOk w -> e_file w path = Content (zlen b) b err -> view_disk w path = Some b.
Proof. intros A E. unfold view_disk. now rewrite (read_file_whole w path b err A E). Qed.
Lemma disk_none {D} (w : env D) path t : e_file w path = NoOpen t -> view_disk w path = None.
Proof. intros E. unfold view_disk, read_file, emit. rewrite mbind_ok, E. reflexivity. Qed.

Lemma deliver {D} cfg (k : link D) s s1 f b req path :
  (forall n, k_alloc k n = true) -> FairCut (k_cut k) -> FairCall (File f) -> InMemory b ->
  request (k_alloc k) (File f) = Ok [req] ->
  lve_step cfg (k_env k) s req = ([Recv req; ReadFile path; Reply (filecont_message b)], Ok s1) ->
  exists d h, api_call cfg k s [] (File f) = Ok (d, s1, []) /\
    d_result d = Some (Contents h) /\ Opened b h /\ Answered (k_alloc k) (File f) d.
Proof.
  intros Al [Cut1 Cut2] FC Ib Rq St.
  destruct (call_request (k_alloc k) (File f) Al FC) as (req' & Rq' & Lr & Ne & G & R).
  assert (req' = req) by congruence. subst req'.
  assert (Lb : (zlen b <= LONG_MAX)%Z) by (unfold InMemory in Ib; unfold LONG_MAX; lia).
  assert (S : Sent (fun _ => true) {| c_id := C_FILECONT; c_number := 0; c_length := zlen b |} b (filecont_message b)).
  { apply (Sent_length _ C_FILECONT b); [reflexivity|exact Lb|].
    apply (send_filecont_ok (fun _ => true)); [reflexivity|unfold LONG_MAX in Lb; lia]. }
  destruct (Cut2 _ _ _ _ S) as (first & more & Cm & Cr).
  assert (I : Incoming (map RMsg (first :: more)) {| c_id := C_FILECONT; c_number := 0; c_length := zlen b |} b []).
  { exists (fun _ => true), (filecont_message b), first, more. rewrite app_nil_r. auto. }
  destruct (await_reply (k_alloc k) _ [] _ b Al I 1 (File f) ltac:(lia)) as (r & e & Aw & P1 & P2 & P3 & P4 & P5 & P6).
  destruct (proj2 P1 eq_refl) as [v ->]. destruct (P6 f v eq_refl eq_refl) as [h ->].
  exists {| d_result := Some (Contents h); d_error := e;
            d_events := [Recv req; ReadFile path; Reply (filecont_message b)] |}, h.
  split; [|split; [reflexivity|split; [now apply (P5 f h)|]]].
  - unfold api_call. rewrite Rq. cbn [bind map concat]. rewrite app_nil_r, (Cut1 req Ne Lr).
    cbn [handle_all]. rewrite St, mbind_ok. cbn [ret fst snd]. rewrite app_nil_r.
    pose proof (arriving_one (k_cut k) req [ReadFile path] (filecont_message b) []) as AO.
    cbn [app] in AO. rewrite AO by (repeat constructor). rewrite Cm. cbn [app]. rewrite Aw. reflexivity.
  - exists req, (filecont_message b), [ReadFile path], [], (fun _ => true), {| c_id := C_FILECONT; c_number := 0; c_length := zlen b |}, b.
    cbn [d_events d_result d_error]. split; [exact Rq|]. split; [reflexivity|]. split; [repeat constructor|]. split; [constructor|].
    split; [exact S|]. split; [exact P1|]. split; [exact P2|]. split; [exact P3|]. split; [exact P4|]. exact P5.
Qed.

(** What stays the same between calls. *)
Definition reading (fs : list entry) (lib : bytes) (s : lve context) : Prop :=
  healthy_state s /\ serving lib s /\ exists t, s_cr s = Some (cstr lib, t) /\ Cache fs t.

Lemma is_moc_false p : ~ MocFile p -> is_moc p = false.
Proof. intros N. destruct (is_moc p) eqn:E; [|reflexivity]. destruct N. now apply is_moc_spec. Qed.
Lemma moc_file_dec p : MocFile p \/ ~ MocFile p.
Proof. destruct (is_moc p) eqn:E; [left|right]; rewrite <- is_moc_spec; congruence. Qed.

Lemma reading_call pr K fs outs lib cfg k c s :
  GoodPrimitives pr -> length K = 32 -> GoodLibrary pr fs -> Forall2 (EncryptedAs pr K fs) fs outs ->
  (forall f, In f fs -> length (cstr lib) + length (path_of (n_dir f) (n_name f)) <= 4000) ->
  FairLink k -> FairCall c -> OnDisk (k_env k) (cstr lib) fs outs -> AsksForEntry fs c -> reading fs lib s ->
  exists d s1, api_call cfg (link_with pr K k) s [] c = Ok (d, s1, []) /\ reading fs lib s1 /\
    Answered (k_alloc k) c d /\ Delivered fs c d.
Proof.
  intros G LK GL F2 Lb FL FC (Here & Gone) As (HS & SV & t & Cr & Ca).
  pose proof FL as (HE & Al & Cut). pose proof HE as (A & _).
  destruct (call_request (k_alloc k) c Al FC) as (req & Rq & Lr & Ne & GR & Rc).
  assert (Cu : k_cut (link_with pr K k) req = [req]) by (apply (proj1 Cut); assumption).
  assert (D : (exists p, c = File p /\ MocFile (cstr p)) \/ (forall p, c = File p -> ~ MocFile (cstr p))).
  { destruct c as [| | | | | |p]; try (right; discriminate).
    destruct (moc_file_dec (cstr p)); [left; eauto|right]. now intros p' [= <-]. }
  destruct D as [(p & -> & M)|NM].
  - (* an encrypted file *)
    destruct (As p eq_refl M) as (f & -> & If & Rd).
    assert (Ge : GoodEntry pr f) by (destruct GL as [GF _]; rewrite Forall_forall in GF; now apply GF).
    rewrite (cstr_moc f Ge) in M.
    set (moc := fun g => match view_disk (k_env k) (cstr lib ++ [SLASH] ++ moc_path g) with Some o => o | None => [] end).
    assert (Ins : Installed pr K fs (cstr lib) (view_disk (k_env k)) moc).
    { split; [exact Lb|]. split.
      - intros g Ig. destruct (forall2_in _ _ _ F2 g Ig) as (out & Io). destruct (Here g out Io) as (err & Ef).
        pose proof (disk_whole _ _ _ _ A Ef) as Ed. unfold moc. rewrite Ed. split; [|reflexivity].
        exact (forall2_combine _ _ _ F2 g out Io).
      - intros d Fd Nd. destruct (Gone d Fd Nd) as (tx & Ef). exact (disk_none _ _ _ Ef). }
    destruct (decrypt_entry pr K fs (cstr lib) (view_disk (k_env k)) moc f t G LK GL Ins If Rd Ca) as (t1 & Ed & Ca1).
    destruct (forall2_in _ _ _ F2 f If) as (out & Io). destruct (Here f out Io) as (err & Ef).
    assert (Em : moc f = out) by (unfold moc; now rewrite (disk_whole _ _ _ _ A Ef)).
    rewrite Em in Ed.
    assert (Ib : InMemory (n_data f)) by (destruct Ge as (_ & _ & _ & _ & _ & _ & _ & L); unfold InMemory; lia).
    pose proof SV as (P & L & Ap). cbn [call_cmd call_arg] in Rc.
    assert (St : lve_step cfg (with_decryptor pr K (k_env k)) s req =
      ([Recv req; ReadFile (file_path lib (cstr (moc_path f))); Reply (filecont_message (n_data f))],
       Ok (set_cr s (Some (cstr lib, t1))))).
    { apply (file_moc cfg _ s req lib (moc_path f) out err); try assumption.
      - unfold file_path. rewrite (cstr_moc f Ge). exact Ef.
      - rewrite (cstr_moc f Ge). now apply is_moc_spec.
      - rewrite Cr, (cstr_moc f Ge). cbn [with_decryptor e_decrypt]. rewrite Ed. reflexivity. }
    destruct (deliver cfg (link_with pr K k) s _ (moc_path f) (n_data f) req _ Al Cut FC Ib Rq St) as (d & h & Ea & Rs & Op & An).
    exists d, (set_cr s (Some (cstr lib, t1))). split; [exact Ea|]. split; [|split; [exact An|]].
    + split; [exact HS|]. split; [exact SV|]. exists t1. split; [reflexivity|exact Ca1].
    + intros g Eg Mg Ig. exists h. split; [exact Rs|].
      assert (moc_path f = moc_path g) as Ep by congruence.
      rewrite <- (moc_path_inj fs f g GL If Ig Ep). exact Op.
  - (* anything else *)
    assert (Es : lve_step cfg (k_env (link_with pr K k)) s req = lve_step cfg (k_env (quiet_link k)) s req).
    { cbn [link_with quiet_link k_env]. destruct c as [mn mx|p|p|p|p|p|p]; cbn [call_cmd call_arg] in Rc.
      7:{ apply (step_plain_file pr K cfg (k_env k) s req lib p A SV Rc). apply is_moc_false. now apply NM. }
      1:{ apply step_no_file. intros c' V. rewrite (valid_det _ _ _ V Rc). discriminate. }
      all: destruct Rc as (c0 & h0 & V0 & I0 & _); apply step_no_file; intros c' V;
        rewrite (valid_det _ _ _ V V0), I0; discriminate. }
    rewrite (api_call_same cfg (link_with pr K k) (quiet_link k) s [] c req Rq Cu eq_refl eq_refl Es).
    destruct (call_ok cfg (quiet_link k) s c HS (quiet_fair k FL) FC) as (d & s1 & req' & Rq' & St & Ea & HS1 & An).
    cbn [quiet_link k_alloc] in Rq'. assert (req' = req) by congruence. subst req'.
    exists d, s1. split; [exact Ea|]. split; [|split; [exact An|]].
    + split; [exact HS1|]. pose proof SV as (P & L & Ap). split.
      * destruct (loop_after_lib cfg [{| t_env := k_env (quiet_link k); t_record := req; t_shutdown := true |}] s
                    (d_events d ++ []) s1 P) as (P1 & L1 & A1).
        { cbn [lve_loop t_env t_record t_shutdown]. rewrite St, mbind_ok. reflexivity. }
        unfold serving. now rewrite P1, L1, A1.
      * exists t. split; [|exact Ca]. rewrite <- Cr. apply (harmless_keeps cfg (k_env k) s req s1 P).
        cbn [quiet_link k_env] in St. now rewrite St.
    + intros f -> M If. destruct (NM (moc_path f) eq_refl).
      assert (Ge : GoodEntry pr f) by (destruct GL as [GF _]; rewrite Forall_forall in GF; now apply GF).
      now rewrite (cstr_moc f Ge).
Qed.

Lemma reading_calls pr K fs outs lib cfg cs : 
  GoodPrimitives pr -> length K = 32 -> GoodLibrary pr fs -> Forall2 (EncryptedAs pr K fs) fs outs ->
  (forall f, In f fs -> length (cstr lib) + length (path_of (n_dir f) (n_name f)) <= 4000) ->
  Forall (fun '(k, c) => FairLink k /\ FairCall c) cs ->
  Forall (fun '(k, c) => OnDisk (k_env k) (cstr lib) fs outs /\ AsksForEntry fs c) cs ->
  forall s, reading fs lib s ->
  exists ds s1, api_calls cfg s [] (map (fun '(k, c) => (link_with pr K k, c)) cs) = Ok (ds, s1, []) /\
    Forall2 (fun '(k, c) d => Answered (k_alloc k) c d /\ Delivered fs c d) cs ds.
Proof.
  intros G LK GL F2 Lb. induction cs as [|[k c] cs IH]; intros F1 F3 s RS.
  - exists [], s. split; [reflexivity|constructor].
  - apply Forall_cons_iff in F1, F3. destruct F1 as [[FL FC] F1], F3 as [[OD AE] F3].
    destruct (reading_call pr K fs outs lib cfg k c s G LK GL F2 Lb FL FC OD AE RS) as (d & s1 & E & RS1 & An & De).
    destruct (IH F1 F3 s1 RS1) as (ds & s2 & E2 & Fd).
    cbn [map api_calls]. rewrite E. cbn [bind]. rewrite E2. cbn [bind].
    exists (d :: ds), s2. split; [reflexivity|]. constructor; [split|]; assumption.
Qed.

(** The first two calls. *)
Lemma library_begin pr K cfg key kv kl min max p lib :
  In key (cfg_keys cfg) -> (1 <= max)%Z -> Trimmed p lib ->
  FairLink kv -> FairCall (Version min max) -> FairLink kl -> FairCall (LibPath p) ->
  (forall g, cfg_global cfg = Some g ->
     e_lic_new (k_env kl) (Some (cstr lib)) = Granted /\ e_checkout (k_env kl) g = Granted) ->
  exists d1 d2 (s2 : lve context), healthy_state s2 /\ serving lib s2 /\ s_cr s2 = Some (cstr lib, []) /\
    forall cs : list (link context * call), tool_session cfg (Some key) ((link_with pr K kv, Version min max) :: (link_with pr K kl, LibPath p) :: cs) =
      do (ds, s, q) <- api_calls cfg s2 [] cs ; Ok (d1 :: d2 :: ds, s, q).
Proof.
  intros Kk Mx T Fv1 Fv2 Fl1 Fl2 Gl.
  set (s0 := @started context true). pose proof (started_healthy true : healthy_state s0) as HS0.
  (* VERSION *)
  destruct (call_request (k_alloc kv) (Version min max) (proj1 (proj2 Fv1)) Fv2) as (req1 & R1 & Lr1 & Ne1 & _ & V1).
  assert (S1 : lve_step cfg (k_env (link_with pr K kv)) s0 req1 = lve_step cfg (k_env (quiet_link kv)) s0 req1).
  { apply step_no_file. intros c' V. rewrite (valid_det _ _ _ V V1). discriminate. }
  pose proof (api_call_same cfg (link_with pr K kv) (quiet_link kv) s0 [] (Version min max) req1 R1
             (proj1 (proj2 (proj2 Fv1)) req1 Ne1 Lr1) eq_refl eq_refl S1) as A1.
  destruct (call_ok cfg (quiet_link kv) s0 (Version min max) HS0 (quiet_fair kv Fv1) Fv2) as (d1 & s1 & req1' & R1' & St1 & E1 & HS1 & _).
  cbn [quiet_link k_alloc] in R1'. assert (req1' = req1) by congruence. subst req1'.
  rewrite E1 in A1.
  destruct (version_step cfg (k_env (quiet_link kv)) s0 req1 _ eq_refl V1 eq_refl (proj1 (proj1 Fv1))) as [VS _].
  rewrite (VS Mx) in St1. assert (Es1 : s1 = set_phase s0 P_TOOLS) by congruence. subst s1. clear VS.
  (* LIB *)
  destruct (call_request (k_alloc kl) (LibPath p) (proj1 (proj2 Fl1)) Fl2) as (req2 & R2 & Lr2 & Ne2 & _ & V2).
  cbn [call_cmd call_arg] in V2.
  assert (S2 : lve_step cfg (k_env (link_with pr K kl)) (set_phase s0 P_TOOLS) req2 = lve_step cfg (k_env (quiet_link kl)) (set_phase s0 P_TOOLS) req2).
  { destruct V2 as (c0 & h0 & V0 & I0 & _). apply step_no_file. intros c' V. rewrite (valid_det _ _ _ V V0), I0. discriminate. }
  pose proof (api_call_same cfg (link_with pr K kl) (quiet_link kl) _ [] (LibPath p) req2 R2
             (proj1 (proj2 (proj2 Fl1)) req2 Ne2 Lr2) eq_refl eq_refl S2) as A2.
  destruct (call_ok cfg (quiet_link kl) _ (LibPath p) HS1 (quiet_fair kl Fl1) Fl2) as (d2 & s2 & req2' & R2' & St2 & E2 & HS2 & _).
  cbn [quiet_link k_alloc] in R2'. assert (req2' = req2) by congruence. subst req2'.
  rewrite E2 in A2.
  destruct (lib_approved cfg (k_env (quiet_link kl)) (set_phase s0 P_TOOLS) req2 p lib) as (es2 & s2' & St2' & SV2);
    try assumption; try reflexivity; [now left|exact (proj1 Fl2)|exact (harmless_healthy _ (proj1 Fl1))|].
  assert (s2' = s2) by congruence. subst s2'.
  assert (Cr2 : s_cr s2 = Some (cstr lib, [])).
  { apply (lib_context cfg (k_env kl) (set_phase s0 P_TOOLS) req2 p lib s2); try assumption;
      [now left|exact (proj1 Fl2)|exact (proj1 Fl1)|]. cbn [quiet_link k_env] in St2. now rewrite St2. }
  exists d1, d2, s2. split; [exact HS2|]. split; [exact SV2|]. split; [exact Cr2|]. intros cs.
  destruct (tool_session_start cfg key ((link_with pr K kv, Version min max) :: (link_with pr K kl, LibPath p) :: cs)) as (b0 & Hb & E).
  rewrite E. rewrite (proj2 Hb Kk). clear E Hb b0. fold s0. cbn [api_calls]. rewrite A1. cbn [bind]. rewrite A2. cbn [bind].
  destruct (api_calls cfg s2 [] cs) as [[[ds s] q]| |]; reflexivity.
Qed.

Lemma library_session pr K fs outs cfg key kv kl min max p lib cs :
  GoodPrimitives pr -> length K = 32 -> GoodLibrary pr fs -> PackageFirst fs ->
  encrypt_all pr K [] (map source_of fs) = Ok (Some outs) ->
  In key (cfg_keys cfg) -> (1 <= max)%Z -> Trimmed p lib ->
  Forall (fun '(k, c) => FairLink k /\ FairCall c) ((kv, Version min max) :: (kl, LibPath p) :: cs) ->
  (forall g, cfg_global cfg = Some g ->
     e_lic_new (k_env kl) (Some (cstr lib)) = Granted /\ e_checkout (k_env kl) g = Granted) ->
  (forall f, In f fs -> length (cstr lib) + length (path_of (n_dir f) (n_name f)) <= 4000) ->
  Forall (fun '(k, c) => OnDisk (k_env k) (cstr lib) fs outs /\ AsksForEntry fs c) cs ->
  exists d1 d2 ds s,
    tool_session cfg (Some key)
      (map (fun '(k, c) => (link_with pr K k, c)) ((kv, Version min max) :: (kl, LibPath p) :: cs))
      = Ok (d1 :: d2 :: ds, s, []) /\
    Forall2 (fun '(k, c) d => Answered (k_alloc k) c d /\ Delivered fs c d) cs ds.
Proof.
  intros G LK GL PF Enc Kk Mx T F Gl Lb OD.
  destruct (encrypt_library pr K fs G LK GL PF) as (outs' & E' & F2).
  assert (outs' = outs) by congruence. subst outs'. clear E'.
  apply Forall_cons_iff in F. destruct F as [[Fv1 Fv2] F].
  apply Forall_cons_iff in F. destruct F as [[Fl1 Fl2] Fm].
  destruct (library_begin pr K cfg key kv kl min max p lib Kk Mx T Fv1 Fv2 Fl1 Fl2 Gl) as (d1 & d2 & s2 & HS2 & SV2 & Cr2 & E).
  cbn [map]. rewrite E.
  destruct (reading_calls pr K fs outs lib cfg cs G LK GL F2 Lb Fm OD s2) as (ds & s3 & E3 & Fd).
  { split; [exact HS2|]. split; [exact SV2|]. exists []. split; [exact Cr2|]. intros a m _ X. discriminate. }
  rewrite E3. cbn [bind]. exists d1, d2, ds, s3. split; [reflexivity|exact Fd].
Qed.

(** ** Files outside of packages *)

Lemma installed_on_disk pr K fs outs lib (w : env unit) : AllocOk w -> Forall2 (EncryptedAs pr K fs) fs outs ->
  (forall f, In f fs -> length (cstr lib) + length (path_of (n_dir f) (n_name f)) <= 4000) -> OnDisk w (cstr lib) fs outs ->
  exists moc, Installed pr K fs (cstr lib) (view_disk w) moc /\ forall f out, In (f, out) (combine fs outs) -> moc f = out.
Proof.
  intros A F2 Lb (Here & Gone).
  set (moc := fun g => match view_disk w (cstr lib ++ [SLASH] ++ moc_path g) with Some o => o | None => [] end). exists moc. split.
  - split; [exact Lb|]. split.
    + intros g Ig. destruct (forall2_in _ _ _ F2 g Ig) as (out & Io). destruct (Here g out Io) as (err & Ef).
      pose proof (disk_whole _ _ _ _ A Ef) as Ed. unfold moc. rewrite Ed. split; [|reflexivity].
      exact (forall2_combine _ _ _ F2 g out Io).
    + intros d Fd Nd. destruct (Gone d Fd Nd) as (tx & Ef). exact (disk_none _ _ _ Ef).
  - intros f out Io. destruct (Here f out Io) as (err & Ef). unfold moc. now rewrite (disk_whole _ _ _ _ A Ef).
Qed.

Lemma outside_session pr K fs outs cfg key kv kl kf min max p lib f :
  GoodPrimitives pr -> length K = 32 -> GoodLibrary pr fs -> PackageFirst fs ->
  encrypt_all pr K [] (map source_of fs) = Ok (Some outs) ->
  In key (cfg_keys cfg) -> (1 <= max)%Z -> Trimmed p lib ->
  Forall (fun '(k, c) => FairLink k /\ FairCall c) [(kv, Version min max); (kl, LibPath p); (kf, File (moc_path f))] ->
  (forall g, cfg_global cfg = Some g ->
     e_lic_new (k_env kl) (Some (cstr lib)) = Granted /\ e_checkout (k_env kl) g = Granted) ->
  (forall f, In f fs -> length (cstr lib) + length (path_of (n_dir f) (n_name f)) <= 4000) ->
  OnDisk (k_env kf) (cstr lib) fs outs -> In f fs -> MocFile (moc_path f) -> NoPackage fs (n_dir f) ->
  (forall q, In q fs -> IsPackage q -> Above (n_dir q) (n_dir f) -> n_data q <> []) ->
  12 <= length (path_of (n_dir f) (n_name f)) -> length (cstr lib) + length (path_of (n_dir f) (B "package.moc")) <= 4000 ->
  let result := tool_session cfg (Some key) (map (fun '(k, c) => (link_with pr K k, c)) [(kv, Version min max); (kl, LibPath p); (kf, File (moc_path f))]) in
  if length (n_data f) <? p_len pr then result = UB OobRead
  else exists d1 d2 d h s, result = Ok ([d1; d2; d], s, []) /\ d_result d = Some (Contents h) /\
         Opened (firstn (length (n_data f) - p_len pr) (n_data f)) h.
Proof.
  intros G LK GL PF Enc Kk Mx T F Gl Lb OD If M Np Fi Lp Lm. cbv zeta.
  destruct (encrypt_library pr K fs G LK GL PF) as (outs' & E' & F2).
  assert (outs' = outs) by congruence. subst outs'. clear E'.
  apply Forall_cons_iff in F. destruct F as [[Fv1 Fv2] F].
  apply Forall_cons_iff in F. destruct F as [[Fl1 Fl2] Fm].
  apply Forall_cons_iff in Fm. destruct Fm as [[FL FC] _].
  destruct (library_begin pr K cfg key kv kl min max p lib Kk Mx T Fv1 Fv2 Fl1 Fl2 Gl) as (d1 & d2 & s2 & HS2 & SV2 & Cr2 & E).
  cbn [map]. rewrite E. clear E. pose proof FL as ((A & _) & Al & Cut).
  destruct (installed_on_disk pr K fs outs lib (k_env kf) A F2 Lb OD) as (moc & Ins & Mo).
  pose proof (outside_package pr K fs (cstr lib) (view_disk (k_env kf)) moc f G LK GL Ins If Np Fi Lp Lm) as Dec.
  destruct (forall2_in _ _ _ F2 f If) as (out & Io). rewrite (Mo f out Io) in Dec. destruct (proj1 OD f out Io) as (err & Ef).
  assert (Ge : GoodEntry pr f) by (destruct GL as [GF _]; rewrite Forall_forall in GF; now apply GF).
  destruct (call_request (k_alloc kf) (File (moc_path f)) Al FC) as (req & Rq & Lr & Ne & GR & Rc). cbn [call_cmd call_arg] in Rc.
  pose proof SV2 as (P & L & Ap).
  destruct (length (n_data f) <? p_len pr) eqn:Sh.
  - cbn [api_calls]. unfold api_call. cbn [link_with k_alloc k_cut]. rewrite Rq. cbn [bind map concat]. rewrite app_nil_r, (proj1 Cut req Ne Lr). cbn [handle_all k_env].
    assert (St : exists es, lve_step cfg (with_decryptor pr K (k_env kf)) s2 req = (es, UB OobRead)).
    { rewrite (file_step cfg (with_decryptor pr K (k_env kf)) s2 req (moc_path f) P Rc A).
      rewrite (handle_file_eq (with_decryptor pr K (k_env kf)) s2 lib (moc_path f) A Ap L). cbn zeta. rewrite (cstr_moc f Ge).
      rewrite (read_file_whole (with_decryptor pr K (k_env kf)) _ out err A) by exact Ef. rewrite mbind_ok, (proj2 (is_moc_spec _) M), Cr2.
      cbn [with_decryptor e_decrypt]. rewrite Dec. eexists. reflexivity. }
    cbn [link_with k_env]. destruct St as [es St]. rewrite St. reflexivity.
  - destruct Dec as (t & Dec). assert (Ib : InMemory (firstn (length (n_data f) - p_len pr) (n_data f))).
    { unfold InMemory, zlen. rewrite firstn_length. destruct Ge as (_ & _ & _ & _ & _ & _ & _ & L'). unfold zlen in L'. lia. }
    assert (St : lve_step cfg (with_decryptor pr K (k_env kf)) s2 req =
      ([Recv req; ReadFile (file_path lib (cstr (moc_path f))); Reply (filecont_message (firstn (length (n_data f) - p_len pr) (n_data f)))],
       Ok (set_cr s2 (Some (cstr lib, t))))).
    { apply (file_moc cfg _ s2 req lib (moc_path f) out err); try assumption.
      - unfold file_path. rewrite (cstr_moc f Ge). exact Ef.
      - rewrite (cstr_moc f Ge). now apply is_moc_spec.
      - rewrite Cr2, (cstr_moc f Ge). cbn [with_decryptor e_decrypt]. rewrite Dec. reflexivity. }
    destruct (deliver cfg (link_with pr K kf) s2 _ (moc_path f) _ req _ Al Cut FC Ib Rq St) as (d & h & Ea & Rs & Op & An).
    cbn [api_calls]. rewrite Ea. cbn [bind]. do 5 eexists. split; [reflexivity|]. split; [exact Rs|exact Op].
Qed.
