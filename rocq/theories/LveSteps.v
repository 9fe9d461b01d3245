(** The exact effect of each acceptable request, and progress. *)
From Verif Require Import Base BaseProofs ParseModel ParseSpec ParseProofs DecProofs
  WireModel WireSpec WireProofs LveModel LveSpec LveProofs.

(** ** messages *)

Lemma send_error_ok al code t :
  al (63 + zlen t)%Z = true -> (0 <= code < 10)%Z -> (zlen t < 2^64)%Z ->
  send_error al code (Some t) = Ok [error_message code t].
Proof.
  intros A C T. unfold send_error. rewrite send_number_and_length_eq by lia. rewrite A.
  unfold error_message. change (B "ERROR ") with (cmd_name C_ERROR ++ [SP]).
  change (B " ") with [SP]. now rewrite <- !app_assoc.
Qed.

Lemma send_filecont_ok al d :
  al (42 + zlen d)%Z = true -> (zlen d < 2^64)%Z ->
  send_length al C_FILECONT d = Ok [filecont_message d].
Proof.
  intros A T. rewrite send_length_eq by lia. rewrite A. reflexivity.
Qed.

Lemma send_no_ok al d :
  al (42 + zlen d)%Z = true -> (zlen d < 2^64)%Z ->
  send_string al C_NO d = Ok [length_message (B "NO") d].
Proof.
  intros A T. unfold send_string. rewrite send_length_eq by lia. rewrite A. reflexivity.
Qed.

Lemma complete_str d : payload_str (complete_payload d) = Ok (cstr d).
Proof.
  unfold payload_str. cbn [p_bytes p_len p_term complete_payload].
  destruct (has_byte NUL d) eqn:E; [reflexivity|].
  apply has_byte_false in E. rewrite (cstr_no_nul _ E).
  destruct (Z.ltb_spec (zlen d) (zlen d)); [lia|]. reflexivity.
Qed.

Lemma complete_bytes d : payload_bytes (complete_payload d) = Ok d.
Proof.
  unfold payload_bytes. cbn [p_bytes p_len complete_payload].
  destruct (Z.ltb_spec (zlen d) (zlen d)); [lia|]. reflexivity.
Qed.

Lemma extract_complete al len r h d :
  HeaderThen r h d -> zlen d = len -> al (len + 1)%Z = true ->
  extract_data al len r = Ok (Some (complete_payload d), zlen d).
Proof.
  intros H <- A. rewrite (extract_header al (zlen d) r h d H A) by lia.
  rewrite firstn_zlen by lia. reflexivity.
Qed.

Lemma set_phase_id {D} (s : lve D) p : s_phase s = p -> set_phase s p = s.
Proof. destruct s; cbn. intros <-. reflexivity. Qed.

(** ** steps on complete requests *)

Definition after {D A} (r : bytes) (m : M A) (f : A -> lve D) : M (lve D) :=
  (Recv r :: fst m, match snd m with Ok a => Ok (f a) | UB u => UB u | Blocked => Blocked end).

Lemma request_dispatch {D} cfg (e : env D) s r id d p' :
  Request r id d -> AllocOk e -> form_of id = F_LENGTH -> next_phase (s_phase s) id = Some p' ->
  exists c, c_id c = id /\ c_length c = zlen d /\
  lve_step cfg e s r = after r
   (let s' := set_phase s p' in
    let data := Some (complete_payload d) in
    match s_phase s with
    | P_VERSION => handle_version e s' (c_number c)
    | P_TOOLS =>
        if cmd_id_eqb id C_TOOLS then handle_tools s'
        else run (s1, _) <- handle_lib cfg e false s' (zlen d) data ; ret s1
    | P_LIB => run (s1, _) <- handle_lib cfg e false s' (zlen d) data ; ret s1
    | P_LICENSE =>
        if cmd_id_eqb id C_FEATURE then
          run (s1, _) <- handle_feature e false s' data ; ret s1
        else if cmd_id_eqb id C_RETURNFEATURE then handle_returnfeature e s' data
        else if cmd_id_eqb id C_LICENSE then handle_license s'
        else if cmd_id_eqb id C_RETURNLICENSE then handle_returnlicense s'
        else handle_file e s' (zlen d) data
    end) (fun s => s).
Proof.
  intros (c & h & V & I & H & L) A F N. exists c. split; [exact I|]. split; [now symmetry|].
  rewrite (lve_step_valid cfg e s r c V (A _)). unfold handle_command. rewrite I, N.
  unfold dispatch. rewrite I, F. rewrite <- L.
  rewrite (extract_complete (e_alloc e) (zlen d) r h d H eq_refl (A _)).
  cbn [bind]. rewrite mbind_lift_ok. unfold after.
  set (m := match s_phase s with P_VERSION => _ | _ => _ end).
  destruct (snd m); reflexivity.
Qed.

Lemma after_id {D} r (m : M (lve D)) : after r m (fun s => s) = (Recv r :: fst m, snd m).
Proof. unfold after. destruct (snd m); reflexivity. Qed.

Lemma file_step {D} cfg (e : env D) s r d :
  s_phase s = P_LICENSE -> Request r C_FILE d -> AllocOk e ->
  lve_step cfg e s r =
  (Recv r :: fst (handle_file e s (zlen d) (Some (complete_payload d))),
   snd (handle_file e s (zlen d) (Some (complete_payload d)))).
Proof.
  intros P R A. destruct (request_dispatch cfg e s r C_FILE d P_LICENSE R A) as (c & _ & _ & E);
    [reflexivity|rewrite P; reflexivity|].
  rewrite E, P, set_phase_id, after_id by exact P. reflexivity.
Qed.

Lemma mbind_fst_eq {D} (m : M (lve D * bool)) :
  (run (s1, _) <- m ; ret s1) =
  (fst m, match snd m with Ok (s1, _) => Ok s1 | UB u => UB u | Blocked => Blocked end).
Proof.
  destruct m as [es [[s1 b]|u|]]; cbn; [now rewrite app_nil_r|reflexivity|reflexivity].
Qed.

Lemma feature_step {D} cfg (e : env D) s r d :
  s_phase s = P_LICENSE -> Request r C_FEATURE d -> AllocOk e ->
  lve_step cfg e s r = after r (handle_feature e false s (Some (complete_payload d))) fst.
Proof.
  intros P R A. destruct (request_dispatch cfg e s r C_FEATURE d P_LICENSE R A) as (c & _ & _ & E);
    [reflexivity|rewrite P; reflexivity|].
  rewrite E, P, set_phase_id, after_id by exact P. cbn [cmd_id_eqb].
  rewrite mbind_fst_eq. unfold after. cbn [fst snd].
  destruct (snd (handle_feature _ _ _ _)) as [[s1 b]|u|]; reflexivity.
Qed.

Lemma returnfeature_step {D} cfg (e : env D) s r d :
  s_phase s = P_LICENSE -> Request r C_RETURNFEATURE d -> AllocOk e ->
  lve_step cfg e s r =
  (Recv r :: fst (handle_returnfeature e s (Some (complete_payload d))),
   snd (handle_returnfeature e s (Some (complete_payload d)))).
Proof.
  intros P R A. destruct (request_dispatch cfg e s r C_RETURNFEATURE d P_LICENSE R A) as (c & _ & _ & E);
    [reflexivity|rewrite P; reflexivity|].
  rewrite E, P, set_phase_id, after_id by exact P. reflexivity.
Qed.

Lemma license_step {D} cfg (e : env D) s r d :
  s_phase s = P_LICENSE -> Request r C_LICENSE d -> AllocOk e ->
  lve_step cfg e s r = ([Recv r; Reply (cmd_name C_NOTSIMPLE ++ [LF])], Ok s).
Proof.
  intros P R A. destruct (request_dispatch cfg e s r C_LICENSE d P_LICENSE R A) as (c & _ & _ & E);
    [reflexivity|rewrite P; reflexivity|].
  rewrite E, P, set_phase_id, after_id by exact P. reflexivity.
Qed.

Lemma returnlicense_step {D} cfg (e : env D) s r d :
  s_phase s = P_LICENSE -> Request r C_RETURNLICENSE d -> AllocOk e ->
  lve_step cfg e s r = ([Recv r; Reply (cmd_name C_NOTSIMPLE ++ [LF])], Ok s).
Proof.
  intros P R A. destruct (request_dispatch cfg e s r C_RETURNLICENSE d P_LICENSE R A) as (c & _ & _ & E);
    [reflexivity|rewrite P; reflexivity|].
  rewrite E, P, set_phase_id, after_id by exact P. reflexivity.
Qed.

Lemma lib_step {D} cfg (e : env D) s r d :
  s_phase s = P_TOOLS \/ s_phase s = P_LIB -> Request r C_LIB d -> AllocOk e ->
  lve_step cfg e s r =
  after r (handle_lib cfg e false (set_phase s P_LICENSE) (zlen d) (Some (complete_payload d))) fst.
Proof.
  intros P R A. destruct (request_dispatch cfg e s r C_LIB d P_LICENSE R A) as (c & _ & _ & E);
    [reflexivity|destruct P as [P|P]; rewrite P; reflexivity|].
  assert (K : lve_step cfg e s r = (Recv r ::
     fst (run (s1, _) <- handle_lib cfg e false (set_phase s P_LICENSE) (zlen d) (Some (complete_payload d)) ; ret s1),
     snd (run (s1, _) <- handle_lib cfg e false (set_phase s P_LICENSE) (zlen d) (Some (complete_payload d)) ; ret s1))).
  { rewrite E, after_id. destruct P as [P|P]; rewrite P; reflexivity. }
  rewrite K, mbind_fst_eq. unfold after. cbn [fst snd].
  destruct (snd (handle_lib _ _ _ _ _ _)) as [[s1 b]|u|]; reflexivity.
Qed.

Lemma no_payload_step {D} cfg (e : env D) s r c p' :
  ValidLine (cstr r) c -> e_alloc e (zlen r + 1)%Z = true -> form_of (c_id c) <> F_LENGTH ->
  next_phase (s_phase s) (c_id c) = Some p' ->
  lve_step cfg e s r =
  let m := match s_phase s with
           | P_VERSION => handle_version e (set_phase s p') (c_number c)
           | _ => handle_tools (set_phase s p')
           end in (Recv r :: fst m, snd m).
Proof.
  intros V A F N. rewrite (lve_step_valid cfg e s r c V A). unfold handle_command. rewrite N.
  unfold dispatch.
  apply next_phase_inv in N as [(P & I & ->)|[(P & I & ->)|[(_ & I & _)|(_ & _ & I)]]].
  - rewrite I, P. cbn. destruct (handle_version _ _ _); reflexivity.
  - rewrite I, P. reflexivity.
  - exfalso. apply F. rewrite I. reflexivity.
  - exfalso. apply F. destruct I as [I|[I|[I|[I|I]]]]; rewrite I; reflexivity.
Qed.

Lemma version_step {D} cfg (e : env D) s r c :
  s_phase s = P_VERSION -> ValidLine (cstr r) c -> c_id c = C_VERSION -> AllocOk e ->
  ((1 <= c_number c)%Z ->
     lve_step cfg e s r = ([Recv r; Reply (B "VERSION 1" ++ [LF])], Ok (set_phase s P_TOOLS))) /\
  ((c_number c < 1)%Z ->
     lve_step cfg e s r = ([Recv r; Reply (error_message 2 version_low_text)],
                           Ok (set_buf s version_low_text))).
Proof.
  intros P V I A.
  rewrite (no_payload_step cfg e s r c P_TOOLS V (A _)) by (rewrite I, ?P; [discriminate|reflexivity] || (rewrite P, I; reflexivity) || (rewrite I; discriminate)).
  rewrite P. cbn zeta. unfold handle_version, MIN_PROTOCOL_VERSION, MAX_PROTOCOL_VERSION.
  split; intros H.
  - destruct (Z.ltb_spec (c_number c) 1); [lia|]. reflexivity.
  - destruct (Z.ltb_spec (c_number c) 1); [|lia].
    assert (T : snprintf ERROR_SIZE (B "Minimum supported protocol version is " ++ print_dec 1) = version_low_text)
      by (vm_compute; reflexivity).
    rewrite T. rewrite send_error_ok; [|apply A|unfold ERR_VERSION_TOO_LOW; lia|vm_compute; reflexivity].
    cbn. destruct s; cbn in *; subst; reflexivity.
Qed.

Lemma tools_step {D} cfg (e : env D) s r :
  s_phase s = P_TOOLS -> Asks r C_TOOLS -> AllocOk e ->
  lve_step cfg e s r = ([Recv r; Reply (B "VERSION 4" ++ [LF])], Ok (set_phase s P_LIB)).
Proof.
  intros P (c & V & I) A.
  rewrite (no_payload_step cfg e s r c P_LIB V (A _)); [|rewrite I; discriminate|rewrite P, I; reflexivity].
  rewrite P. reflexivity.
Qed.

(** ** FILE *)

(** The handler for an approved tool with a library, allocations succeeding. *)
Lemma handle_file_eq {D} (e : env D) s lib d :
  AllocOk e -> s_approved s = true -> s_lib s = Some lib ->
  handle_file e s (zlen d) (Some (complete_payload d)) =
  let rel := cstr d in
  let path := file_path lib rel in
  let size := (zlen lib + zlen d + 2)%Z in
  run content <- read_file e path ;
  match content with
  | inl m => run _ <- reply (send_error (e_alloc e) ERR_FILE_IO (Some m)) ; ret s
  | inr file =>
      if is_moc rel then
        run (cr, plain) <- lift (e_decrypt e (s_cr s) rel file) ;
        match plain with
        | None => run _ <- reply (send_error (e_alloc e) ERR_OTHER
                    (Some (B "Failed to decrypt file " ++ path ++ B ", might be corrupted."))) ; ret (set_cr s cr)
        | Some d => run _ <- reply (send_length (e_alloc e) C_FILECONT d) ; ret (set_cr s cr)
        end
      else run _ <- reply (send_length (e_alloc e) C_FILECONT file) ; ret s
  end.
Proof.
  intros A Ap L. unfold handle_file. rewrite Ap, L, A. cbn [negb].
  rewrite complete_str, mbind_lift_ok.
  assert (Lp : (zlen (file_path lib (cstr d)) <= zlen lib + zlen d + 1)%Z).
  { unfold file_path. rewrite !zlen_app. pose proof (cstr_le lib). pose proof (cstr_le d).
    unfold zlen in *. cbn [length]. lia. }
  rewrite zsnprintf_fits by (unfold file_path in Lp; lia).
  fold (file_path lib (cstr d)). cbn zeta.
  destruct (read_file e (file_path lib (cstr d))) as [es [[m|f]|u|]]; cbn [mbind]; try reflexivity.
  destruct (is_moc (cstr d)); [|reflexivity].
  rewrite A. cbn [negb].
  destruct (e_decrypt e (s_cr s) (cstr d) f) as [[cr [pl|]]|u|]; try reflexivity.
  cbn [lift mbind]. unfold file_error. rewrite A.
  rewrite zsnprintf_fits; [reflexivity|].
  rewrite !zlen_app. change (zlen (B "Failed to decrypt file ")) with 23%Z.
  change (zlen (B ", might be corrupted.")) with 21%Z. lia.
Qed.

Lemma read_file_whole {D} (e : env D) path b err :
  AllocOk e -> e_file e path = Content (zlen b) b err ->
  read_file e path = ([ReadFile path], Ok (inr b)).
Proof.
  intros A E. unfold read_file. unfold emit. rewrite mbind_ok, E, A.
  rewrite firstn_zlen by lia. destruct err; [|reflexivity].
  destruct (Z.ltb_spec (zlen b) (zlen b)); [lia|reflexivity].
Qed.

Lemma file_plain {D} cfg (e : env D) s r lib d b err :
  s_phase s = P_LICENSE -> s_approved s = true -> s_lib s = Some lib -> AllocOk e ->
  Request r C_FILE d -> e_file e (file_path lib (cstr d)) = Content (zlen b) b err ->
  InMemory b -> is_moc (cstr d) = false ->
  lve_step cfg e s r = ([Recv r; ReadFile (file_path lib (cstr d)); Reply (filecont_message b)], Ok s).
Proof.
  intros P Ap L A R F Ib N. rewrite (file_step cfg e s r d P R A), (handle_file_eq e s lib d A Ap L).
  cbn zeta. rewrite (read_file_whole _ _ _ _ A F), mbind_ok, N.
  rewrite send_filecont_ok; [reflexivity|apply A|unfold InMemory in Ib; lia].
Qed.

Lemma file_moc {D} cfg (e : env D) s r lib d b err cr plain :
  s_phase s = P_LICENSE -> s_approved s = true -> s_lib s = Some lib -> AllocOk e ->
  Request r C_FILE d -> e_file e (file_path lib (cstr d)) = Content (zlen b) b err ->
  is_moc (cstr d) = true -> e_decrypt e (s_cr s) (cstr d) b = Ok (cr, Some plain) ->
  InMemory plain ->
  lve_step cfg e s r =
  ([Recv r; ReadFile (file_path lib (cstr d)); Reply (filecont_message plain)], Ok (set_cr s cr)).
Proof.
  intros P Ap L A R F N Dc Ib. rewrite (file_step cfg e s r d P R A), (handle_file_eq e s lib d A Ap L).
  cbn zeta. rewrite (read_file_whole _ _ _ _ A F), mbind_ok, N, Dc, mbind_lift_ok.
  rewrite send_filecont_ok; [reflexivity|apply A|unfold InMemory in Ib; lia].
Qed.

Lemma file_moc_fails {D} cfg (e : env D) s r lib d b err cr :
  s_phase s = P_LICENSE -> s_approved s = true -> s_lib s = Some lib -> AllocOk e ->
  Request r C_FILE d -> e_file e (file_path lib (cstr d)) = Content (zlen b) b err ->
  is_moc (cstr d) = true -> e_decrypt e (s_cr s) (cstr d) b = Ok (cr, None) ->
  InMemory lib -> InMemory d ->
  lve_step cfg e s r =
  ([Recv r; ReadFile (file_path lib (cstr d));
    Reply (error_message 8 (B "Failed to decrypt file " ++ file_path lib (cstr d) ++ B ", might be corrupted."))],
   Ok (set_cr s cr)).
Proof.
  intros P Ap L A R F N Dc I1 I2. rewrite (file_step cfg e s r d P R A), (handle_file_eq e s lib d A Ap L).
  cbn zeta. rewrite (read_file_whole _ _ _ _ A F), mbind_ok, N, Dc, mbind_lift_ok.
  rewrite send_error_ok; [reflexivity|apply A|unfold ERR_OTHER; lia|].
  unfold InMemory in *. rewrite !zlen_app. unfold file_path. rewrite !zlen_app.
  change (zlen (B "Failed to decrypt file ")) with 23%Z. change (zlen [SLASH]) with 1%Z.
  change (zlen (B ", might be corrupted.")) with 21%Z.
  pose proof (cstr_le lib). pose proof (cstr_le d). unfold zlen in *. lia.
Qed.

Lemma read_file_unreadable {D} (e : env D) path t :
  AllocOk e -> Unreadable e path t ->
  read_file e path = ([ReadFile path], Ok (inl (snprintf DEFAULT_MSG_SIZE t))).
Proof.
  intros A H. unfold read_file, emit. rewrite mbind_ok. destruct H as [t E|t E|size b t E L]; rewrite E.
  - reflexivity.
  - reflexivity.
  - rewrite A. destruct (Z.ltb_spec (zlen (firstn (Z.to_nat size) b)) size); [reflexivity|].
    exfalso. unfold zlen in *. rewrite firstn_length in H. lia.
Qed.

Lemma snprintf_zlen n t : n <> 0 -> (zlen (snprintf n t) < Z.of_nat n)%Z.
Proof. intros H. unfold snprintf, zlen. rewrite firstn_length. lia. Qed.

Lemma file_unreadable {D} cfg (e : env D) s r lib d t :
  s_phase s = P_LICENSE -> s_approved s = true -> s_lib s = Some lib -> AllocOk e ->
  Request r C_FILE d -> Unreadable e (file_path lib (cstr d)) t ->
  lve_step cfg e s r =
  ([Recv r; ReadFile (file_path lib (cstr d)); Reply (error_message 6 (firstn 2047 t))], Ok s).
Proof.
  intros P Ap L A R U. rewrite (file_step cfg e s r d P R A), (handle_file_eq e s lib d A Ap L).
  cbn zeta. rewrite (read_file_unreadable _ _ _ A U), mbind_ok.
  rewrite send_error_ok; [reflexivity|apply A|unfold ERR_FILE_IO; lia|].
  assert (K : DEFAULT_MSG_SIZE <> 0) by discriminate.
  pose proof (snprintf_zlen DEFAULT_MSG_SIZE t K). unfold DEFAULT_MSG_SIZE in *. lia.
Qed.

Lemma file_unapproved {D} cfg (e : env D) s r d m :
  s_phase s = P_LICENSE -> s_approved s = false -> s_errmsg s = Some m -> AllocOk e ->
  Request r C_FILE d -> (0 <= s_err s < 10)%Z -> InMemory m ->
  lve_step cfg e s r = ([Recv r; Reply (error_message (s_err s) m)], Ok s).
Proof.
  intros P Ap L A R C I. rewrite (file_step cfg e s r d P R A).
  unfold handle_file. rewrite Ap, L. cbn [negb].
  rewrite send_error_ok; [reflexivity|apply A|exact C|unfold InMemory in I; lia].
Qed.

(** The test for encrypted files. *)
Lemma is_moc_spec p : is_moc p = true <-> MocFile p.
Proof.
  unfold is_moc, extension, MocFile. destruct (rfind_byte DOT p) as [i|] eqn:E.
  - apply rfind_byte_some in E as (a & b & -> & Hb & <-).
    assert (S1 : skipn (S (length a)) (a ++ DOT :: b) = b).
    { replace (a ++ DOT :: b) with ((a ++ [DOT]) ++ b) by now rewrite <- app_assoc.
      replace (S (length a)) with (length (a ++ [DOT])) by (rewrite app_length; cbn; lia).
      apply skipn_app_exact. }
    rewrite S1. split.
    + intros H. exists a, b. auto.
    + intros (a' & b' & E & Hb' & C).
      assert (b = b'); [|congruence].
      pose proof (rfind_byte_app_in DOT a b Hb) as K1.
      pose proof (rfind_byte_app_in DOT a' b' Hb') as K2. rewrite E, K2 in K1. injection K1 as K1.
      apply (f_equal (skipn (S (length a)))) in E. rewrite S1 in E. rewrite E.
      rewrite <- K1. clear. induction a' as [|x a' IH]; [reflexivity|exact IH].
  - apply rfind_byte_none in E. split; [discriminate|]. intros (a & b & -> & _). exfalso. apply E.
    apply in_or_app. right. now left.
Qed.

(** ** licences *)

(** Is the licence manager there after the request, and what was done for it? *)
Definition manager_path {D} (s : lve D) : option bytes := option_map cstr (s_lib s).
Definition manager_events {D} (e : env D) (s : lve D) : list event :=
  if s_lic s then [] else [LicNew (manager_path s) (lic_ok (e_lic_new e (manager_path s)))].
Definition manager_ok {D} (e : env D) (s : lve D) : bool :=
  s_lic s || lic_ok (e_lic_new e (manager_path s)).

Lemma setup_licensing_eq {D} (e : env D) s :
  setup_licensing e s =
  (manager_events e s,
   Ok (if manager_ok e s then set_lic s true else s,
       if manager_ok e s then None
       else match e_lic_new e (manager_path s) with Granted => None | Refused t => Some t end)).
Proof.
  unfold setup_licensing, manager_events, manager_ok, manager_path. destruct (s_lic s) eqn:L.
  - cbn [orb]. unfold ret. f_equal. f_equal. f_equal. destruct s; cbn in *; subst; reflexivity.
  - cbn [orb]. destruct (s_lib s); cbn [option_map];
      destruct (e_lic_new e _) eqn:E; cbn [lic_ok]; rewrite ?E; reflexivity.
Qed.

Lemma setup_check_eq {D} (e : env D) s :
  AllocOk e -> (forall p, Explains (e_lic_new e p)) ->
  if manager_ok e s then setup_check e s = (manager_events e s, Ok (set_lic s true, true))
  else exists t, e_lic_new e (manager_path s) = Refused (Some t) /\ InMemory t /\
       setup_check e s = (manager_events e s ++ [Reply (error_message 7 t)], Ok (s, false)).
Proof.
  intros A X. unfold setup_check. rewrite setup_licensing_eq, mbind_ok. cbn [fst snd].
  destruct (manager_ok e s) eqn:K; [cbn; now rewrite app_nil_r|].
  unfold manager_ok in K. apply orb_false_iff in K as [_ K].
  specialize (X (manager_path s)). destruct (e_lic_new e (manager_path s)) as [|[t|]]; try discriminate; [|destruct X].
  exists t. split; [reflexivity|]. split; [exact X|].
  rewrite send_error_ok; [reflexivity|apply A|unfold ERR_LICENSE; lia|unfold Explains, InMemory in X; lia].
Qed.

Lemma manager_internal {D} (e : env D) s : Forall internal (manager_events e s).
Proof. unfold manager_events. destruct (s_lic s); repeat constructor. Qed.

Lemma feature_reply {D} cfg (e : env D) s r f :
  s_phase s = P_LICENSE -> Request r C_FEATURE f -> AllocOk e ->
  (forall p, Explains (e_lic_new e p)) -> (forall g, Explains (e_checkout e g)) ->
  lve_step cfg e s r =
  (Recv r :: manager_events e s ++
     (if manager_ok e s then [Checkout f (lic_ok (e_checkout e f))] else []) ++
     [Reply (if manager_ok e s
             then match e_checkout e f with
                  | Granted => B "YES" ++ [LF]
                  | Refused t => length_message (B "NO") (match t with Some m => m | None => [] end)
                  end
             else error_message 7 (match e_lic_new e (manager_path s) with Refused (Some t) => t | _ => [] end))],
   Ok (if manager_ok e s then set_lic s true else s)).
Proof.
  intros P R A X1 X2. rewrite (feature_step cfg e s r f P R A). unfold handle_feature.
  pose proof (setup_check_eq e s A X1) as K. destruct (manager_ok e s).
  - rewrite K, mbind_ok. unfold after, feature_name. rewrite complete_bytes, mbind_lift_ok. unfold emit.
    rewrite mbind_ok. specialize (X2 f).
    destruct (e_checkout e f) as [|[t|]]; cbn [lic_ok].
    + reflexivity.
    + rewrite send_no_ok; [reflexivity|apply A|unfold Explains, InMemory in X2; lia].
    + destruct X2.
  - destruct K as (t & E & I & K). rewrite K, mbind_ok, E. unfold after. cbn [fst snd ret app].
    rewrite app_nil_r. reflexivity.
Qed.

Lemma returnfeature_reply {D} cfg (e : env D) s r f :
  s_phase s = P_LICENSE -> Request r C_RETURNFEATURE f -> AllocOk e ->
  (forall p, Explains (e_lic_new e p)) -> (forall g, Explains (e_checkin e g)) ->
  lve_step cfg e s r =
  (Recv r :: manager_events e s ++
     (if manager_ok e s then [Checkin f (lic_ok (e_checkin e f))] else []) ++
     [Reply (if manager_ok e s
             then match e_checkin e f with
                  | Granted => B "YES" ++ [LF]
                  | Refused t => error_message 7 (match t with Some m => m | None => [] end)
                  end
             else error_message 7 (match e_lic_new e (manager_path s) with Refused (Some t) => t | _ => [] end))],
   Ok (if manager_ok e s then set_lic s true else s)).
Proof.
  intros P R A X1 X2. rewrite (returnfeature_step cfg e s r f P R A). unfold handle_returnfeature.
  pose proof (setup_check_eq e s A X1) as K. destruct (manager_ok e s).
  - rewrite K, mbind_ok. unfold feature_name. rewrite complete_bytes, mbind_lift_ok. unfold emit.
    rewrite mbind_ok. specialize (X2 f).
    destruct (e_checkin e f) as [|[t|]]; cbn [lic_ok].
    + reflexivity.
    + rewrite send_error_ok; [reflexivity|apply A|unfold ERR_LICENSE; lia|unfold Explains, InMemory in X2; lia].
    + destruct X2.
  - destruct K as (t & E & I & K). rewrite K, mbind_ok, E. cbn [fst snd ret app].
    rewrite app_nil_r. reflexivity.
Qed.

(** ** LIB *)

(** The licence check for the whole library: what happens and how it ends. *)
Definition global_wanted {D} (cfg : config) (s : lve D) : option bytes :=
  if s_approved s then cfg_global cfg else None.

Lemma global_licence_eq {D} cfg (e : env D) s :
  AllocOk e -> (forall p, Explains (e_lic_new e p)) -> (forall g, Explains (e_checkout e g)) ->
  match global_wanted cfg s with
  | None => global_licence cfg e false s = ([], Ok (s, true))
  | Some f =>
      if manager_ok e s && lic_ok (e_checkout e f) then
        global_licence cfg e false s = (manager_events e s ++ [Checkout f true], Ok (set_lic s true, true))
      else exists t co s0, InMemory t /\
        (co = [] /\ s0 = s /\ manager_ok e s = false /\ e_lic_new e (manager_path s) = Refused (Some t) \/
         co = [Checkout f false] /\ s0 = set_lic s true /\ manager_ok e s = true /\ e_checkout e f = Refused (Some t)) /\
        global_licence cfg e false s =
        (manager_events e s ++ co ++ [Reply (error_message 7 t)],
         Ok (set_approved (set_error s0 7 (Some t)) false, false))
  end.
Proof.
  intros A X1 X2. unfold global_wanted, global_licence.
  destruct (s_approved s) eqn:Ap; [|destruct (cfg_global cfg); reflexivity].
  destruct (cfg_global cfg) as [f|] eqn:G; [|reflexivity].
  rewrite setup_licensing_eq, mbind_ok. cbn [fst snd].
  specialize (X1 (manager_path s)). specialize (X2 f).
  destruct (manager_ok e s) eqn:K; cbn [andb].
  - destruct (e_checkout e f) as [|[t|]]; cbn [lic_ok].
    + reflexivity.
    + exists t, [Checkout f false], (set_lic s true). split; [exact X2|]. split; [right; auto|].
      unfold emit. rewrite mbind_ok. cbn [fst snd ret app]. rewrite mbind_ok. cbn [fst snd].
      rewrite !A. unfold ERR_LICENSE.
      rewrite send_error_ok; [reflexivity|apply A|lia|unfold Explains, InMemory in X2; lia].
    + destruct X2.
  - unfold manager_ok in K. apply orb_false_iff in K as [_ K].
    destruct (e_lic_new e (manager_path s)) as [|[t|]]; try discriminate; [|destruct X1].
    exists t, [], s. split; [exact X1|]. split; [left; auto|].
    rewrite mbind_ret, !A. unfold ERR_LICENSE.
    rewrite send_error_ok; [reflexivity|apply A|lia|unfold Explains, InMemory in X1; lia].
Qed.
