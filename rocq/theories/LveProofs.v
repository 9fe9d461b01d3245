(** Proofs about the LVE. *)
From Verif Require Import Base BaseProofs ParseModel ParseSpec ParseProofs DecProofs
  WireModel WireSpec WireProofs LveModel LveSpec.

(** ** reasoning about effects *)

Lemma mbind_ok {A C} es (a : A) (f : A -> M C) :
  mbind (es, Ok a) f = (es ++ fst (f a), snd (f a)).
Proof. cbn. destruct (f a). reflexivity. Qed.
Lemma mbind_ret {A C} (a : A) (f : A -> M C) : mbind (ret a) f = f a.
Proof. cbn. destruct (f a). reflexivity. Qed.
Lemma mbind_lift_ok {A C} (a : A) (f : A -> M C) : mbind (lift (Ok a)) f = f a.
Proof. cbn. destruct (f a). reflexivity. Qed.

(** Every effect satisfies [P] and every normal result satisfies [Q]. *)
Definition tri {A} (P : event -> Prop) (Q : A -> Prop) (m : M A) : Prop :=
  (forall ev, In ev (fst m) -> P ev) /\ (forall a, snd m = Ok a -> Q a).

Lemma tri_ret {A} (P : event -> Prop) (Q : A -> Prop) a : Q a -> tri P Q (ret a).
Proof. intros H. split; [intros ev []|]. cbn. intros b [= <-]. exact H. Qed.
Lemma tri_crash {A} (P : event -> Prop) (Q : A -> Prop) r : tri P Q (crash r).
Proof. split; [intros ev []|discriminate]. Qed.
Lemma tri_emit (P : event -> Prop) (Q : unit -> Prop) ev : P ev -> Q tt -> tri P Q (emit ev).
Proof. intros H1 H2. split; cbn; [intros ? [<-|[]]; exact H1|intros [] _; exact H2]. Qed.
Lemma tri_lift {A} (P : event -> Prop) (Q : A -> Prop) o : (forall a, o = Ok a -> Q a) -> tri P Q (lift o).
Proof. intros H. split; [intros ev []|exact H]. Qed.
Lemma tri_bind {A C} (P : event -> Prop) (Q : A -> Prop) (R : C -> Prop) (m : M A) f :
  tri P Q m -> (forall a, Q a -> tri P R (f a)) -> tri P R (mbind m f).
Proof.
  intros [H1 H2] H. destruct m as [es [a|u|]]; cbn [fst snd] in *.
  - rewrite mbind_ok. destruct (H a (H2 a eq_refl)) as [K1 K2]. split; cbn [fst snd].
    + intros ev Hin. apply in_app_or in Hin as [Hin|Hin]; auto.
    + exact K2.
  - split; [exact H1|discriminate].
  - split; [exact H1|discriminate].
Qed.
Lemma tri_conseq {A} (P P' : event -> Prop) (Q Q' : A -> Prop) m :
  tri P Q m -> (forall ev, P ev -> P' ev) -> (forall a, Q a -> Q' a) -> tri P' Q' m.
Proof. intros [H1 H2] HP HQ. split; eauto. Qed.

(** ** first letters of messages *)

Definition starts (id : cmd_id) (m : bytes) : Prop := exists r, m = cmd_name id ++ r.

Lemma send_length_starts al id d ms m :
  send_length al id d = Ok ms -> In m ms -> starts id m.
Proof.
  unfold send_length. destruct (al _); [|intros [= <-] []].
  destruct (_ <=? _)%Z; [discriminate|]. intros [= <-] [<-|[]].
  unfold length_header, starts. rewrite <- !app_assoc. eauto.
Qed.
Lemma send_string_starts al id d ms m :
  send_string al id d = Ok ms -> In m ms -> starts id m.
Proof. apply send_length_starts. Qed.
Lemma send_error_starts al code d ms m :
  send_error al code d = Ok ms -> In m ms -> starts C_ERROR m.
Proof.
  unfold send_error, send_number_and_length. destruct d as [d|]; [|discriminate].
  destruct (al _); [|intros [= <-] []].
  destruct (_ <=? _)%Z; [discriminate|]. intros [= <-] [<-|[]].
  unfold number_and_length_header, starts. rewrite <- !app_assoc. eexists. reflexivity.
Qed.
Lemma send_simple_starts id : starts id (send_simple id).
Proof. rewrite send_simple_eq. unfold starts. eauto. Qed.
Lemma send_number_starts id n : (-(2^63) <= n < 2^64)%Z -> starts id (send_number id n).
Proof. intros H. rewrite send_number_eq by exact H. unfold starts. eauto. Qed.

Definition not_file_cmd (id : cmd_id) : bool :=
  match id with C_FILECONT | C_FILE | C_UNDEFINED => false | _ => true end.
Lemma starts_not_file id m : starts id m -> not_file_cmd id = true -> ~ CarriesFile m.
Proof.
  intros [r ->] Hid [r' E]. destruct id; try discriminate Hid; vm_compute in E; discriminate E.
Qed.

Lemma tri_reply (P : event -> Prop) (Q : unit -> Prop) o :
  (forall ms m, o = Ok ms -> In m ms -> P (Reply m)) -> Q tt -> tri P Q (reply o).
Proof.
  intros H HQ. unfold reply. destruct o as [ms|u|]; (split; cbn [fst snd]; [|try discriminate]).
  - intros ev Hin. apply in_map_iff in Hin as (m & <- & Hm). eapply H; eauto.
  - intros [] _. exact HQ.
  - intros ev [].
  - intros ev [].
Qed.

(** ** table *)

Lemma next_phase_allowed p id : is_some (next_phase p id) = true <-> Allowed p id.
Proof.
  split.
  - destruct id, p; intros H; try discriminate H; constructor.
  - destruct 1; reflexivity.
Qed.

Lemma next_phase_none p id : next_phase p id = None <-> ~ Allowed p id.
Proof.
  rewrite <- next_phase_allowed. destruct (next_phase p id); cbn; split; congruence.
Qed.

Lemma invalid_text_ok p id :
  id <> C_UNDEFINED ->
  exists t, invalid_text ERROR_SIZE p id = Ok t /\ length t < 512.
Proof.
  intros Hid.
  assert (K : forallb (fun p => forallb (fun id =>
             match invalid_text ERROR_SIZE p id with Ok t => length t <? 512 | _ => false end)
             all_cmds) all_phases = true) by (vm_compute; reflexivity).
  rewrite forallb_forall in K.
  assert (Hp : In p all_phases) by (destruct p; cbn; tauto).
  specialize (K p Hp). rewrite forallb_forall in K.
  assert (Hc : In id all_cmds) by (destruct id; cbn; tauto).
  specialize (K id Hc). destruct (invalid_text ERROR_SIZE p id) as [t|u|]; try discriminate.
  exists t. split; [reflexivity|]. now apply Nat.ltb_lt.
Qed.

(** ** parser facts *)

Lemma valid_no_text elen s c m : parse_command elen s = (VALID_GRAMMAR, c, m) -> m = None.
Proof.
  unfold parse_command. destruct (tokenize s) as [[|w args] many]; [discriminate|].
  destruct (lookup_word _ w) as [[id f]|]; [|discriminate].
  destruct (many || _); [discriminate|]. destruct (_ <? _); [discriminate|].
  destruct f; try discriminate; try (intros [= <- <-]; reflexivity);
    destruct (parse_int _ _) as [n1|]; try discriminate;
    try (intros [= <- <-]; reflexivity).
  - destruct (n1 <? 0)%Z; [discriminate|]. intros [= <- <-]; reflexivity.
  - destruct (parse_int _ _) as [n2|]; [|discriminate].
    destruct (n2 <? 0)%Z; [discriminate|]. intros [= <- <-]; reflexivity.
Qed.

Lemma parse_valid_eq s c : ValidLine s c -> parse_command ERROR_SIZE s = (VALID_GRAMMAR, c, None).
Proof.
  intros H. apply (parse_valid_iff ERROR_SIZE) in H as [m H].
  now rewrite (valid_no_text _ _ _ _ H) in H.
Qed.

Lemma parse_not_unknown elen s c m : parse_command elen s <> (UNKNOWN_ERROR, c, m).
Proof.
  intros H. assert (R : Rejected s UNKNOWN_ERROR).
  { assert (c = undefined_command).
    { revert H. unfold parse_command. destruct (tokenize s) as [[|w args] many]; [discriminate|].
      destruct (lookup_word _ w) as [[id f]|]; [|discriminate].
      destruct (many || _); [discriminate|]. destruct (_ <? _); [discriminate|].
      destruct f; try discriminate; try (intros [= <- <-]; reflexivity);
        destruct (parse_int _ _) as [n1|]; try discriminate.
      - destruct (n1 <? 0)%Z; discriminate.
      - destruct (parse_int _ _) as [n2|]; [|discriminate]. destruct (n2 <? 0)%Z; discriminate. }
    subst c. apply (parse_reject_iff elen); [discriminate|eauto]. }
  inversion R.
Qed.

Lemma valid_not_undefined s c : ValidLine s c -> c_id c <> C_UNDEFINED.
Proof.
  intros H E. destruct H as [w id H1 [x [_ H2]]|w f id n H1 [x [_ H2]]|w f id n H1 [x [_ H2]]|w f g id m n H1 [x [_ H2]]];
    cbn in E; subst id; cbn in H2;
    repeat match goal with H : _ \/ _ |- _ => destruct H as [H|H]; [discriminate H|] end; exact H2.
Qed.

Lemma valid_form s c : ValidLine s c ->
  match form_of (c_id c) with
  | F_UNDEFINED => False
  | F_SIMPLE => c_number c = 0%Z /\ c_length c = 0%Z
  | F_NUMBER => c_length c = 0%Z
  | F_LENGTH => c_number c = 0%Z
  | F_NUMBER_AND_LENGTH => True
  end.
Proof.
  intros H. destruct H as [w id H1 [x [_ H2]]|w f id n H1 [x [_ H2]]|w f id n H1 [x [_ H2]]|w f g id m n H1 [x [_ H2]]];
    cbn in H2; repeat match goal with H : _ \/ _ |- _ => destruct H as [H|H] end;
    try contradiction; injection H2 as _ <-; vm_compute; auto.
Qed.

(** ** the two kinds of steps *)

Lemma lve_step_valid {D} cfg (e : env D) s r c :
  ValidLine (cstr r) c -> e_alloc e (zlen r + 1)%Z = true ->
  lve_step cfg e s r =
  (Recv r :: fst (handle_command cfg e s c r), snd (handle_command cfg e s c r)).
Proof.
  intros H Ha. unfold lve_step. unfold emit. rewrite mbind_ok. rewrite Ha, (parse_valid_eq _ _ H).
  reflexivity.
Qed.

Lemma lve_step_rejected {D} cfg (e : env D) s r g :
  Rejected (cstr r) g -> e_alloc e (zlen r + 1)%Z = true ->
  exists s0, SameSession s s0 /\ (s_buf s0 = s_buf s \/ length (s_buf s0) < ERROR_SIZE) /\
  lve_step cfg e s r =
  mbind (emit (Recv r)) (fun _ =>
  mbind (reply (send_error (e_alloc e) ERR_NOT_UNDERSTOOD (Some (s_buf s0)))) (fun _ => ret s0)).
Proof.
  intros H Ha.
  assert (Hg : g <> VALID_GRAMMAR) by (intros ->; inversion H).
  pose proof H as H'. apply (parse_reject_iff ERROR_SIZE) in H' as [m Hm]; [|exact Hg].
  exists (match m with Some t => set_buf s t | None => s end).
  split; [destruct m; repeat split|]. split.
  { destruct m as [t|]; [right|left; reflexivity].
    apply (parse_text_fits ERROR_SIZE (cstr r) g undefined_command t); [|exact Hm].
    unfold ERROR_SIZE. lia. }
  unfold lve_step. rewrite Ha, Hm. cbn [negb].
  destruct g; try reflexivity; [congruence|].
  exfalso. exact (parse_not_unknown _ _ _ _ Hm).
Qed.

(** ** permissions and transitions of one step *)

(** What a step from [s] on record [r] may do. *)
Definition Permitted {D} (cfg : config) (s : lve D) (r : bytes) (ev : event) : Prop :=
  match ev with
  | Recv _ => False
  | Reply m => CarriesFile m ->
      s_phase s = P_LICENSE /\ Asks r C_FILE /\ s_approved s = true /\ s_lib s <> None
  | ReadFile p =>
      s_phase s = P_LICENSE /\ Asks r C_FILE /\ s_approved s = true /\
      exists lib rel, s_lib s = Some lib /\ p = cstr lib ++ [SLASH] ++ rel
  | LicNew _ _ =>
      (s_phase s = P_LICENSE /\ (Asks r C_FEATURE \/ Asks r C_RETURNFEATURE)) \/
      ((s_phase s = P_TOOLS \/ s_phase s = P_LIB) /\ Asks r C_LIB)
  | Checkout f _ =>
      (s_phase s = P_LICENSE /\ Asks r C_FEATURE) \/
      ((s_phase s = P_TOOLS \/ s_phase s = P_LIB) /\ Asks r C_LIB /\ cfg_global cfg = Some f)
  | Checkin _ _ => s_phase s = P_LICENSE /\ Asks r C_RETURNFEATURE
  end.

(** A fixed short text. *)
Definition Small (m : option bytes) : Prop := exists t, m = Some t /\ length t <= 100.
Ltac small := eexists; split; [reflexivity|apply Nat.leb_le; vm_compute; reflexivity].

(** How a step may change the session. *)
Inductive Moves {D} (s : lve D) (r : bytes) (s' : lve D) : Prop :=
| Mv_same : s_phase s' = s_phase s -> s_lib s' = s_lib s -> s_approved s' = s_approved s ->
    s_err s' = s_err s -> s_errmsg s' = s_errmsg s -> Moves s r s'
| Mv_version : s_phase s = P_VERSION -> s_phase s' = P_TOOLS -> AsksVersion r ->
    s_lib s' = s_lib s -> s_approved s' = s_approved s ->
    s_err s' = s_err s -> s_errmsg s' = s_errmsg s -> Moves s r s'
| Mv_tools : s_phase s = P_TOOLS -> s_phase s' = P_LIB -> Asks r C_TOOLS ->
    s_lib s' = s_lib s -> s_approved s' = s_approved s ->
    s_err s' = s_err s -> s_errmsg s' = s_errmsg s -> Moves s r s'
| Mv_lib : (s_phase s = P_TOOLS \/ s_phase s = P_LIB) -> s_phase s' = P_LICENSE -> Asks r C_LIB ->
    (s_approved s' = true -> s_approved s = true) ->
    (s_lib s' = s_lib s \/ exists raw lib, s_lib s' = Some lib /\ Trimmed raw lib) ->
    ((s_err s' = s_err s /\ s_errmsg s' = s_errmsg s) \/
     (s_err s' = 4%Z \/ s_err s' = 8%Z) /\ Small (s_errmsg s') \/
     s_err s' = 7%Z /\ s_approved s = true /\ s_approved s' = false /\ s_errmsg s' <> None) ->
    Moves s r s'.

(** trim *)
Lemma trim_rev_spec r : r <> [] ->
  exists t, r = t ++ trim_rev r /\ (forall c, In c t -> c = SLASH \/ c = BSLASH) /\
  trim_rev r <> [] /\
  (length (trim_rev r) = 1 \/ forall c l, trim_rev r = c :: l -> c <> SLASH /\ c <> BSLASH).
Proof.
  induction r as [|x r IH]; intros Hne; [congruence|].
  destruct r as [|y r].
  { exists []. cbn. repeat split; try discriminate; try tauto. }
  change (trim_rev (x :: y :: r)) with
    (if Ascii.eqb x BSLASH || Ascii.eqb x SLASH then trim_rev (y :: r) else x :: y :: r).
  destruct (Ascii.eqb x BSLASH || Ascii.eqb x SLASH) eqn:E.
  - destruct IH as (t & Ht & H1 & H2 & H3); [discriminate|].
    exists (x :: t). split; [cbn [app]; now rewrite <- Ht|]. split; [|split; assumption].
    intros c [<-|Hc]; [|auto]. apply orb_true_iff in E as [E|E]; apply Ascii.eqb_eq in E; auto.
  - exists []. split; [reflexivity|]. split; [intros c []|]. split; [discriminate|].
    right. intros c l [= <- _]. apply orb_false_iff in E as [E1 E2].
    apply Ascii.eqb_neq in E1, E2. auto.
Qed.

Lemma trim_spec raw : raw <> [] -> Trimmed raw (trim raw).
Proof.
  intros H. unfold trim.
  destruct (trim_rev_spec (rev raw)) as (t & E & H1 & H2 & H3).
  { intros E. apply H. apply (f_equal (@rev _)) in E. now rewrite rev_involutive in E. }
  exists (rev t). split.
  { rewrite <- rev_app_distr, <- E. now rewrite rev_involutive. }
  split; [intros c Hc; apply H1; now apply in_rev|].
  split; [intros E2; apply H2; apply (f_equal (@rev _)) in E2; now rewrite rev_involutive in E2|].
  destruct H3 as [H3|H3]; [left; now rewrite rev_length|right].
  intros l c E2. apply (f_equal (@rev _)) in E2. rewrite rev_involutive, rev_unit in E2.
  eapply H3. exact E2.
Qed.

Lemma trimmed_unique raw l1 l2 : Trimmed raw l1 -> Trimmed raw l2 -> l1 = l2.
Proof.
  assert (K : forall s1 s2 a b, a ++ s1 = b ++ s2 -> (forall c, In c s1 -> c = SLASH \/ c = BSLASH) ->
    a <> [] -> b <> [] ->
    (length b = 1 \/ forall l c, b = l ++ [c] -> c <> SLASH /\ c <> BSLASH) -> length b <= length a).
  { intros s1 s2 a b E H1 Ha Hb [H|H]; [destruct a; [congruence|cbn; lia]|].
    destruct (le_lt_dec (length b) (length a)) as [L|L]; [exact L|exfalso].
    destruct (exists_last Hb) as (b' & c & ->). rewrite app_length in L. cbn in L.
    destruct (H b' c eq_refl) as [N1 N2].
    assert (Hin : In c s1).
    { assert (E1 : nth_error (a ++ s1) (length b') = Some c).
      { rewrite E, <- app_assoc, nth_error_app2, Nat.sub_diag by lia. reflexivity. }
      rewrite nth_error_app2 in E1 by lia. eapply nth_error_In; eauto. }
    destruct (H1 c Hin); congruence. }
  intros (s1 & E1 & A1 & A2 & A3) (s2 & E2 & B1 & B2 & B3). subst raw.
  pose proof (K s1 s2 l1 l2 E2 A1 A2 B2 B3).
  pose proof (K s2 s1 l2 l1 (eq_sym E2) B1 B2 A2 A3).
  assert (L : length l1 = length l2) by lia.
  apply (f_equal (firstn (length l1))) in E2. rewrite firstn_app_exact in E2.
  rewrite L, firstn_app_exact in E2. exact E2.
Qed.

Lemma payload_bytes_ok p b : payload_bytes p = Ok b -> b = p_bytes p /\ (p_len p <= zlen b)%Z.
Proof.
  unfold payload_bytes. destruct (Z.ltb_spec (zlen (p_bytes p)) (p_len p)); [discriminate|].
  intros [= <-]. split; [reflexivity|lia].
Qed.

(** Same as [s] except for the licence-manager flag. *)
Definition upto_lic {D} (s s' : lve D) : Prop :=
  s_phase s' = s_phase s /\ s_lib s' = s_lib s /\ s_approved s' = s_approved s /\
  s_err s' = s_err s /\ s_errmsg s' = s_errmsg s /\ s_cr s' = s_cr s.

Lemma setup_licensing_tri {D} (e : env D) s :
  tri (fun ev => exists p b, ev = LicNew p b) (fun '(s1, _) => upto_lic s s1) (setup_licensing e s).
Proof.
  unfold setup_licensing. destruct (s_lic s).
  - apply tri_ret. repeat split.
  - eapply tri_bind; [apply (tri_emit _ (fun _ => True)); eauto|]. intros _ _.
    destruct (e_lic_new e _); apply tri_ret; repeat split.
Qed.

Lemma setup_check_tri {D} (e : env D) s :
  tri (fun ev => (exists p b, ev = LicNew p b) \/ exists m, ev = Reply m /\ ~ CarriesFile m)
      (fun '(s1, _) => upto_lic s s1) (setup_check e s).
Proof.
  unfold setup_check. eapply tri_bind.
  { eapply tri_conseq; [apply setup_licensing_tri| |]; [|intros a H; exact H]. intros ev H. left. exact H. }
  intros [s1 ref] Hs. destruct ref as [[t|]|].
  - eapply tri_bind; [apply (tri_reply _ (fun _ => True)); [|exact I]|].
    + intros ms m E Hin. right. exists m. split; [reflexivity|].
      apply (starts_not_file C_ERROR); [|reflexivity]. eapply send_error_starts; eauto.
    + intros _ _. apply tri_ret. exact Hs.
  - apply tri_crash.
  - apply tri_ret. exact Hs.
Qed.

Definition no_file_reply (ev : event) : Prop := exists m, ev = Reply m /\ ~ CarriesFile m.

Lemma global_licence_tri {D} cfg (e : env D) q s :
  tri (fun ev => (exists p b, ev = LicNew p b) \/
                 (exists f b, ev = Checkout f b /\ cfg_global cfg = Some f) \/ no_file_reply ev)
      (fun '(s1, go) => s_phase s1 = s_phase s /\ s_lib s1 = s_lib s /\
         (s_approved s1 = true -> s_approved s = true) /\
         (if go : bool then s_approved s1 = s_approved s /\ s_err s1 = s_err s /\ s_errmsg s1 = s_errmsg s
          else s_approved s1 = false /\ s_err s1 = 7%Z /\ s_approved s = true /\
               (q = false -> s_errmsg s1 <> None)))
      (global_licence cfg e q s).
Proof.
  unfold global_licence. destruct (cfg_global cfg) as [f|] eqn:G.
  2:{ apply tri_ret. repeat split; auto. }
  destruct (s_approved s) eqn:Ap; [|apply tri_ret; repeat split; auto; congruence].
  eapply tri_bind.
  { eapply tri_conseq; [apply setup_licensing_tri| |intros a H; exact H].
    intros ev H. left. exact H. }
  intros [s1 ref] (U1 & U2 & U3 & U4 & U5 & U6).
  eapply (tri_bind _ (fun _ => True)).
  { destruct ref as [t|]; [apply tri_ret; exact I|].
    eapply tri_bind; [apply (tri_emit _ (fun _ => True)); [right; left; eauto|exact I]|].
    intros _ _. apply tri_ret. exact I. }
  intros [[t|]|] _.
  - destruct q.
    { rewrite mbind_ret. apply tri_ret. cbn. rewrite U1, U2. repeat split; auto. discriminate. }
    destruct (e_alloc e (zlen t + 1)%Z); [|split; [intros ev []|discriminate]].
    eapply (tri_bind _ (fun _ => True)).
    { apply tri_reply; [|exact I].
      intros ms m E Hin. right. right. exists m. split; [reflexivity|].
      apply (starts_not_file C_ERROR); [|reflexivity]. eapply send_error_starts; eauto. }
    intros _ _. apply tri_ret. cbn. rewrite U1, U2. repeat split; auto. discriminate.
  - apply tri_crash.
  - apply tri_ret. rewrite U1, U2, U3, U4, U5. repeat split; auto.
Qed.

Lemma handle_lib_tri {D} cfg (e : env D) q s len d :
  tri (fun ev => (exists p b, ev = LicNew p b) \/
                 (exists f b, ev = Checkout f b /\ cfg_global cfg = Some f) \/ no_file_reply ev)
      (fun '(s1, ok) => s_phase s1 = s_phase s /\
         (s_approved s1 = true -> s_approved s = true) /\
         (s_lib s1 = s_lib s \/
          exists p lib, d = Some p /\ (p_len p <= zlen (p_bytes p))%Z /\
            lib = trim (p_bytes p) /\ s_lib s1 = Some lib) /\
         ((s_err s1 = s_err s /\ s_errmsg s1 = s_errmsg s) \/
          (s_err s1 = 4%Z \/ s_err s1 = 8%Z) /\ Small (s_errmsg s1) \/
          s_err s1 = 7%Z /\ s_approved s = true /\ s_approved s1 = false /\
          (q = false -> s_errmsg s1 <> None)))
      (handle_lib cfg e q s len d).
Proof.
  unfold handle_lib. destruct d as [p|].
  2:{ apply tri_ret. cbn. repeat split; auto. right. left. split; [now left|small]. }
  destruct (Z.eqb_spec len 0).
  { apply tri_ret. cbn. repeat split; auto. right. left. split; [now left|small]. }
  destruct (negb (e_alloc e (len + 1)%Z)); [apply tri_crash|].
  eapply (tri_bind _ (fun b => b = p_bytes p /\ (p_len p <= zlen b)%Z)).
  { apply tri_lift. intros b. apply payload_bytes_ok. }
  intros raw [-> Hlen].
  destruct (e_cr_create e (cstr (trim (p_bytes p)))) as [dd|].
  2:{ apply tri_ret. cbn. repeat split; auto. right; exists p; eauto.
      right. left. split; [now right|small]. }
  eapply tri_bind; [apply global_licence_tri|].
  intros [s3 go]. cbn [s_phase s_lib s_approved set_cr set_lib s_err s_errmsg].
  intros (G1 & G2 & G3 & G4). destruct go.
  - destruct G4 as (G4 & G5 & G6).
    eapply (tri_bind _ (fun _ => True)).
    { destruct q; [apply tri_ret; exact I|]. apply tri_reply; [|exact I].
      intros ms m [= <-] [<-|[]]. right. right. exists (send_simple C_YES). split; [reflexivity|].
      apply (starts_not_file C_YES); [apply send_simple_starts|reflexivity]. }
    intros _ _. apply tri_ret. unfold validate_directory.
    destruct (e_stat e _); cbn; rewrite ?G1, ?G2; repeat split; auto; try (right; exists p; eauto);
      try (right; left; split; [now left|small]).
  - destruct G4 as (G4 & G5 & G6 & G7). apply tri_ret. rewrite G1, G2.
    split; [reflexivity|]. split; [exact G3|]. split; [right; exists p; eauto|].
    right. right. auto.
Qed.

Lemma handle_feature_tri {D} (e : env D) q s d :
  tri (fun ev => (exists p b, ev = LicNew p b) \/ (exists f b, ev = Checkout f b) \/ no_file_reply ev)
      (fun '(s1, _) => upto_lic s s1) (handle_feature e q s d).
Proof.
  unfold handle_feature. eapply tri_bind.
  { eapply tri_conseq; [apply setup_check_tri| |intros a H; exact H].
    intros ev [H|H]; [left; exact H|right; right; exact H]. }
  intros [s1 ok] Hs. destruct ok; [|apply tri_ret; exact Hs].
  eapply (tri_bind _ (fun _ => True)); [apply tri_lift; auto|]. intros name _.
  eapply (tri_bind _ (fun _ => True)); [apply tri_emit; [right; left; eauto|exact I]|]. intros _ _.
  destruct (e_checkout e name) as [|t].
  - eapply (tri_bind _ (fun _ => True)).
    { destruct q; [apply tri_ret; exact I|]. apply tri_reply; [|exact I].
      intros ms m [= <-] [<-|[]]. right. right. exists (send_simple C_YES). split; [reflexivity|].
      apply (starts_not_file C_YES); [apply send_simple_starts|reflexivity]. }
    intros _ _. apply tri_ret. exact Hs.
  - destruct q; [apply tri_ret; exact Hs|]. destruct t as [m|]; [|apply tri_crash].
    eapply (tri_bind _ (fun _ => True)).
    { apply tri_reply; [|exact I]. intros ms m0 E Hin. right. right. exists m0. split; [reflexivity|].
      apply (starts_not_file C_NO); [|reflexivity]. eapply send_string_starts; eauto. }
    intros _ _. apply tri_ret. exact Hs.
Qed.

Lemma handle_returnfeature_tri {D} (e : env D) s d :
  tri (fun ev => (exists p b, ev = LicNew p b) \/ (exists f b, ev = Checkin f b) \/ no_file_reply ev)
      (fun s1 => upto_lic s s1) (handle_returnfeature e s d).
Proof.
  unfold handle_returnfeature. eapply tri_bind.
  { eapply tri_conseq; [apply setup_check_tri| |intros a H; exact H].
    intros ev [H|H]; [left; exact H|right; right; exact H]. }
  intros [s1 ok] Hs. destruct ok; [|apply tri_ret; exact Hs].
  eapply (tri_bind _ (fun _ => True)); [apply tri_lift; auto|]. intros name _.
  eapply (tri_bind _ (fun _ => True)); [apply tri_emit; [right; left; eauto|exact I]|]. intros _ _.
  destruct (e_checkin e name) as [|t].
  - eapply (tri_bind _ (fun _ => True)).
    { apply tri_reply; [|exact I].
      intros ms m [= <-] [<-|[]]. right. right. exists (send_simple C_YES). split; [reflexivity|].
      apply (starts_not_file C_YES); [apply send_simple_starts|reflexivity]. }
    intros _ _. apply tri_ret. exact Hs.
  - destruct t as [m|]; [|apply tri_crash].
    eapply (tri_bind _ (fun _ => True)).
    { apply tri_reply; [|exact I]. intros ms m0 E Hin. right. right. exists m0. split; [reflexivity|].
      apply (starts_not_file C_ERROR); [|reflexivity]. eapply send_error_starts; eauto. }
    intros _ _. apply tri_ret. exact Hs.
Qed.

Lemma zsnprintf_fits size t : (zlen t < size)%Z -> zsnprintf size t = t.
Proof. intros H. unfold zsnprintf. apply firstn_all2. unfold zlen in H. lia. Qed.

Lemma cstr_le s : length (cstr s) <= length s.
Proof. induction s as [|x s IH]; cbn; [lia|]. destruct (Ascii.eqb x NUL); cbn; lia. Qed.

Lemma payload_str_le p t : payload_str p = Ok t -> (zlen t <= zlen (p_bytes p))%Z.
Proof.
  unfold payload_str. destruct (has_byte NUL (p_bytes p)).
  - intros [= <-]. pose proof (cstr_le (p_bytes p)). unfold zlen. lia.
  - destruct (_ <? _)%Z; [discriminate|]. destruct (Ascii.eqb _ _); [|discriminate].
    intros [= <-]. lia.
Qed.

(** the buffer extracted for a payload of [len] bytes *)
Definition payload_for (len : Z) (d : option payload) : Prop :=
  forall p, d = Some p -> p_len p = len /\ (zlen (p_bytes p) <= len)%Z.

Lemma extract_payload_for al len b d n : (0 <= len)%Z ->
  extract_data al len b = Ok (d, n) -> payload_for len d.
Proof.
  intros H0. unfold extract_data. destruct (strstr_nl b) as [i| |]; [|intros [= <- <-] p [=]|discriminate].
  destruct (al _); [|intros [= <- <-] p [=]].
  destruct (_ <? _)%Z; [discriminate|]. intros [= <- <-] p [= <-]. cbn [p_len p_bytes].
  split; [reflexivity|]. unfold zlen. rewrite firstn_length. lia.
Qed.

(** what a FILE handler may do *)
Definition file_event {D} (s : lve D) (ev : event) : Prop :=
  match ev with
  | Reply m => CarriesFile m -> s_approved s = true /\ s_lib s <> None
  | ReadFile p => s_approved s = true /\
      exists lib rel, s_lib s = Some lib /\ p = cstr lib ++ [SLASH] ++ rel
  | _ => False
  end.
Definition upto_cr {D} (s s' : lve D) : Prop :=
  s_phase s' = s_phase s /\ s_lib s' = s_lib s /\ s_approved s' = s_approved s /\
  s_err s' = s_err s /\ s_errmsg s' = s_errmsg s /\ s_lic s' = s_lic s.

Lemma error_reply_event {D} (s : lve D) al code t :
  tri (file_event s) (fun _ => True) (reply (send_error al code t)).
Proof.
  apply tri_reply; [|exact I]. intros ms m E Hin Hc. exfalso. revert Hc.
  apply (starts_not_file C_ERROR); [|reflexivity]. eapply send_error_starts; eauto.
Qed.

Lemma file_error_event {D} (s : lve D) e code size t :
  tri (file_event s) (fun _ => True) (@file_error D e code size t).
Proof.
  unfold file_error. destruct (e_alloc e _); [apply error_reply_event|apply tri_ret; exact I].
Qed.

Lemma handle_file_tri {D} (e : env D) s len d :
  payload_for len d ->
  tri (file_event s) (upto_cr s) (handle_file e s len d).
Proof.
  intros Hd. unfold handle_file. destruct (s_approved s) eqn:Ap; cbn [negb].
  2:{ destruct (s_errmsg s); [|apply tri_ret; repeat split].
      eapply tri_bind; [apply error_reply_event|]. intros _ _. apply tri_ret. repeat split. }
  destruct (e_alloc e _) eqn:Al; cbn [negb].
  2:{ eapply tri_bind; [apply error_reply_event|]. intros _ _. apply tri_ret. repeat split. }
  destruct (s_lib s) as [lib|] eqn:Lib; [|destruct d; apply tri_crash].
  destruct d as [p|]; [|apply tri_crash].
  destruct (Hd p eq_refl) as [H1 H2].
  eapply (tri_bind _ (fun t => (zlen t <= len)%Z)).
  { apply tri_lift. intros t Ht. apply payload_str_le in Ht. lia. }
  intros rel Hrel.
  rewrite zsnprintf_fits.
  2:{ rewrite !zlen_app. pose proof (cstr_le lib). unfold zlen in *. cbn [length]. lia. }
  eapply (tri_bind _ (fun _ => True)).
  { unfold read_file. eapply (tri_bind _ (fun _ => True)).
    { apply tri_emit; [|exact I]. cbn. split; [exact Ap|]. exists lib, rel. auto. }
    intros _ _. destruct (e_file e _) as [t|t|sz av fe]; try (apply tri_ret; exact I).
    destruct (e_alloc e (sz + 1)%Z); [|apply tri_ret; exact I].
    destruct fe; [destruct (_ <? _)%Z|]; apply tri_ret; exact I. }
  intros [m|file] _.
  { eapply tri_bind; [apply error_reply_event|]. intros _ _. apply tri_ret. repeat split. }
  assert (Ok_reply : forall dd, tri (file_event s) (fun _ => True) (reply (send_length (e_alloc e) C_FILECONT dd))).
  { intros dd. apply tri_reply; [|exact I]. intros ms m E Hin Hc. split; [exact Ap|congruence]. }
  destruct (is_moc rel).
  - destruct (e_alloc e (zlen file + 1)%Z); cbn [negb].
    + eapply (tri_bind _ (fun _ => True)); [apply tri_lift; auto|]. intros [cr [dd|]] _.
      * eapply tri_bind; [apply Ok_reply|]. intros _ _. apply tri_ret. repeat split.
      * eapply tri_bind; [apply file_error_event|]. intros _ _. apply tri_ret. repeat split.
    + eapply tri_bind; [apply file_error_event|]. intros _ _. apply tri_ret. repeat split.
  - eapply tri_bind; [apply Ok_reply|]. intros _ _. apply tri_ret. repeat split.
Qed.

Lemma handle_version_tri {D} (e : env D) s n :
  tri no_file_reply
    (fun s1 => s_lib s1 = s_lib s /\ s_approved s1 = s_approved s /\ s_err s1 = s_err s /\
       s_errmsg s1 = s_errmsg s /\
       ((n < 1)%Z /\ s_phase s1 = P_VERSION \/ (1 <= n)%Z /\ s_phase s1 = s_phase s))
    (handle_version e s n).
Proof.
  unfold handle_version, MIN_PROTOCOL_VERSION, MAX_PROTOCOL_VERSION. destruct (Z.ltb_spec n 1).
  - eapply (tri_bind _ (fun _ => True)).
    + apply tri_reply; [|exact I]. intros ms m E Hin. exists m. split; [reflexivity|].
      apply (starts_not_file C_ERROR); [|reflexivity]. eapply send_error_starts; eauto.
    + intros _ _. apply tri_ret. cbn. auto 10.
  - eapply (tri_bind _ (fun _ => True)).
    + apply tri_reply; [|exact I]. intros ms m [= <-] [<-|[]]. eexists. split; [reflexivity|].
      apply (starts_not_file C_VERSION); [apply send_number_starts; lia|reflexivity].
    + intros _ _. apply tri_ret. cbn. auto 10.
Qed.

Lemma cmd_id_eqb_spec a b : cmd_id_eqb a b = true <-> a = b.
Proof. split; [|intros ->; destruct b; reflexivity]. destruct a, b; intros H; try discriminate H; reflexivity. Qed.

Lemma next_phase_inv p id p' : next_phase p id = Some p' ->
  (p = P_VERSION /\ id = C_VERSION /\ p' = P_TOOLS) \/
  (p = P_TOOLS /\ id = C_TOOLS /\ p' = P_LIB) \/
  ((p = P_TOOLS \/ p = P_LIB) /\ id = C_LIB /\ p' = P_LICENSE) \/
  (p = P_LICENSE /\ p' = P_LICENSE /\
   (id = C_FEATURE \/ id = C_RETURNFEATURE \/ id = C_LICENSE \/ id = C_RETURNLICENSE \/ id = C_FILE)).
Proof. destruct p, id; cbn; intros H; try discriminate; injection H as <-; tauto. Qed.

Lemma dispatch_tri {D} cfg (e : env D) s p' c r :
  ValidLine (cstr r) c -> next_phase (s_phase s) (c_id c) = Some p' ->
  tri (Permitted cfg s r) (Moves s r) (dispatch cfg e s p' c r).
Proof.
  intros V N. unfold dispatch.
  pose proof (valid_length_range _ _ V) as HL.
  assert (Hno : forall ev, no_file_reply ev -> Permitted cfg s r ev).
  { intros ev (m & -> & H). cbn. intros Hc. contradiction. }
  eapply (tri_bind _ (payload_for (c_length c))).
  { destruct (form_of (c_id c)); try (apply tri_ret; intros q [=]).
    apply tri_lift. intros d E. destruct (extract_data _ _ _) as [[d' n]|u|] eqn:X; try discriminate.
    injection E as <-. eapply extract_payload_for; [|exact X]. lia. }
  intros d Hd. apply next_phase_inv in N.
  destruct N as [(P & I & ->)|[(P & I & ->)|[(P & I & ->)|(P & -> & I)]]].
  - rewrite P. eapply tri_conseq; [apply handle_version_tri|exact Hno|].
    cbn. intros s1 (L & A & E1 & E2 & [[Hn F]|[Hn F]]).
    + apply Mv_same; congruence.
    + apply Mv_version; auto. exists c. auto.
  - rewrite P, I. cbn [cmd_id_eqb]. unfold handle_tools.
    eapply (tri_bind _ (fun _ => True)).
    + apply tri_reply; [|auto]. intros ms m [= <-] [<-|[]]. apply Hno. eexists. split; [reflexivity|].
      apply (starts_not_file C_VERSION); [apply send_number_starts; lia|reflexivity].
    + intros _ _. apply tri_ret. apply Mv_tools; auto. exists c. auto.
  - assert (Goal_ : tri (Permitted cfg s r) (Moves s r)
       (run (s1, _) <- handle_lib cfg e false (set_phase s P_LICENSE) (c_length c) d ; ret s1)).
    { assert (Hc0 : forall z, c_length c = z -> (0 <= z)%Z) by (intros; lia).
      destruct (Z.eqb_spec (c_length c) 0) as [Z0|Z0].
      - unfold handle_lib. rewrite Z0. 
        assert (T : tri (Permitted cfg s r) (Moves s r)
          (run (s1, _) <- @ret (lve D * bool) (set_error (set_phase s P_LICENSE) ERR_FILE_NOT_FOUND
             (Some (B "Path to library is missing.")), false) ; ret s1)).
        { rewrite mbind_ret. apply tri_ret. apply Mv_lib; auto.
          - exists c; auto.
          - right. left. split; [now left|small]. }
        destruct d; exact T.
      - eapply tri_bind.
        { eapply tri_conseq; [apply handle_lib_tri| |intros a H; exact H].
          intros ev [(p & b & ->)|[(f & b & -> & G)|H]].
          - cbn. right. split; [exact P|]. exists c; auto.
          - cbn. right. split; [exact P|]. split; [exists c; auto|exact G].
          - apply Hno, H. }
        cbn. intros [s1 ok] (F & A & L & E). apply tri_ret.
        apply Mv_lib; auto.
        + exists c; auto.
        + destruct L as [L|(p & lib & -> & H1 & -> & L)]; [left; exact L|].
          right. exists (p_bytes p), (trim (p_bytes p)). split; [exact L|].
          apply trim_spec. intros E0. destruct (Hd p eq_refl) as [H2 H3]. rewrite E0 in *.
          cbn in *. lia.
        + destruct E as [E|[E|(E1 & E2 & E3 & E4)]]; auto. right. right. auto. }
    destruct P as [P|P]; rewrite P; [rewrite I; cbn [cmd_id_eqb]|]; exact Goal_.
  - rewrite P.
    assert (Lic : forall s1, upto_lic (set_phase s P_LICENSE) s1 -> Moves s r s1).
    { intros s1 (U1 & U2 & U3 & U4 & U5 & _). apply Mv_same; cbn in *; congruence. }
    destruct I as [I|[I|[I|[I|I]]]]; rewrite I; cbn [cmd_id_eqb].
    + eapply tri_bind.
      { eapply tri_conseq; [apply handle_feature_tri| |intros a H; exact H].
        intros ev [(p & b & ->)|[(f & b & ->)|H]]; [| |apply Hno, H]; cbn; left;
          (split; [exact P|]); [left|]; exists c; auto. }
      intros [s1 ok] U. apply tri_ret. apply Lic, U.
    + eapply tri_conseq; [apply handle_returnfeature_tri| |exact Lic].
      intros ev [(p & b & ->)|[(f & b & ->)|H]]; [| |apply Hno, H]; cbn.
      * left. split; [exact P|]. right. exists c; auto.
      * split; [exact P|]. exists c; auto.
    + unfold handle_license. eapply (tri_bind _ (fun _ => True)).
      * apply tri_reply; [|auto]. intros ms m [= <-] [<-|[]]. apply Hno. eexists. split; [reflexivity|].
        apply (starts_not_file C_NOTSIMPLE); [apply send_simple_starts|reflexivity].
      * intros _ _. apply tri_ret. apply Lic. repeat split.
    + unfold handle_returnlicense. eapply (tri_bind _ (fun _ => True)).
      * apply tri_reply; [|auto]. intros ms m [= <-] [<-|[]]. apply Hno. eexists. split; [reflexivity|].
        apply (starts_not_file C_NOTSIMPLE); [apply send_simple_starts|reflexivity].
      * intros _ _. apply tri_ret. apply Lic. repeat split.
    + eapply tri_conseq; [apply handle_file_tri; exact Hd| |].
      * intros ev H. destruct ev; cbn in *; try contradiction.
        -- intros Hc. destruct (H Hc). repeat split; auto. exists c; auto.
        -- destruct H as [H1 H2]. repeat split; auto. exists c; auto.
      * intros s1 (U1 & U2 & U3 & U4 & U5 & _). apply Mv_same; cbn in *; congruence.
Qed.

(** A step takes its record first; then it only does what is permitted and moves the
    session only in the permitted ways. *)
Lemma lve_step_tri {D} cfg (e : env D) s r :
  exists es o, lve_step cfg e s r = (Recv r :: es, o) /\
    (forall ev, In ev es -> Permitted cfg s r ev) /\ (forall s', o = Ok s' -> Moves s r s').
Proof.
  unfold lve_step. unfold emit. rewrite mbind_ok.
  set (m := if negb (e_alloc e (zlen r + 1)%Z) then _ else _).
  assert (T : tri (Permitted cfg s r) (Moves s r) m).
  { subst m. destruct (e_alloc e _); cbn [negb]; [|apply tri_crash].
    destruct (parse_command ERROR_SIZE (cstr r)) as [[g c] mm] eqn:X.
    assert (Same : forall s0 t, SameSession s s0 ->
      tri (Permitted cfg s r) (Moves s r)
        (run _ <- reply (send_error (e_alloc e) ERR_NOT_UNDERSTOOD t) ; ret s0)).
    { intros s0 t (S1 & S2 & S3 & S4 & S5 & S6 & S7). eapply (tri_bind _ (fun _ => True)).
      - apply tri_reply; [|auto]. intros ms m E Hin Hc. exfalso. revert Hc.
        apply (starts_not_file C_ERROR); [|reflexivity]. eapply send_error_starts; eauto.
      - intros _ _. apply tri_ret. apply Mv_same; auto. }
    assert (SS : SameSession s (match mm with Some t => set_buf s t | None => s end))
      by (destruct mm; repeat split).
    destruct g; try (apply Same; exact SS).
    pose proof (valid_no_text _ _ _ _ X) as ->.
    assert (V : ValidLine (cstr r) c) by (apply (parse_valid_iff ERROR_SIZE); eauto).
    unfold handle_command. destruct (next_phase (s_phase s) (c_id c)) as [p'|] eqn:N.
    - now apply dispatch_tri.
    - eapply (tri_bind _ (fun _ => True)); [apply tri_lift; auto|]. intros t _.
      apply Same. repeat split. }
  exists (fst m), (snd m). destruct T as [T1 T2]. repeat split; auto.
Qed.

(** ** invariants over sessions *)

(** [I pre s] holds between steps with trace [pre] so far; every event [ev] after
    prefix [pre] satisfies [Q pre ev].  All turns satisfy [T]. *)
Lemma loop_invariant {D} cfg (T : turn D -> Prop) (I : list event -> lve D -> Prop)
  (Q : list event -> event -> Prop) :
  (forall pre s t, T t -> I pre s ->
     (forall a ev b, fst (lve_step cfg (t_env t) s (t_record t)) = a ++ ev :: b -> Q (pre ++ a) ev) /\
     (forall s', snd (lve_step cfg (t_env t) s (t_record t)) = Ok s' ->
        I (pre ++ fst (lve_step cfg (t_env t) s (t_record t))) s')) ->
  forall ts pre s, Forall T ts -> I pre s ->
     (forall a ev b, fst (lve_loop cfg s ts) = a ++ ev :: b -> Q (pre ++ a) ev) /\
     (forall s', snd (lve_loop cfg s ts) = Ok s' -> I (pre ++ fst (lve_loop cfg s ts)) s').
Proof.
  intros Step. induction ts as [|t ts IH]; intros pre s HT HI.
  - cbn. split.
    + intros [|] ev b E; discriminate.
    + intros s' [= <-]. now rewrite app_nil_r.
  - inversion HT as [|x y Ht HT']; subst.
    destruct (Step pre s t Ht HI) as [S1 S2].
    cbn [lve_loop]. destruct (lve_step cfg (t_env t) s (t_record t)) as [es [s1|u|]]; cbn [fst snd] in *.
    + rewrite mbind_ok. cbn [fst snd]. specialize (S2 s1 eq_refl).
      destruct (t_shutdown t).
      * cbn. rewrite app_nil_r. split; [exact S1|]. intros s' [= <-]. exact S2.
      * destruct (IH (pre ++ es) s1 HT' S2) as [K1 K2]. split.
        -- intros a ev b E.
           assert (Split : (exists b', es = a ++ ev :: b') \/ (exists a', a = es ++ a' /\
                     fst (lve_loop cfg s1 ts) = a' ++ ev :: b)).
           { clear - E. revert es E. induction a as [|x a IHa]; intros es E.
             - destruct es as [|y es]; [right; exists []; split; [reflexivity|exact E]|left].
               injection E as -> _. exists es. reflexivity.
             - destruct es as [|y es]; [right; exists (x :: a); split; [reflexivity|exact E]|].
               injection E as -> E. destruct (IHa es E) as [(b' & ->)|(a' & -> & E2)];
                 [left; exists b'; reflexivity|right; exists a'; split; [reflexivity|exact E2]]. }
           destruct Split as [(b' & ->)|(a' & -> & E2)].
           ++ eapply S1; reflexivity.
           ++ rewrite app_assoc. eapply K1; eauto.
        -- intros s' E. rewrite app_assoc. apply K2, E.
    + split; [exact S1|discriminate].
    + split; [exact S1|discriminate].
Qed.

(** The state in which the receive loop starts. *)
Definition started {D} (ok : bool) : lve D :=
  if ok then set_approved fresh true
  else set_approved (set_error fresh ERR_TOOL_NOT_ALLOWED (Some (B "Not a valid tool"))) false.

Lemma session_split {D} cfg key (ts : list (turn D)) es o :
  session cfg key ts = (es, o) ->
  (exists ok, validate key (cfg_keys cfg) = Ok ok /\ (es, o) = lve_loop cfg (started ok) ts)
  \/ (es = [] /\ exists u, o = UB u).
Proof.
  unfold session, validate_pubkey. destruct (validate key (cfg_keys cfg)) as [ok|u|] eqn:V.
  - rewrite mbind_lift_ok. intros <-. left. exists ok. split; [reflexivity|].
    destruct ok; rewrite mbind_ret; reflexivity.
  - cbn. intros [= <- <-]. right. eauto.
  - exfalso. revert V. clear. induction (cfg_keys cfg) as [|k l IH]; cbn; [discriminate|].
    destruct key; [|discriminate]. destruct (beq _ _); [discriminate|exact IH].
Qed.

(** Lifting to sessions. *)
Lemma session_invariant {D} cfg key (T : turn D -> Prop) (I : list event -> lve D -> Prop)
  (Q : list event -> event -> Prop) :
  (forall ok, validate key (cfg_keys cfg) = Ok ok -> I [] (started ok)) ->
  (forall pre s t, T t -> I pre s ->
     (forall a ev b, fst (lve_step cfg (t_env t) s (t_record t)) = a ++ ev :: b -> Q (pre ++ a) ev) /\
     (forall s', snd (lve_step cfg (t_env t) s (t_record t)) = Ok s' ->
        I (pre ++ fst (lve_step cfg (t_env t) s (t_record t))) s')) ->
  forall ts es o, Forall T ts -> session cfg key ts = (es, o) ->
     (forall a ev b, es = a ++ ev :: b -> Q a ev) /\ (forall s', o = Ok s' -> I es s').
Proof.
  intros Init Step ts es o HT H. apply session_split in H as [(ok & V & E)|(-> & u & ->)].
  - destruct (loop_invariant cfg T I Q Step ts [] _ HT (Init ok V)) as [K1 K2].
    rewrite <- E in K1, K2. cbn [fst snd app] in *. auto.
  - split; [intros [|] ev b E; discriminate|discriminate].
Qed.
