From Verif Require Import Base BaseProofs ParseModel ParseSpec ParseProofs WireModel WireSpec WireProofs LveModel LveSpec LveProofs SecretSpec.

(** Two runs with the same effects and related results. *)
Definition rel {A A'} (R : A -> A' -> Prop) (m : M A) (m' : M A') : Prop :=
  fst m = fst m' /\
  match snd m, snd m' with
  | Ok a, Ok a' => R a a'
  | UB r, UB r' => r = r'
  | Blocked, Blocked => True
  | _, _ => False
  end.

Lemma rel_bind {A A' C C'} (R : A -> A' -> Prop) (Q : C -> C' -> Prop) m m' f f' :
  rel R m m' -> (forall a a', R a a' -> rel Q (f a) (f' a')) ->
  rel Q (mbind m f) (mbind m' f').
Proof.
  intros [H1 H2] F. destruct m as [es o], m' as [es' o']. cbn in H1, H2. subst es'.
  destruct o, o'; try contradiction; cbn.
  - specialize (F _ _ H2). destruct (f a) as [x y], (f' a0) as [x' y']. destruct F as [F1 F2].
    cbn in F1, F2. subst x'. split; [reflexivity|exact F2].
  - split; [reflexivity|exact H2].
  - split; [reflexivity|exact I].
Qed.

Lemma rel_ret {A A'} (R : A -> A' -> Prop) a a' : R a a' -> rel R (ret a) (ret a').
Proof. intro H. split; [reflexivity|exact H]. Qed.

Lemma rel_eq {A} (m : M A) : rel eq m m.
Proof. split; [reflexivity|]. now destruct (snd m). Qed.

Lemma rel_crash {A A'} (R : A -> A' -> Prop) r : rel R (crash r) (crash r).
Proof. split; reflexivity. Qed.

(** The same sub-run on both sides. *)
Lemma rel_same {A C C'} (Q : C -> C' -> Prop) (m m' : M A) f f' :
  m = m' -> (forall a, rel Q (f a) (f' a)) -> rel Q (mbind m f) (mbind m' f').
Proof. intros <- F. eapply rel_bind; [apply rel_eq|]. intros a a' <-. apply F. Qed.

(** States that look the same. *)
Definition alike {D D'} (s : lve D) (s' : lve D') : Prop :=
  s_phase s = s_phase s' /\ s_lib s = s_lib s' /\ s_approved s = s_approved s' /\
  s_err s = s_err s' /\ s_errmsg s = s_errmsg s' /\ s_lic s = s_lic s' /\ s_buf s = s_buf s'.

(** No file can be served from here on. *)
Definition dry {D} (s : lve D) : Prop := s_approved s = false \/ s_lib s = None.

(** A state after [s0]. *)
Definition okay {D D'} (s0 : lve D) (s : lve D) (s' : lve D') : Prop :=
  alike s s' /\ dry s /\ (s_approved s0 = false -> s_approved s = false).

Definition both {D D' A} (s0 : lve D) (x : lve D * A) (x' : lve D' * A) : Prop :=
  okay s0 (fst x) (fst x') /\ snd x = snd x'.

Ltac fin := unfold both, okay, alike, dry in *; cbn in *; repeat split; try tauto; try congruence.

Lemma send_error_ext a a' code m : (forall n, a n = a' n) -> send_error a code m = send_error a' code m.
Proof. intro H. unfold send_error, send_number_and_length. destruct m; [now rewrite H|reflexivity]. Qed.
Lemma send_string_ext a a' c m : (forall n, a n = a' n) -> send_string a c m = send_string a' c m.
Proof. intro H. unfold send_string, send_length. now rewrite H. Qed.
Lemma extract_ext a a' n b : (forall n, a n = a' n) -> extract_data a n b = extract_data a' n b.
Proof. intro H. unfold extract_data. destruct (strstr_nl b); try reflexivity. now rewrite H. Qed.

Lemma setup_rel {D D'} (e : env D) (e' : env D') s s' : SameButFiles e e' -> alike s s' ->
  rel (fun x x' => alike (fst x) (fst x') /\ snd x = snd x' /\ s_approved (fst x) = s_approved s /\
                   s_lib (fst x) = s_lib s)
      (setup_licensing e s) (setup_licensing e' s').
Proof.
  intros (_ & _ & L & _) (P & Lb & A & E & Em & Lc & Bf). unfold setup_licensing.
  rewrite <- Lc, <- Lb, <- L. destruct (s_lic s) eqn:Es.
  - apply rel_ret. fin.
  - destruct (e_lic_new e _); apply rel_same; try reflexivity; intros; apply rel_ret; fin.
Qed.

Lemma check_rel {D D'} (e : env D) (e' : env D') s s' : SameButFiles e e' -> okay s s s' ->
  rel (both s) (setup_check e s) (setup_check e' s').
Proof.
  intros Q (H & Dr & _). unfold setup_check. eapply rel_bind; [eapply setup_rel; eassumption|].
  intros [s1 r] [s1' r'] (H1 & H2 & H3 & H4). cbn in H1, H2, H3, H4. subst r'.
  assert (K : okay s s1 s1').
  { split; [exact H1|]. split; [destruct Dr; [left|right]; congruence|congruence]. }
  destruct r as [[t|]|].
  - apply rel_same; [now rewrite (send_error_ext _ _ _ _ (proj1 Q))|].
    intros. apply rel_ret. split; [exact K|reflexivity].
  - apply rel_crash.
  - apply rel_ret. split; [exact K|reflexivity].
Qed.

Lemma feature_rel {D D'} (e : env D) (e' : env D') q s s' data : SameButFiles e e' -> okay s s s' ->
  rel (both s) (handle_feature e q s data) (handle_feature e' q s' data).
Proof.
  intros Q H. unfold handle_feature. eapply rel_bind; [apply check_rel; eassumption|].
  intros [s1 ok] [s1' ok'] [K1 K2]. cbn in K1, K2. subst ok'. destruct ok.
  - apply rel_same; [reflexivity|]. intro name. destruct Q as (Qa & _ & _ & Qc & _). rewrite <- Qc.
    apply rel_same; [reflexivity|]. intros _. destruct (e_checkout e name) as [|t].
    + apply rel_same; [reflexivity|]. intros _. apply rel_ret. split; [exact K1|reflexivity].
    + destruct q; [apply rel_ret; split; [exact K1|reflexivity]|].
      destruct t as [m|]; [|apply rel_crash].
      apply rel_same; [now rewrite (send_string_ext _ _ _ _ Qa)|].
      intros _. apply rel_ret. split; [exact K1|reflexivity].
  - apply rel_ret. split; [exact K1|reflexivity].
Qed.

Lemma returnfeature_rel {D D'} (e : env D) (e' : env D') s s' data : SameButFiles e e' -> okay s s s' ->
  rel (okay s) (handle_returnfeature e s data) (handle_returnfeature e' s' data).
Proof.
  intros Q H. unfold handle_returnfeature. eapply rel_bind; [apply check_rel; eassumption|].
  intros [s1 ok] [s1' ok'] [K1 K2]. cbn in K1, K2. subst ok'. destruct ok.
  - apply rel_same; [reflexivity|]. intro name. destruct Q as (Qa & _ & _ & _ & Qc & _). rewrite <- Qc.
    apply rel_same; [reflexivity|]. intros _. destruct (e_checkin e name) as [|t].
    + apply rel_same; [reflexivity|]. intros _. apply rel_ret. exact K1.
    + destruct t as [m|]; [|apply rel_crash].
      apply rel_same; [now rewrite (send_error_ext _ _ _ _ Qa)|]. intros _. apply rel_ret. exact K1.
  - apply rel_ret. exact K1.
Qed.

(** What is needed of the machine while a tool with a listed key is connected. *)
Definition held {D} (cfg : config) (e : env D) (s : lve D) : Prop :=
  s_approved s = false \/ (LicenceRefused cfg e /\ forall p, e_cr_create e p <> None).

Lemma global_rel {D D'} cfg (e : env D) (e' : env D') q s s' : SameButFiles e e' -> alike s s' ->
  held cfg e s ->
  rel (fun x x' => alike (fst x) (fst x') /\ snd x = snd x' /\ s_approved (fst x) = false)
      (global_licence cfg e q s) (global_licence cfg e' q s').
Proof.
  intros Q H V. unfold global_licence.
  assert (A : s_approved s = s_approved s') by (unfold alike in H; tauto).
  destruct (s_approved s) eqn:E.
  - destruct V as [V|[(f & F & R) _]]; [congruence|]. rewrite F, <- A.
    eapply rel_bind; [eapply setup_rel; eassumption|].
    intros [s1 r] [s1' r'] (H1 & H2 & H3 & H4). cbn in H1, H2, H3, H4. subst r'.
    destruct Q as (Qa & _ & _ & Qc & _).
    eapply rel_bind with (R := fun r r' => r = r' /\ r <> None).
    { destruct r as [t|]; [apply rel_ret; split; congruence|]. rewrite <- Qc.
      apply rel_same; [reflexivity|]. intros _. apply rel_ret.
      destruct (e_checkout e f); [congruence|]. split; congruence. }
    intros r1 r2 [<- N]. destruct r1 as [[t|]|]; [|apply rel_crash|congruence].
    rewrite <- !Qa. eapply rel_same.
    { destruct q; [reflexivity|]. now rewrite (send_error_ext _ _ _ _ Qa). }
    intros _. apply rel_ret. fin.
  - rewrite <- A. destruct (cfg_global cfg); apply rel_ret; (split; [exact H|]; split; [reflexivity|exact E]).
Qed.

Lemma lib_rel {D D'} cfg (e : env D) (e' : env D') q s s' len data : SameButFiles e e' ->
  okay s s s' -> held cfg e s ->
  rel (both s) (handle_lib cfg e q s len data) (handle_lib cfg e' q s' len data).
Proof.
  intros Q (H & Dr & _) V. unfold handle_lib.
  assert (Miss : rel (both s)
     (ret (set_error s ERR_FILE_NOT_FOUND (Some (B "Path to library is missing.")), false))
     (ret (set_error s' ERR_FILE_NOT_FOUND (Some (B "Path to library is missing.")), false))).
  { apply rel_ret. fin. }
  destruct data as [p|]; [|exact Miss].
  destruct (len =? 0)%Z; [exact Miss|].
  pose proof Q as (Qa & Qcr & _ & _ & _ & Qst). rewrite <- Qa.
  destruct (e_alloc e (len + 1)%Z); cbn [negb]; [|apply rel_crash].
  apply rel_same; [reflexivity|]. intro raw.
  destruct (e_cr_create e (cstr (trim raw))) as [d|] eqn:C.
  - destruct (e_cr_create e' (cstr (trim raw))) as [d'|] eqn:C'.
    2:{ apply Qcr in C'. congruence. }
    eapply rel_bind.
    { apply global_rel; [exact Q| |exact V]. fin. }
    intros [s3 go] [s3' go'] (K1 & K2 & K3). cbn in K1, K2, K3. subst go'. destruct go.
    + apply rel_same; [reflexivity|]. intros _. apply rel_ret. unfold validate_directory. rewrite <- Qst.
      destruct (e_stat e (cstr (trim raw))); fin; left; exact K3.
    + apply rel_ret. fin.
  - destruct V as [V|[_ V]]; [|exfalso; exact (V _ C)].
    destruct (e_cr_create e' (cstr (trim raw))) as [d'|] eqn:C'.
    { apply Qcr in C. congruence. }
    apply rel_ret. fin.
Qed.

Lemma file_rel {D D'} (e : env D) (e' : env D') s s' len data : SameButFiles e e' -> okay s s s' ->
  rel (okay s) (handle_file e s len data) (handle_file e' s' len data).
Proof.
  intros (Qa & _) K. pose proof K as (H & Dr & _).
  pose proof H as (P & Lb & A & E & Em & Lc & Bf). unfold handle_file. rewrite <- A, <- Em, <- E, <- Lb.
  destruct (s_approved s) eqn:Ap; cbn [negb].
  - destruct Dr as [Dr|Dr]; [congruence|]. rewrite Dr, <- Qa.
    destruct (e_alloc e _); cbn [negb].
    + apply rel_crash.
    + apply rel_same; [now rewrite (send_error_ext _ _ _ _ Qa)|]. intros _. apply rel_ret. exact K.
  - destruct (s_errmsg s) as [m|].
    + apply rel_same; [now rewrite (send_error_ext _ _ _ _ Qa)|]. intros _. apply rel_ret. exact K.
    + apply rel_ret. exact K.
Qed.

Lemma okay_refl {D D'} (s0 s : lve D) (s' : lve D') : okay s0 s s' -> okay s s s'.
Proof. intros (A & B & _). repeat split; try apply A; auto. Qed.
Lemma okay_trans {D D'} (s0 s1 s2 : lve D) (s1' s2' : lve D') :
  okay s0 s1 s1' -> okay s1 s2 s2' -> okay s0 s2 s2'.
Proof. intros (_ & _ & C) (A' & B' & C'). split; [exact A'|]. split; [exact B'|auto]. Qed.

Lemma step_rel {D D'} cfg (e : env D) (e' : env D') s s' r : SameButFiles e e' -> okay s s s' ->
  held cfg e s -> rel (okay s) (lve_step cfg e s r) (lve_step cfg e' s' r).
Proof.
  intros Q K V. unfold lve_step. apply rel_same; [reflexivity|]. intros _.
  pose proof (proj1 Q) as Qa. rewrite <- Qa.
  destruct (e_alloc e (zlen r + 1)%Z); cbn [negb]; [|apply rel_crash].
  destruct (parse_command ERROR_SIZE (cstr r)) as [[g c] m].
  set (s0 := match m with Some t => set_buf s t | None => s end).
  set (s0' := match m with Some t => set_buf s' t | None => s' end).
  assert (K0 : okay s s0 s0') by (subst s0 s0'; destruct m; fin).
  assert (V0 : held cfg e s0) by (subst s0; destruct m; exact V).
  assert (Bf : s_buf s0' = s_buf s0) by (destruct K0 as [K0 _]; unfold alike in K0; symmetry; tauto).
  assert (Rej : forall t, rel (okay s)
     (run _ <- reply (send_error (e_alloc e) ERR_NOT_UNDERSTOOD (Some t)) ; ret s0)
     (run _ <- reply (send_error (e_alloc e') ERR_NOT_UNDERSTOOD (Some t)) ; ret s0')).
  { intro t. apply rel_same; [now rewrite (send_error_ext _ _ _ _ Qa)|]. intros _. apply rel_ret. exact K0. }
  rewrite Bf. clear Bf K V. clearbody s0 s0'.
  destruct g; try apply Rej.
  unfold handle_command.
  assert (P : s_phase s0 = s_phase s0') by (destruct K0 as [K0 _]; unfold alike in K0; tauto).
  rewrite <- P. destruct (next_phase (s_phase s0) (c_id c)) as [p'|].
  - unfold dispatch. rewrite <- P.
    eapply rel_same; [destruct (form_of (c_id c)); try reflexivity; now rewrite (extract_ext _ _ _ _ Qa)|].
    intro data.
    assert (K1 : okay s (set_phase s0 p') (set_phase s0' p')) by fin.
    assert (V1 : held cfg e (set_phase s0 p')) by exact V0.
    set (t := set_phase s0 p') in *. set (t' := set_phase s0' p') in *. clearbody t t'.
    pose proof (okay_refl _ _ _ K1) as K2.
    assert (Rlib : rel (okay s) (run (s1, _) <- handle_lib cfg e false t (c_length c) data ; ret s1)
                                (run (s1, _) <- handle_lib cfg e' false t' (c_length c) data ; ret s1)).
    { eapply rel_bind; [apply lib_rel; eassumption|]. intros [a x] [a' x'] [Y _]. apply rel_ret.
      exact (okay_trans _ _ _ _ _ K1 Y). }
    assert (Out : forall A m, rel (okay s) (run _ <- (m : M A) ; ret t) (run _ <- m ; ret t')).
    { intros A m0. apply rel_same; [reflexivity|]. intros _. apply rel_ret. exact K1. }
    destruct (s_phase s0).
    + unfold handle_version. destruct (c_number c <? MIN_PROTOCOL_VERSION)%Z.
      * apply rel_same; [now rewrite (send_error_ext _ _ _ _ Qa)|]. intros _. apply rel_ret. fin.
      * apply Out.
    + destruct (cmd_id_eqb (c_id c) C_TOOLS); [apply Out|exact Rlib].
    + exact Rlib.
    + destruct (cmd_id_eqb (c_id c) C_FEATURE).
      { eapply rel_bind; [apply feature_rel; eassumption|]. intros [a x] [a' x'] [Y _]. apply rel_ret.
        exact (okay_trans _ _ _ _ _ K1 Y). }
      destruct (cmd_id_eqb (c_id c) C_RETURNFEATURE).
      { pose proof (returnfeature_rel e e' t t' data Q K2) as [Z1 Z2]. split; [exact Z1|].
        destruct (snd (handle_returnfeature e t data)), (snd (handle_returnfeature e' t' data)); try exact Z2.
        exact (okay_trans _ _ _ _ _ K1 Z2). }
      destruct (cmd_id_eqb (c_id c) C_LICENSE); [apply Out|].
      destruct (cmd_id_eqb (c_id c) C_RETURNLICENSE); [apply Out|].
      pose proof (file_rel e e' t t' (c_length c) data Q K2) as [Z1 Z2]. split; [exact Z1|].
      destruct (snd (handle_file e t _ data)), (snd (handle_file e' t' _ data)); try exact Z2.
      exact (okay_trans _ _ _ _ _ K1 Z2).
  - apply rel_same; [reflexivity|]. intro text.
    apply rel_same; [now rewrite (send_error_ext _ _ _ _ Qa)|]. intros _. apply rel_ret. fin.
Qed.

Lemma loop_rel {D D'} cfg : forall (ts : list (turn D)) (ts' : list (turn D')) s s',
  SameTurns SameButFiles ts ts' -> okay s s s' ->
  (s_approved s = false \/
   Forall (fun t => LicenceRefused cfg (t_env t) /\ forall p, e_cr_create (t_env t) p <> None) ts) ->
  rel (fun _ _ => True) (lve_loop cfg s ts) (lve_loop cfg s' ts').
Proof.
  induction ts as [|t ts IH]; intros ts' s s' F K V; inversion F as [|? t' ? ts0 (R & S' & Q) F']; subst.
  - apply rel_ret. exact I.
  - cbn [lve_loop]. rewrite <- R, <- S'. eapply rel_bind; [apply step_rel; [exact Q|exact K|]|].
    { destruct V as [V|V]; [now left|right]. now inversion V. }
    intros a a' Y. destruct (t_shutdown t); [apply rel_ret; exact I|].
    apply IH; [exact F'|exact (okay_refl _ _ _ Y)|].
    destruct V as [V|V]; [left; apply Y, V|right; now inversion V].
Qed.

Lemma validate_no (k : bytes) keys : ~ In k keys -> validate (Some k) keys = Ok false.
Proof.
  induction keys as [|x r IH]; [reflexivity|]. intro N. cbn. destruct (beq k x) eqn:E.
  - exfalso. apply N. left. symmetry. now apply beq_true.
  - apply IH. intro I. apply N. now right.
Qed.

Lemma unlisted_same {D D'} cfg k (ts : list (turn D)) (ts' : list (turn D')) :
  ~ In k (cfg_keys cfg) -> SameTurns SameButFiles ts ts' ->
  rel (fun _ _ => True) (session cfg (Some k) ts) (session cfg (Some k) ts').
Proof.
  intros N F. unfold session, validate_pubkey. rewrite (validate_no _ _ N).
  eapply rel_bind with (R := fun s s' => okay s s s' /\ s_approved s = false).
  - rewrite !mbind_lift_ok. apply rel_ret. fin.
  - intros s s' [K A]. apply loop_rel; auto.
Qed.

Lemma unlicensed_same {D D'} cfg key (ts : list (turn D)) (ts' : list (turn D')) :
  Forall (fun t => LicenceRefused cfg (t_env t) /\ forall p, e_cr_create (t_env t) p <> None) ts ->
  SameTurns SameButFiles ts ts' ->
  rel (fun _ _ => True) (session cfg key ts) (session cfg key ts').
Proof.
  intros V F. unfold session. eapply rel_bind with (R := fun s s' => okay s s s').
  - unfold validate_pubkey. apply rel_same; [reflexivity|]. intros []; apply rel_ret; fin; now right.
  - intros s s' K. apply loop_rel; auto.
Qed.

(** ** Licences taken for a tool that is not approved *)

Definition asked (r : bytes) (ev : event) : Prop :=
  match ev with Checkout f _ => NamesFeature r f | Recv _ => False | _ => True end.

Lemma reply_asked r o : tri (asked r) (fun _ => True) (reply o).
Proof. apply tri_reply; [|exact I]. intros. exact I. Qed.

Lemma setup_asked {D} (e : env D) s r : tri (asked r) (fun _ => True) (setup_licensing e s).
Proof.
  eapply tri_conseq; [apply setup_licensing_tri| |auto]. intros ev (p & b & ->). exact I.
Qed.

Lemma check_asked {D} (e : env D) s r : tri (asked r) (fun _ => True) (setup_check e s).
Proof.
  eapply tri_conseq; [apply setup_check_tri| |auto]. intros ev [(p & b & ->)|(m & -> & _)]; exact I.
Qed.

Lemma handle_feature_asked {D} (e : env D) s r data :
  (forall f, feature_name data = Ok f -> NamesFeature r f) ->
  tri (asked r) (fun _ => True) (handle_feature e false s data).
Proof.
  intro N. unfold handle_feature. eapply tri_bind; [apply check_asked|]. intros [s1 ok] _.
  destruct ok; [|apply tri_ret; exact I].
  eapply (tri_bind _ (NamesFeature r)); [apply tri_lift; exact N|]. intros name H.
  eapply (tri_bind _ (fun _ => True)); [apply tri_emit; [exact H|exact I]|]. intros _ _.
  destruct (e_checkout e name) as [|[m|]]; [| |apply tri_crash];
    (eapply tri_bind; [apply reply_asked|intros _ _; apply tri_ret; exact I]).
Qed.

Lemma handle_lib_asked {D} cfg (e : env D) s r len data : s_approved s = false ->
  tri (asked r) (fun _ => True) (handle_lib cfg e false s len data).
Proof.
  intro A. unfold handle_lib. destruct data as [p|]; [|apply tri_ret; exact I].
  destruct (len =? 0)%Z; [apply tri_ret; exact I|].
  destruct (negb _); [apply tri_crash|].
  eapply (tri_bind _ (fun _ => True)); [apply tri_lift; auto|]. intros raw _.
  destruct (e_cr_create e _); [|apply tri_ret; exact I].
  eapply (tri_bind _ (fun _ => True)).
  { unfold global_licence. cbn [s_approved set_cr set_lib]. rewrite A.
    destruct (cfg_global cfg); apply tri_ret; exact I. }
  intros [s3 go] _. destruct go; [|apply tri_ret; exact I].
  eapply tri_bind; [apply reply_asked|]. intros _ _. apply tri_ret; exact I.
Qed.

Lemma names_feature al r c d : ValidLine (cstr r) c -> c_id c = C_FEATURE ->
  (do (x, _) <- extract_data al (c_length c) r ; Ok x) = Ok d ->
  forall f, feature_name d = Ok f -> NamesFeature r f.
Proof.
  intros V I X f F. destruct d as [p|]; [|discriminate F]. apply payload_bytes_ok in F as [-> L].
  unfold extract_data in X. pose proof (strstr_nl_cases r) as K.
  destruct (strstr_nl r) as [i| |]; try discriminate X.
  destruct K as (h & d & H & <-). destruct (al _); [|discriminate X].
  pose proof H as (E & _). rewrite E, skipn_header in X.
  destruct (_ <? _)%Z; [discriminate X|]. cbn in X. injection X as <-. cbn in L |- *.
  exists c, h, d. split; [exact V|]. split; [exact I|]. split; [exact H|]. split; [reflexivity|].
  revert L. unfold zlen. rewrite firstn_length. lia.
Qed.

Lemma step_asked {D} cfg (e : env D) s r : s_approved s = false ->
  exists es o, lve_step cfg e s r = (Recv r :: es, o) /\ (forall ev, In ev es -> asked r ev) /\
    (forall s', o = Ok s' -> s_approved s' = false).
Proof.
  intro A. destruct (lve_step_tri cfg e s r) as (es & o & E & _ & Mv). exists es, o.
  split; [exact E|]. split.
  2:{ intros s' Es. destruct (Mv s' Es) as [| | |_ _ _ Ap _ _]; try congruence.
      destruct (s_approved s'); [|reflexivity]. specialize (Ap eq_refl). congruence. }
  clear Mv. unfold lve_step, emit in E. rewrite mbind_ok in E.
  set (m := if negb (e_alloc e (zlen r + 1)%Z) then _ else _) in E.
  assert (T : tri (asked r) (fun _ => True) m).
  { subst m. destruct (e_alloc e _); cbn [negb]; [|apply tri_crash].
    destruct (parse_command ERROR_SIZE (cstr r)) as [[g c] mm] eqn:X.
    assert (Out : forall (s0 : lve D) o, tri (asked r) (fun _ => True) (run _ <- reply o ; ret s0)).
    { intros. eapply tri_bind; [apply reply_asked|]. intros _ _. apply tri_ret. exact I. }
    destruct g; try apply Out.
    pose proof (valid_no_text _ _ _ _ X) as ->.
    assert (V : ValidLine (cstr r) c) by (apply (parse_valid_iff ERROR_SIZE); eauto).
    unfold handle_command. destruct (next_phase (s_phase s) (c_id c)) as [p'|] eqn:N.
    2:{ eapply (tri_bind _ (fun _ => True)); [apply tri_lift; auto|]. intros t _. apply Out. }
    unfold dispatch.
    eapply (tri_bind _ (fun d => c_id c = C_FEATURE -> forall f, feature_name d = Ok f -> NamesFeature r f)).
    { destruct (form_of (c_id c)) eqn:Fo; try (apply tri_ret; intros Ef; rewrite Ef in Fo; discriminate Fo).
      apply tri_lift. intros d Ed Ef. eapply names_feature; eassumption. }
    intros d Hd.
    assert (Lib : tri (asked r) (fun _ => True)
      (run (s1, _) <- handle_lib cfg e false (set_phase s p') (c_length c) d ; ret s1)).
    { eapply tri_bind; [apply handle_lib_asked; exact A|]. intros [s1 ok] _. apply tri_ret. exact I. }
    destruct (s_phase s).
    - unfold handle_version. destruct (_ <? _)%Z.
      + eapply tri_bind; [apply reply_asked|]. intros _ _. apply tri_ret. exact I.
      + apply Out.
    - destruct (cmd_id_eqb (c_id c) C_TOOLS); [apply Out|exact Lib].
    - exact Lib.
    - destruct (cmd_id_eqb (c_id c) C_FEATURE) eqn:Ef.
      { apply cmd_id_eqb_spec in Ef. eapply tri_bind; [apply handle_feature_asked; auto|].
        intros [s1 ok] _. apply tri_ret. exact I. }
      destruct (cmd_id_eqb (c_id c) C_RETURNFEATURE).
      { eapply tri_conseq; [apply handle_returnfeature_tri| |auto].
        intros ev [(p & b & ->)|[(f & b & ->)|(m & -> & _)]]; exact I. }
      destruct (cmd_id_eqb (c_id c) C_LICENSE); [apply Out|].
      destruct (cmd_id_eqb (c_id c) C_RETURNLICENSE); [apply Out|].
      unfold handle_file. cbn [s_approved set_phase]. rewrite A. cbn [negb s_errmsg set_phase].
      destruct (s_errmsg s); [apply Out|apply tri_ret; exact I]. }
  injection E as <- _. exact (proj1 T).
Qed.

Lemma unlisted_checkout {D} cfg k (ts : list (turn D)) es o a f ok b :
  ~ In k (cfg_keys cfg) -> session cfg (Some k) ts = (es, o) -> es = a ++ Checkout f ok :: b ->
  exists a' r mid, a = a' ++ Recv r :: mid /\ (forall x, ~ In (Recv x) mid) /\ NamesFeature r f.
Proof.
  intros N E. revert a f ok b.
  assert (K : forall a ev b, es = a ++ ev :: b -> forall f ok, ev = Checkout f ok ->
     exists a' r mid, a = a' ++ Recv r :: mid /\ (forall x, ~ In (Recv x) mid) /\ NamesFeature r f).
  2:{ intros. eapply K; eauto. }
  eapply (session_invariant cfg (Some k) (fun _ => True) (fun _ s => s_approved s = false)
    (fun a ev => forall f ok, ev = Checkout f ok ->
       exists a' r mid, a = a' ++ Recv r :: mid /\ (forall x, ~ In (Recv x) mid) /\ NamesFeature r f));
    [| |apply Forall_forall; auto|exact E].
  - intros b V. rewrite (validate_no _ _ N) in V. injection V as <-. reflexivity.
  - intros pre s t _ A. destruct (step_asked cfg (t_env t) s (t_record t) A) as (es1 & o1 & E1 & H1 & H2).
    rewrite E1. cbn [fst snd]. split; [|intros s' Es; apply H2, Es].
    intros a ev b Ea f ok ->. destruct a as [|x a]; [discriminate Ea|]. injection Ea as <- Ea. subst es1.
    exists pre, (t_record t), a. split; [reflexivity|]. split.
    + intros x Ix. apply (H1 (Recv x)). apply in_or_app. now left.
    + apply (H1 (Checkout f ok)). apply in_or_app. right. now left.
Qed.
