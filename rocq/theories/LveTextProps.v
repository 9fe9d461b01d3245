(** The text of a refusal names what the tool did wrong and what it could have sent. *)
From Verif Require Import Base BaseProofs ParseModel ParseSpec ParseProofs WireModel WireSpec
  LveModel LveSpec LveProofs LveSteps LveHist LveThms LveProps.

(** ** Specification *)

(** Words with ", " between them. *)
Fixpoint commas (ws : list bytes) : bytes :=
  match ws with
  | [] => []
  | [w] => w
  | w :: r => w ++ B ", " ++ commas r
  end.

(** [cmds] are the commands allowed at this point, each once. *)
Definition ExactlyAllowed (p : phase) (cmds : list cmd_id) : Prop :=
  NoDup cmds /\ forall c, In c cmds <-> Allowed p c.

(** The explanation for command [c] at point [p] of a session. *)
Inductive Explanation (p : phase) (c : cmd_id) : bytes -> Prop :=
| X_never : (forall q, ~ Allowed q c) ->
    Explanation p c (B "Protocol error: Command " ++ cmd_name c ++
                     B " can't be sent to the library vendor executable.")
| X_one q a : Allowed q c -> ExactlyAllowed p [a] ->
    Explanation p c (B "Protocol error: Command " ++ cmd_name c ++
                     B " is not valid in this state, expected command " ++ cmd_name a ++ B ".")
| X_more q a b cmds : Allowed q c -> ExactlyAllowed p (a :: b :: cmds) ->
    Explanation p c (B "Protocol error: Command " ++ cmd_name c ++
                     B " is not valid in this state, expected command is one of " ++
                     commas (map cmd_name (a :: b :: cmds)) ++ B ".").

(** ** Proof *)

Definition allowed_list (p : phase) : list cmd_id :=
  match p with
  | P_VERSION => [C_VERSION]
  | P_TOOLS => [C_TOOLS; C_LIB]
  | P_LIB => [C_LIB]
  | P_LICENSE => [C_FEATURE; C_FILE; C_LICENSE; C_RETURNFEATURE; C_RETURNLICENSE]
  end.

Lemma allowed_list_exact p : ExactlyAllowed p (allowed_list p).
Proof.
  split.
  - destruct p; cbn; repeat (constructor; [cbn; intuition discriminate|]); constructor.
  - intros c. split.
    + destruct p; cbn; intuition subst; try constructor; try contradiction.
    + intros A. destruct A; cbn; auto 10.
Qed.

Lemma invalid_text_explains p c t :
  invalid_text ERROR_SIZE p c = Ok t -> c <> C_UNDEFINED -> Explanation p c t.
Proof.
  intros E U. pose proof (allowed_list_exact p) as X.
  pose (never := X_never p c). pose (one := fun q a => X_one p c q a).
  pose (more := fun q a b cmds => X_more p c q a b cmds).
  destruct c; try (now destruct U); destruct p; vm_compute in E, never, one, more; injection E as <-;
    first
    [ apply never; intros q A; now inversion A
    | unshelve eapply (one _ _ _ X); [..|constructor]
    | unshelve eapply (more _ _ _ _ _ X); [..|constructor] ].
Qed.

Lemma refusal_explained D cfg (e : env D) s r c :
  AllocOk e -> ValidLine (cstr r) c -> ~ Allowed (s_phase s) (c_id c) ->
  exists text s', lve_step cfg e s r = ([Recv r; Reply (error_message 1 text)], Ok s') /\
    SameSession s s' /\ Explanation (s_phase s) (c_id c) text.
Proof.
  intros A V N.
  destruct (invalid_text_ok (s_phase s) (c_id c) (valid_not_undefined _ _ V)) as (t & E & L).
  exists t, (set_buf s t). split; [|split].
  - rewrite (lve_step_valid cfg e s r c V (A _)). unfold handle_command.
    apply next_phase_none in N. rewrite N, E, mbind_lift_ok.
    rewrite send_error_ok; [reflexivity|apply A|unfold ERR_NOT_UNDERSTOOD; lia|].
    unfold zlen. lia.
  - repeat split.
  - apply invalid_text_explains; [exact E|exact (valid_not_undefined _ _ V)].
Qed.

(** ** C52 *)

(** A well-formed command that comes at the wrong time is refused with a text that
    names this command and lists exactly the commands that are allowed now, or that
    says that this command is never allowed. *)
Theorem C52_refusal_names_alternatives : forall D cfg (e : env D) s r c,
  AllocOk e -> ValidLine (cstr r) c -> ~ Allowed (s_phase s) (c_id c) ->
  exists text s', lve_step cfg e s r = ([Recv r; Reply (error_message 1 text)], Ok s') /\
    SameSession s s' /\ Explanation (s_phase s) (c_id c) text.
Proof. exact refusal_explained. Qed.
Print Assumptions C52_refusal_names_alternatives.

(** A second VERSION after LIB. *)
Example C52_ex : exists s', lve_step vendor world served version_record =
  ([Recv version_record; Reply (error_message 1
     (B "Protocol error: Command VERSION is not valid in this state, expected command is one of FEATURE, FILE, LICENSE, RETURNFEATURE, RETURNLICENSE."))], Ok s').
Proof. eexists. vm_compute. reflexivity. Qed.
