(** C46, C51: error objects. *)
From Verif Require Import Base ErrorModel ErrorSpec ErrorProofs.

(** A formatted message is kept up to 2047 characters, with domain and code and no cause. *)
Theorem C46_formatted_message : forall h d c t, exists h' a l,
  error_new true true h d c t = (h', Some a) /\ Chain h' (Some a) l /\ NoDup l /\
  get_domain h' (Some a) = Ok d /\ get_code h' (Some a) = Ok c /\ get_cause h' (Some a) = Ok None /\
  Text h' (Some a) (firstn 2047 t).
Proof. exact error_new_ok. Qed.
Print Assumptions C46_formatted_message.

(** A literal message is kept entirely. *)
Theorem C46_literal_message : forall h d c t, exists h' a l,
  error_new_literal true true h d c (Some t) = (h', Some a) /\ Chain h' (Some a) l /\ NoDup l /\
  get_domain h' (Some a) = Ok d /\ get_code h' (Some a) = Ok c /\ get_cause h' (Some a) = Ok None /\
  Text h' (Some a) t.
Proof. exact error_literal_ok. Qed.
Print Assumptions C46_literal_message.

(** Freeing a variable releases every block of its chain (releasing a block twice would
    be undefined), touches no other block and no other variable, and clears the variable. *)
Theorem C46_freed_once : forall h v i l, Chain h (v i) l -> NoDup l ->
  exists h' v', exec h v (Free i) = Ok (h', v') /\
    (forall x, In x l -> lookup h' x = None) /\ (forall x, ~ In x l -> lookup h' x = lookup h x) /\
    v' i = None /\ (forall j, j <> i -> v' j = v j).
Proof.
  intros h v i l C ND. destruct (free_exact h (v i) l C ND) as (h' & E & F1 & F2).
  exists h', (assign v i None). cbn [exec]. rewrite E. cbn [bind]. split; [reflexivity|].
  split; [exact F1|]. split; [exact F2|]. unfold assign. rewrite Nat.eqb_refl. split; [reflexivity|].
  intros j N. destruct (Nat.eqb_spec j i); [contradiction|reflexivity].
Qed.
Print Assumptions C46_freed_once.

(** An object with a cause that has a message, next to an unrelated string. *)
Definition two_errors : heap :=
  [(1, EBlock {| eb_domain := 1; eb_code := 2; eb_cause := Some 3; eb_message := Some 2 |}); (2, SBlock (B "outer"));
   (3, EBlock {| eb_domain := 1; eb_code := 3; eb_cause := None; eb_message := Some 4 |}); (4, SBlock (B "inner"));
   (5, SBlock (B "other"))].
Example C46_chain_ex : Chain two_errors (Some 1) [1; 2; 3; 4].
Proof.
  apply (Chain_object two_errors 1 {| eb_domain := 1; eb_code := 2; eb_cause := Some 3; eb_message := Some 2 |} [2] [3; 4]);
    [reflexivity|split; [reflexivity|eexists; reflexivity]|].
  apply (Chain_object two_errors 3 {| eb_domain := 1; eb_code := 3; eb_cause := None; eb_message := Some 4 |} [4] []);
    [reflexivity|split; [reflexivity|eexists; reflexivity]|constructor].
Qed.
Example C46_free_ex : free_error two_errors (Some 1) = Ok [(5, SBlock (B "other"))].
Proof. reflexivity. Qed.
(** A chain that leads back to itself is not freed properly: the hypothesis is needed. *)
Example C46_cycle_ex :
  free_error [(1, EBlock {| eb_domain := 1; eb_code := 2; eb_cause := Some 1; eb_message := None |})] (Some 1) = Blocked.
Proof. reflexivity. Qed.

(** C51: whatever a program does with its error variables, and whichever allocations
    fail, no call is undefined or endless; and if it never puts an error into a variable
    that still holds one, then nothing is left allocated once all its variables are empty. *)
Theorem C51_no_leak_partial : forall os, exists h v, exec_all [] no_vars os = Ok (h, v) /\
  (CarefulAll [] no_vars os -> (forall i, v i = None) -> h = []).
Proof. exact programs_safe. Qed.
Print Assumptions C51_no_leak_partial.

(** Setting a variable that still holds an error drops the old one: memory is lost. *)
Theorem C51_overwrite_refuted : forall d c t d' c' t',
  exists h v, exec_all [] no_vars [Set_ (Some 0) true true d c t; Set_ (Some 0) true true d' c' t'; Free 0] = Ok (h, v) /\
    (forall i, v i = None) /\ h <> [].
Proof.
  intros d c t d' c' t'. eexists. eexists. split; [cbn; reflexivity|]. split; [|discriminate].
  intros i. unfold assign, no_vars. destruct i; reflexivity.
Qed.
Print Assumptions C51_overwrite_refuted.

(** What a variable holds is handed over by propagate: the destination reports the same
    object, or it is released if there is no destination. *)
Theorem C51_handed_over : forall h v d s, d <> s ->
  exists h' v', exec h v (Propagate (Some d) s) = Ok (h', v') /\ h' = h /\ v' d = v s /\ v' s = None /\
    (forall j, j <> d -> j <> s -> v' j = v j).
Proof.
  intros h v d s N. cbn [exec]. destruct (Nat.eqb_spec d s); [contradiction|].
  eexists. eexists. split; [reflexivity|]. split; [reflexivity|]. unfold assign.
  rewrite !Nat.eqb_refl. destruct (Nat.eqb_spec d s); [contradiction|].
  split; [reflexivity|]. split; [reflexivity|]. intros j H1 H2.
  destruct (Nat.eqb_spec j s); [contradiction|]. destruct (Nat.eqb_spec j d); [contradiction|]. reflexivity.
Qed.
Print Assumptions C51_handed_over.

Definition tidy : list op :=
  [Set_ (Some 0) true true 1 2 (B "first"); Propagate (Some 1) 0; SetLiteral (Some 0) true true 1 3 (Some (B "second"));
   SetLiteral (Some 2) false true 1 3 (Some (B "lost")); Propagate None 0; Free 1; Free 1].
Example C51_ex : (forall h v, exec_all [] no_vars tidy = Ok (h, v) -> h = [] /\ forall i, v i = None) /\
                 CarefulAll [] no_vars tidy.
Proof.
  split.
  - intros h v E. cbn in E. injection E as <- <-. split; [reflexivity|]. intros i.
    unfold assign, no_vars. destruct i as [|[|[|i]]]; reflexivity.
  - cbn. repeat (split; [first [exact I|reflexivity|right; reflexivity]|]; intros ? ? E; injection E as <- <-; cbn).
    exact I.
Qed.
