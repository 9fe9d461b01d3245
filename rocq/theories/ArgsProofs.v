(** Proofs about the command line of the packaging tool. *)
From Verif Require Import Base BaseProofs ArgsModel ArgsSpec.

(** ** Slots *)

Definition packed (o : list (bytes * bytes)) : slots := o ++ repeat ([], []) (MAX_ARGUMENTS - length o).
Definition Distinct (o : list (bytes * bytes)) : Prop := NoDup (map fst o) /\ Forall (fun kv => KnownOption (fst kv)) o.

Lemma lookup_in_In l a : lookup_in l a = true <-> In a l.
Proof.
  induction l as [|x l IH]; cbn; [split; [discriminate|tauto]|]. destruct (beq_spec a x) as [->|N]; [tauto|].
  rewrite IH. split; [tauto|]. intros [H|H]; [congruence|exact H].
Qed.
Lemma valid_known a : lookup_argument a = true <-> KnownOption a.
Proof.
  unfold lookup_argument. rewrite lookup_in_In. unfold KnownOption, valid_arguments. cbn [In]. tauto.
Qed.
Lemma known_nonempty k : KnownOption k -> k <> [].
Proof. intros K ->. unfold KnownOption in K. cbn [In] in K. repeat destruct K as [K|K]; try discriminate K. exact K. Qed.

Lemma distinct_room o k : Distinct o -> KnownOption k -> ~ In k (map fst o) -> length o < MAX_ARGUMENTS.
Proof.
  intros [N F] K I. assert (N' : NoDup (k :: map fst o)) by (now constructor).
  assert (H : incl (k :: map fst o) valid_arguments).
  { intros x [<-|Hx]; [now apply lookup_in_In, valid_known|]. apply in_map_iff in Hx. destruct Hx as (kv & <- & Hkv).
    rewrite Forall_forall in F. apply lookup_in_In, valid_known. now apply F. }
  pose proof (NoDup_incl_length N' H) as L. cbn [length] in L. rewrite map_length in L.
  change (length valid_arguments) with 14 in L. unfold MAX_ARGUMENTS. lia.
Qed.

Lemma value_of_app a b key : value_of (a ++ b) key = match value_of a key with Some v => Some v | None => value_of b key end.
Proof. induction a as [|[k v] a IH]; cbn; [reflexivity|]. destruct (beq k key); [reflexivity|exact IH]. Qed.
Lemma value_of_blank n key : key <> [] -> value_of (repeat ([], []) n) key = None.
Proof.
  intros H. induction n as [|n IH]; [reflexivity|]. cbn [repeat value_of]. destruct (beq_spec [] key) as [E|_]; [congruence|exact IH].
Qed.
Lemma value_packed o key : key <> [] -> value_of (packed o) key = value_of o key.
Proof. intros H. unfold packed. rewrite value_of_app, value_of_blank by exact H. now destruct (value_of o key). Qed.
Lemma contains_value t key : contains_key t key = match value_of t key with Some _ => true | None => false end.
Proof. induction t as [|[k v] t IH]; cbn; [reflexivity|]. destruct (beq k key); [reflexivity|exact IH]. Qed.
Lemma value_none o key : value_of o key = None <-> ~ In key (map fst o).
Proof.
  induction o as [|[k v] o IH]; cbn; [tauto|]. destruct (beq_spec k key) as [->|N].
  - split; [discriminate|]. intros H. exfalso. apply H. now left.
  - rewrite IH. split; [intros H [E|I]; tauto|tauto].
Qed.
Lemma value_in o key v : value_of o key = Some v -> In (key, v) o.
Proof.
  induction o as [|[k w] o IH]; cbn; [discriminate|]. destruct (beq_spec k key) as [->|N]; [|now right; apply IH].
  intros E. injection E as ->. now left.
Qed.
Lemma in_value o key v : NoDup (map fst o) -> In (key, v) o -> value_of o key = Some v.
Proof.
  induction o as [|[k w] o IH]; cbn [map fst In value_of]; intros N I; [contradiction|]. inversion N as [|? ? N1 N2]; subst.
  destruct I as [E|I].
  - injection E as -> ->. now rewrite beq_refl.
  - destruct (beq_spec k key) as [->|_]; [|now apply IH]. exfalso. apply N1. now apply (in_map fst) in I.
Qed.

Lemma add_app a b k v : Forall (fun kv : bytes * bytes => fst kv <> []) a -> add_argument (a ++ b) k v = a ++ add_argument b k v.
Proof.
  induction 1 as [|[k' v'] a H F IH]; [reflexivity|]. cbn [app add_argument]. cbn [fst] in H.
  destruct (beq_spec k' []) as [E|_]; [congruence|]. now rewrite IH.
Qed.
Lemma add_packed o k v : Distinct o -> length o < MAX_ARGUMENTS -> add_argument (packed o) k v = packed (o ++ [(k, v)]).
Proof.
  intros [_ F] L. unfold packed. rewrite add_app.
  - rewrite app_length. cbn [length]. replace (MAX_ARGUMENTS - length o) with (S (MAX_ARGUMENTS - (length o + 1))) by lia.
    cbn [repeat add_argument beq]. now rewrite <- app_assoc.
  - eapply Forall_impl; [|exact F]. intros kv. apply known_nonempty.
Qed.
Lemma distinct_snoc o k v : Distinct o -> KnownOption k -> ~ In k (map fst o) -> Distinct (o ++ [(k, v)]).
Proof.
  intros [N F] K I. split.
  - rewrite map_app. cbn [map fst]. apply NoDup_rev in N. rewrite <- (rev_involutive (map fst o ++ [k])). apply NoDup_rev.
    rewrite rev_app_distr. cbn [rev app]. constructor; [|exact N]. now rewrite <- in_rev.
  - apply Forall_app. split; [exact F|]. apply Forall_cons; [exact K|apply Forall_nil].
Qed.

(** ** The loop *)

Lemma loop_sound : forall n args o t, length args <= n -> Distinct o -> validate_loop (packed o) args = Ok (Some t) ->
  exists o', CommandLine AnyByte args o' /\ t = packed (o ++ o') /\ Distinct (o ++ o').
Proof.
  induction n as [|n IH]; intros args o t L D E.
  - destruct args; [|cbn in L; lia]. injection E as <-. exists []. rewrite app_nil_r. split; [constructor|]. split; [reflexivity|exact D].
  - destruct args as [|[|c k] r].
    + injection E as <-. exists []. rewrite app_nil_r. split; [constructor|]. split; [reflexivity|exact D].
    + discriminate.
    + cbn [validate_loop] in E. destruct (negb (beq k []) && lookup_argument k) eqn:V; [|discriminate].
      apply andb_prop in V. destruct V as [_ V]. apply valid_known in V.
      rewrite contains_value, value_packed in E by now apply known_nonempty.
      destruct (value_of o k) eqn:W; [discriminate|]. rewrite value_none in W.
      destruct r as [|v r]; [discriminate|]. destruct (beq_spec v []) as [|Nv]; [discriminate|].
      rewrite add_packed in E; [|exact D|eapply distinct_room; eassumption].
      apply IH in E; [|cbn in L; lia|now apply distinct_snoc]. destruct E as (o' & C & -> & D').
      rewrite <- app_assoc in *. cbn [app] in *. exists ((k, v) :: o'). split; [|split; [reflexivity|exact D']].
      constructor; try assumption; [exact I|]. destruct D' as [N _]. rewrite map_app in N. cbn [map fst] in N.
      apply NoDup_remove_2 in N. intros Hk. apply N. apply in_or_app. now right.
Qed.
Lemma loop_complete P args o' : CommandLine P args o' -> forall o, Distinct (o ++ o') ->
  validate_loop (packed o) args = Ok (Some (packed (o ++ o'))).
Proof.
  induction 1 as [|c k v l o' Pc K V I C IH]; intros o D.
  - now rewrite app_nil_r.
  - cbn [validate_loop]. assert (Dk : Distinct o /\ ~ In k (map fst o)).
    { destruct D as [N F]. rewrite map_app in N. cbn [map fst] in N. apply Forall_app in F. destruct F as [F _].
      pose proof (NoDup_remove_2 _ _ _ N) as N2. apply NoDup_remove_1 in N. split; [|intros H; apply N2, in_or_app; now left].
      split; [|exact F]. clear - N. induction (map fst o) as [|x l IH]; [constructor|]. cbn in N. inversion N; subst.
      constructor; [|now apply IH]. intros H. now apply H1, in_or_app; left. }
    destruct Dk as [Do Ik].
    destruct (beq_spec k []) as [E|_]; [now apply known_nonempty in K|]. rewrite (proj2 (valid_known k) K). cbn [negb andb].
    rewrite contains_value, value_packed by now apply known_nonempty. rewrite (proj2 (value_none o k) Ik).
    destruct (beq_spec v []) as [E|_]; [congruence|].
    rewrite add_packed; [|exact Do|eapply distinct_room; eassumption].
    rewrite IH; rewrite <- app_assoc; [reflexivity|]. exact D.
Qed.
Lemma command_distinct P args o : CommandLine P args o -> Distinct o.
Proof.
  induction 1 as [|c k v l o Pc K V I C [N F]]; [split; constructor|]. split; cbn [map fst]; constructor; assumption.
Qed.
Lemma distinct_nil : Distinct [].
Proof. split; constructor. Qed.

Lemma validate_arguments_ok args t : validate_arguments args = Ok (Some t) <-> exists o, CommandLine AnyByte args o /\ t = packed o.
Proof.
  change (validate_arguments args) with (validate_loop (packed []) args). split.
  - intros E. apply (loop_sound (length args)) in E; [|lia|exact distinct_nil]. destruct E as (o & C & Et & _). now exists o.
  - intros (o & C & ->). apply (loop_complete _ _ _ C []). now apply command_distinct in C.
Qed.
Lemma command_fun P Q args o1 o2 : CommandLine P args o1 -> CommandLine Q args o2 -> o1 = o2.
Proof.
  intros C. revert o2. induction C as [|c k v l o Pc K V I C IH]; intros o2 C2; inversion C2; subst; [reflexivity|].
  f_equal. now apply IH.
Qed.

(** Undefined behaviour exactly when an empty string stands where an option is expected. *)
Lemma loop_ub : forall n args o r, length args <= n -> Distinct o -> validate_loop (packed o) args = UB r ->
  exists pre post o', args = pre ++ [] :: post /\ CommandLine AnyByte pre o' /\ Distinct (o ++ o').
Proof.
  induction n as [|n IH]; intros args o r L D E.
  - destruct args; [discriminate|cbn in L; lia].
  - destruct args as [|[|c k] rest].
    + discriminate.
    + exists [], rest, []. rewrite app_nil_r. split; [reflexivity|]. split; [constructor|exact D].
    + cbn [validate_loop] in E. destruct (negb (beq k []) && lookup_argument k) eqn:V; [|discriminate].
      apply andb_prop in V. destruct V as [_ V]. apply valid_known in V.
      rewrite contains_value, value_packed in E by now apply known_nonempty.
      destruct (value_of o k) eqn:W; [discriminate|]. rewrite value_none in W.
      destruct rest as [|v rest]; [discriminate|]. destruct (beq_spec v []) as [|Nv]; [discriminate|].
      rewrite add_packed in E; [|exact D|eapply distinct_room; eassumption].
      apply IH in E; [|cbn in L; lia|now apply distinct_snoc]. destruct E as (pre & post & o' & -> & C & D').
      rewrite <- app_assoc in *. cbn [app] in *. exists ((c :: k) :: v :: pre), post, ((k, v) :: o').
      split; [reflexivity|]. split; [|exact D'].
      constructor; try assumption; [exact I|]. destruct D' as [N _]. rewrite map_app in N. cbn [map fst] in N.
      apply NoDup_remove_2 in N. intros Hk. apply N. apply in_or_app. now right.
Qed.
Lemma loop_app P pre o' : CommandLine P pre o' -> forall o rest, Distinct (o ++ o') ->
  validate_loop (packed o) (pre ++ rest) = validate_loop (packed (o ++ o')) rest.
Proof.
  induction 1 as [|c k v l o' Pc K V I C IH]; intros o rest D.
  - now rewrite app_nil_r.
  - cbn [app validate_loop]. assert (Dk : Distinct o /\ ~ In k (map fst o)).
    { destruct D as [N F]. rewrite map_app in N. cbn [map fst] in N. apply Forall_app in F. destruct F as [F _].
      pose proof (NoDup_remove_2 _ _ _ N) as N2. apply NoDup_remove_1 in N. split; [|intros H; apply N2, in_or_app; now left].
      split; [|exact F]. clear - N. induction (map fst o) as [|x l IH]; [constructor|]. cbn in N. inversion N; subst.
      constructor; [|now apply IH]. intros H. now apply H1, in_or_app; left. }
    destruct Dk as [Do Ik].
    destruct (beq_spec k []) as [E|_]; [now apply known_nonempty in K|]. rewrite (proj2 (valid_known k) K). cbn [negb andb].
    rewrite contains_value, value_packed by now apply known_nonempty. rewrite (proj2 (value_none o k) Ik).
    destruct (beq_spec v []) as [E|_]; [congruence|].
    rewrite add_packed; [|exact Do|eapply distinct_room; eassumption].
    rewrite IH; rewrite <- app_assoc; [reflexivity|]. exact D.
Qed.
Lemma loop_not_blocked : forall n args t, length args <= n -> validate_loop t args <> Blocked.
Proof.
  induction n as [|n IH]; intros args t L; (destruct args as [|[|c k] r]; [discriminate|discriminate|]); [cbn in L; lia|].
  cbn [validate_loop]. destruct (_ && _); [|discriminate]. destruct (contains_key t k); [discriminate|].
  destruct r as [|v r]; [discriminate|]. destruct (beq v []); [discriminate|]. apply IH. cbn in L. lia.
Qed.
Lemma validate_arguments_ub args : (exists r, validate_arguments args = UB r) <->
  exists pre post o, args = pre ++ [] :: post /\ CommandLine AnyByte pre o.
Proof.
  change (validate_arguments args) with (validate_loop (packed []) args). split.
  - intros [r E]. apply (loop_ub (length args)) in E; [|lia|exact distinct_nil].
    destruct E as (pre & post & o & E & C & _). now exists pre, post, o.
  - intros (pre & post & o & -> & C). exists OobRead. rewrite (loop_app _ _ _ C []); [reflexivity|]. now apply command_distinct in C.
Qed.

(** ** Trimming *)

Lemma trim_rev_spec r : r <> [] -> exists tail, r = rev tail ++ trim_rev r /\ Forall (fun c => c = SLASH \/ c = BSLASH) tail /\
  ((exists c q, trim_rev r = c :: q /\ c <> SLASH /\ c <> BSLASH) \/ length (trim_rev r) = 1).
Proof.
  induction r as [|c r IH]; [congruence|]. intros _. destruct r as [|d r].
  - exists []. split; [reflexivity|]. split; [constructor|]. now right.
  - cbn [trim_rev]. destruct (Ascii.eqb_spec c BSLASH) as [Hb|Nb]; [|destruct (Ascii.eqb_spec c SLASH) as [Hs|Ns]]; cbn [orb].
    + destruct (IH ltac:(discriminate)) as (tail & E & F & H). exists (tail ++ [c]). rewrite rev_app_distr. cbn [rev app].
      split; [now f_equal|]. split; [|exact H]. apply Forall_app. split; [exact F|]. apply Forall_cons; [now right|apply Forall_nil].
    + destruct (IH ltac:(discriminate)) as (tail & E & F & H). exists (tail ++ [c]). rewrite rev_app_distr. cbn [rev app].
      split; [now f_equal|]. split; [|exact H]. apply Forall_app. split; [exact F|]. apply Forall_cons; [now left|apply Forall_nil].
    + exists []. split; [reflexivity|]. split; [constructor|]. left. now exists c, (d :: r).
Qed.
Lemma trim_path_spec p : p <> [] -> Trimmed p (trim_path p).
Proof.
  intros N. assert (Nr : rev p <> []) by (intros E; apply N; rewrite <- (rev_involutive p), E; reflexivity).
  destruct (trim_rev_spec (rev p) Nr) as (tail & E & F & H). exists tail. unfold trim_path. split.
  - rewrite <- (rev_involutive p) at 1. rewrite E at 1. rewrite rev_app_distr, rev_involutive. reflexivity.
  - split; [exact F|]. destruct H as [(c & q & E' & N1 & N2)|H].
    + left. exists (rev q), c. rewrite E'. cbn [rev]. now split.
    + right. now rewrite rev_length.
Qed.
(** There is only one way to trim. *)
Lemma trimmed_shorter p p1 p2 : Trimmed p p1 -> Trimmed p p2 -> length p1 <= length p2.
Proof.
  intros (t1 & E1 & F1 & H1) (t2 & E2 & F2 & H2).
  destruct (le_lt_dec (length p1) (length p2)) as [|L]; [assumption|exfalso].
  assert (Ls : 1 <= length p2).
  { destruct H2 as [(q & c & -> & _)|H2]; [|lia]. rewrite app_length. cbn. lia. }
  destruct H1 as [(q & c & -> & N1 & N2)|H1]; [|lia].
  rewrite E1 in E2. rewrite app_length in L. cbn [length] in L.
  assert (Hc : In c t2).
  { clear - E2 L. assert (X : nth_error ((q ++ [c]) ++ t1) (length q) = Some c).
    { rewrite <- app_assoc. rewrite nth_error_app2 by lia. now rewrite Nat.sub_diag. }
    rewrite E2 in X. rewrite nth_error_app2 in X by lia. now apply nth_error_In in X. }
  rewrite Forall_forall in F2. destruct (F2 c Hc); congruence.
Qed.
Lemma trimmed_fun p p1 p2 : Trimmed p p1 -> Trimmed p p2 -> p1 = p2.
Proof.
  intros T1 T2. pose proof (trimmed_shorter _ _ _ T1 T2). pose proof (trimmed_shorter _ _ _ T2 T1).
  destruct T1 as (t1 & E1 & _), T2 as (t2 & E2 & _). rewrite E1 in E2.
  apply (f_equal (firstn (length p1))) in E2. rewrite firstn_app_exact in E2.
  replace (length p1) with (length p2) in E2 by lia. now rewrite firstn_app_exact in E2.
Qed.
Lemma trimmed_nonempty p p' : Trimmed p p' -> p <> [] /\ p' <> [].
Proof.
  intros (t & -> & _ & [(q & c & -> & _)|H]).
  - split; intros E; apply (f_equal (@length _)) in E; rewrite ?app_length in E; cbn in E; lia.
  - destruct p' as [|x p']; [discriminate|]. split; discriminate.
Qed.

(** ** Changing a value *)

Lemma set_value_same t k v w : value_of t k = Some w -> value_of (set_value t k v) k = Some v.
Proof.
  induction t as [|[k' v'] t IH]; cbn; [discriminate|]. destruct (beq k' k) eqn:E; cbn; rewrite E; [reflexivity|exact IH].
Qed.
Lemma set_value_other t k k' v : k <> k' -> value_of (set_value t k v) k' = value_of t k'.
Proof.
  intros N. induction t as [|[k2 v2] t IH]; cbn; [reflexivity|]. destruct (beq_spec k2 k) as [->|N2]; cbn.
  - destruct (beq_spec k k'); [congruence|reflexivity].
  - destruct (beq k2 k'); [reflexivity|exact IH].
Qed.
Lemma value_set t k k' v : value_of (set_value t k v) k' =
  if beq k k' then match value_of t k with Some _ => Some v | None => None end else value_of t k'.
Proof.
  destruct (beq_spec k k') as [<-|N]; [|now apply set_value_other].
  induction t as [|[k2 v2] t IH]; cbn; [reflexivity|]. destruct (beq k2 k) eqn:E; cbn; rewrite E; [reflexivity|exact IH].
Qed.

(** ** The whole validation *)

Lemma known_lib : KnownOption (B "librarypath"). Proof. unfold KnownOption. cbn [In]. tauto. Qed.
Lemma known_version : KnownOption (B "version"). Proof. unfold KnownOption. cbn [In]. tauto. Qed.
Lemma known_language : KnownOption (B "language"). Proof. unfold KnownOption. cbn [In]. tauto. Qed.
Lemma known_encrypt : KnownOption (B "encrypt"). Proof. unfold KnownOption. cbn [In]. tauto. Qed.
Lemma known_file k : In k [B "tools"; B "dependencies"; B "icon"] -> KnownOption k.
Proof. unfold KnownOption. cbn [In]. intros H. repeat destruct H as [<-|H]; try contradiction; tauto. Qed.
Lemma in_fst {A C} (k : A) (o : list (A * C)) : In k (map fst o) <-> exists v, In (k, v) o.
Proof.
  split.
  - intros H. apply in_map_iff in H. destruct H as ([k' v] & <- & H). now exists v.
  - intros [v H]. now apply (in_map fst) in H.
Qed.
Lemma value_command P args o k v : CommandLine P args o -> (value_of o k = Some v <-> In (k, v) o).
Proof.
  intros C. apply command_distinct in C. destruct C as [N _]. split; [apply value_in|now apply in_value].
Qed.

Definition file_ok (st : stats) (o : list (bytes * bytes)) (k : bytes) : Prop := forall v, In (k, v) o -> st v <> None.
Lemma validate_file_ok st t o k : (value_of t k = value_of o k) -> NoDup (map fst o) ->
  (validate_file st t k = true <-> file_ok st o k).
Proof.
  intros E N. unfold validate_file, file_ok, file_exists. rewrite E. destruct (value_of o k) as [v|] eqn:V.
  - apply value_in in V. split.
    + intros H w W. assert (w = v) as ->. { apply in_value in V, W; try assumption. congruence. } now destruct (st v).
    + intros H. specialize (H v V). destruct (st v); [reflexivity|congruence].
  - apply value_none in V. split; [|reflexivity]. intros _ w W. exfalso. apply V. apply in_fst. now exists w.
Qed.

(** The table after the checks. *)
Lemma validate_spec st lves args t : validate st lves args = Ok (Some t) <->
  exists o p, CommandLine AnyByte args o /\ Acceptable st lves o /\ In (B "librarypath", p) o /\
    t = (let t1 := set_value (packed o) (B "librarypath") (trim_path p) in
         match value_of o (B "encrypt") with Some v => set_value t1 (B "encrypt") (map lower v) | None => t1 end).
Proof.
  unfold validate. destruct (validate_arguments args) as [[t0|]|r|] eqn:V; cbn [bind].
  2:{ split; [discriminate|]. intros (o & p & C & _). exfalso.
      assert (X : validate_arguments args = Ok (Some (packed o))) by (apply validate_arguments_ok; now exists o). congruence. }
  2:{ split; [discriminate|]. intros (o & p & C & _). exfalso.
      assert (X : validate_arguments args = Ok (Some (packed o))) by (apply validate_arguments_ok; now exists o). congruence. }
  2:{ split; [discriminate|]. intros (o & p & C & _). exfalso.
      assert (X : validate_arguments args = Ok (Some (packed o))) by (apply validate_arguments_ok; now exists o). congruence. }
  apply validate_arguments_ok in V. destruct V as (o & C & ->).
  pose proof (command_distinct _ _ _ C) as D. destruct D as [N F].
  assert (Lib : forall k, value_of (packed o) k = value_of o k \/ k = []).
  { intros k. destruct k; [now right|]. left. now apply value_packed. }
  assert (Vk : forall k, k <> [] -> value_of (packed o) k = value_of o k) by (intros k Hk; now apply value_packed).
  assert (M : validate_mandatory (packed o) = true <->
    (exists v, In (B "librarypath", v) o) /\ (exists v, In (B "version", v) o) /\ (exists v, In (B "language", v) o)).
  { unfold validate_mandatory, mandatory_arguments. cbn [forallb]. rewrite !contains_value, !Vk by discriminate.
    rewrite <- !in_fst, andb_true_r, !andb_true_iff.
    assert (X : forall k, (match value_of o k with Some _ => true | None => false end) = true <-> In k (map fst o)).
    { intros k. destruct (value_of o k) eqn:E.
      - apply value_in in E. split; [|reflexivity]. intros _. apply in_fst. eauto.
      - apply value_none in E. split; [discriminate|tauto]. }
    now rewrite !X. }
  destruct (validate_mandatory (packed o)).
  2:{ split; [discriminate|]. intros (o' & p & C' & (A1 & A2 & (p0 & p' & A3 & _) & _) & _). exfalso.
      rewrite (command_fun _ _ _ _ _ C' C) in *. assert (X : false = true); [|discriminate]. apply M. eauto. }
  destruct (proj1 M eq_refl) as ((p & Ip) & Iv & Il). clear M.
  assert (Ep : value_of o (B "librarypath") = Some p) by now apply in_value.
  unfold validate_library_path. rewrite Vk by discriminate. rewrite Ep.
  assert (Np : p <> []). { clear - C Ip. induction C as [|c k v l o Pc K V I C IH]; [contradiction|].
    destruct Ip as [E|Ip]; [injection E as _ <-; exact V|now apply IH]. }
  unfold validate_path. destruct p as [|p0 pr]; [congruence|]. set (p := p0 :: pr) in *.
  pose proof (trim_path_spec p Np) as T.
  destruct (st (trim_path p)) as [[]|] eqn:St.
  2,3: split; [discriminate|]; intros (o' & p1 & C' & (_ & _ & (p2 & p3 & A1 & A2 & A3) & _) & _);
       rewrite (command_fun _ _ _ _ _ C' C) in *; apply in_value in A1; try assumption;
       rewrite Ep in A1; injection A1 as <-; rewrite <- (trimmed_fun _ _ _ T A2) in A3; congruence.
  set (t1 := set_value (packed o) (B "librarypath") (trim_path p)).
  assert (V1 : forall k, k <> [] -> k <> B "librarypath" -> value_of t1 k = value_of o k).
  { intros k Hk Hl. unfold t1. rewrite set_value_other by congruence. now apply Vk. }
  unfold validate_encryption. rewrite V1 by discriminate.
  set (t2 := match value_of o (B "encrypt") with Some v => set_value t1 (B "encrypt") (to_lower v) | None => t1 end).
  assert (V2 : forall k, In k [B "tools"; B "dependencies"; B "icon"] -> value_of t2 k = value_of o k).
  { intros k Hk. assert (Hk2 : k <> [] /\ k <> B "librarypath" /\ k <> B "encrypt").
    { cbn [In] in Hk. repeat destruct Hk as [<-|Hk]; try contradiction; split; try discriminate; split; discriminate. }
    destruct Hk2 as (H1 & H2 & H3). unfold t2. destruct (value_of o (B "encrypt")); [rewrite set_value_other by congruence|]; now apply V1. }
  assert (FX : forall t', (forall k, In k [B "tools"; B "dependencies"; B "icon"] -> value_of t' k = value_of o k) ->
     (validate_file st t' (B "tools") && validate_file st t' (B "dependencies") && validate_file st t' (B "icon") = true <->
      forall k v, In (k, v) o -> In k [B "tools"; B "dependencies"; B "icon"] -> st v <> None)).
  { intros t' Ht. rewrite !andb_true_iff.
    rewrite (validate_file_ok st t' o (B "tools")), (validate_file_ok st t' o (B "dependencies")), (validate_file_ok st t' o (B "icon"));
      try assumption; try (apply Ht; cbn [In]; tauto).
    unfold file_ok. split.
    - intros ((A1 & A2) & A3) k v I. cbn [In]. intros [<-|[<-|[<-|[]]]]; eauto.
    - intros A. split; [split|]; intros v I; apply (A _ _ I); cbn [In]; tauto. }
  assert (EX : (match value_of o (B "encrypt") with Some v => negb (beq (to_lower v) (B "true") && (lves =? 0)) | None => true end) = true <->
     forall v, In (B "encrypt", v) o -> map lower v = B "true" -> lves <> 0).
  { destruct (value_of o (B "encrypt")) as [v|] eqn:Ev.
    - apply value_in in Ev. split.
      + intros H w Iw El. assert (w = v) as -> by (apply in_value in Iw, Ev; try assumption; congruence).
        unfold to_lower in H. rewrite El, beq_refl in H. cbn [andb] in H. apply negb_true_iff, Nat.eqb_neq in H. exact H.
      + intros H. specialize (H v Ev). destruct (beq_spec (to_lower v) (B "true")) as [E|_]; [|reflexivity].
        cbn [andb]. apply negb_true_iff, Nat.eqb_neq. now apply H.
    - apply value_none in Ev. split; [|reflexivity]. intros _ v Iv2. exfalso. apply Ev, in_fst. eauto. }
  assert (R : (let '(ok2, t') := match value_of o (B "encrypt") with
                 | Some v => (negb (beq (to_lower v) (B "true") && (lves =? 0)), set_value t1 (B "encrypt") (to_lower v))
                 | None => (true, t1) end in
     if ok2 && validate_file st t' (B "tools") && validate_file st t' (B "dependencies") && validate_file st t' (B "icon")
     then Ok (Some t') else Ok None) =
    if (match value_of o (B "encrypt") with Some v => negb (beq (to_lower v) (B "true") && (lves =? 0)) | None => true end)
       && (validate_file st t2 (B "tools") && validate_file st t2 (B "dependencies") && validate_file st t2 (B "icon"))
    then Ok (Some t2) else Ok None).
  { unfold t2. destruct (value_of o (B "encrypt")); cbn [andb]; rewrite ?andb_assoc; reflexivity. }
  rewrite R. clear R.
  destruct (match value_of o (B "encrypt") with Some v => _ | None => true end && _) eqn:G.
  - apply andb_prop in G. destruct G as [G1 G2]. pose proof (proj1 EX G1) as G3. pose proof (proj1 (FX t2 V2) G2) as G4. split.
    + intros X. injection X as <-. exists o, p. split; [exact C|]. split; [|split; [exact Ip|reflexivity]].
      split; [exact Iv|]. split; [exact Il|]. split; [exists p, (trim_path p); auto|]. split; [exact G3|exact G4].
    + intros (o' & p' & C' & _ & Ip' & ->). rewrite (command_fun _ _ _ _ _ C' C) in *.
      apply in_value in Ip'; [|assumption]. rewrite Ep in Ip'. injection Ip' as <-. reflexivity.
  - split; [discriminate|]. intros (o' & p' & C' & (_ & _ & _ & A1 & A2) & _). rewrite (command_fun _ _ _ _ _ C' C) in *.
    exfalso. pose proof (proj2 EX A1) as B1. pose proof (proj2 (FX t2 V2) A2) as B2. rewrite B1, B2 in G. discriminate.
Qed.

Lemma validate_accepts st lves args : (exists t, validate st lves args = Ok (Some t)) <->
  exists o, CommandLine AnyByte args o /\ Acceptable st lves o.
Proof.
  split.
  - intros [t E]. apply validate_spec in E. destruct E as (o & p & C & A & _). now exists o.
  - intros (o & C & A). destruct A as (A1 & A2 & (p & p' & Ip & A3) & A4). eexists. apply validate_spec.
    exists o, p. split; [exact C|]. split; [|split; [exact Ip|reflexivity]]. split; [exact A1|]. split; [exact A2|]. split; [now exists p, p'|exact A4].
Qed.
Lemma validate_keeps st lves args o t : CommandLine AnyByte args o -> validate st lves args = Ok (Some t) -> Kept o (value_of t).
Proof.
  intros C E. apply validate_spec in E. destruct E as (o' & p & C' & A & Ip & ->). rewrite (command_fun _ _ _ _ _ C' C) in *. clear C' o'.
  pose proof (command_distinct _ _ _ C) as [N F]. assert (Ep : value_of o (B "librarypath") = Some p) by now apply in_value.
  assert (Np : p <> []). { clear - C Ip. induction C as [|c k v l o Pc K V I C IH]; [contradiction|].
    destruct Ip as [E|Ip]; [injection E as _ <-; exact V|now apply IH]. }
  intros k K. pose proof (known_nonempty k K) as Nk.
  assert (Val : value_of (let t1 := set_value (packed o) (B "librarypath") (trim_path p) in
    match value_of o (B "encrypt") with Some v => set_value t1 (B "encrypt") (map lower v) | None => t1 end) k =
    match value_of o k with
    | None => None
    | Some v => Some (if beq k (B "librarypath") then trim_path v else if beq k (B "encrypt") then map lower v else v)
    end).
  { cbv zeta. destruct (value_of o (B "encrypt")) as [v|] eqn:Ev.
    - rewrite value_set. destruct (beq_spec (B "encrypt") k) as [<-|Ne].
      + rewrite set_value_other, value_packed by discriminate. now rewrite Ev.
      + rewrite value_set. destruct (beq_spec (B "librarypath") k) as [<-|Nl].
        * rewrite value_packed, Ep by discriminate. reflexivity.
        * rewrite value_packed by exact Nk. destruct (value_of o k); [|reflexivity].
          destruct (beq_spec k (B "librarypath")); [congruence|]. destruct (beq_spec k (B "encrypt")); [congruence|reflexivity].
    - rewrite value_set. destruct (beq_spec (B "librarypath") k) as [<-|Nl].
      + rewrite value_packed, Ep by discriminate. reflexivity.
      + rewrite value_packed by exact Nk. destruct (value_of o k) eqn:Ek; [|reflexivity].
        destruct (beq_spec k (B "librarypath")); [congruence|]. destruct (beq_spec k (B "encrypt")) as [->|]; [congruence|reflexivity]. }
  rewrite Val. destruct (value_of o k) as [v|] eqn:Ek.
  - exists v. split; [now apply value_in|]. destruct (beq_spec k (B "librarypath")) as [->|Nl].
    + left. split; [reflexivity|]. apply trim_path_spec. congruence.
    + right. destruct (beq_spec k (B "encrypt")) as [->|Ne]; [now left|]. right. tauto.
  - now apply value_none.
Qed.

(** ** The library name *)

Lemma rfind_last pre name : ~ In SLASH name -> rfind_byte SLASH (pre ++ SLASH :: name) = Some (length pre).
Proof.
  intros N. induction pre as [|x pre IH]; cbn [app rfind_byte length].
  - apply rfind_byte_none in N. now rewrite N, Ascii.eqb_refl.
  - now rewrite IH.
Qed.
Lemma skip_all {A} (l : list A) n : length l <= n -> skipn n l = [].
Proof. apply skipn_all2. Qed.

(** The name found in a path whose last character is not a slash. *)
Lemma name_of_path p c q : p = q ++ [c] -> c <> SLASH ->
  exists pre name, p = pre ++ name /\ name <> [] /\ ~ In SLASH name /\ (pre = [] \/ exists r, pre = r ++ [SLASH]) /\
    match rfind_byte SLASH p with Some i => skipn (S i) p | None => p end = name.
Proof.
  intros -> Nc. destruct (rfind_byte SLASH (q ++ [c])) as [i|] eqn:R.
  - apply rfind_byte_some in R. destruct R as (pre & post & E & Np & L). exists (pre ++ [SLASH]), post.
    rewrite E. split; [now rewrite <- app_assoc|]. split.
    { intros ->. assert (X : last_byte (q ++ [c]) = Some SLASH) by (rewrite E; apply last_byte_app).
      rewrite last_byte_app in X. congruence. }
    split; [exact Np|]. split; [right; now exists pre|].
    rewrite <- L. change (pre ++ SLASH :: post) with (pre ++ [SLASH] ++ post). rewrite app_assoc.
    replace (S (length pre)) with (length (pre ++ [SLASH])) by (rewrite app_length; cbn; lia). apply skipn_app_exact.
  - apply rfind_byte_none in R. exists [], (q ++ [c]). split; [reflexivity|]. split; [now destruct q|]. split; [exact R|]. split; [now left|reflexivity].
Qed.

Lemma last_component_fun p n1 n2 : LastComponent p n1 -> LastComponent p n2 -> n1 = n2.
Proof.
  assert (H : forall p n pre tail, p = pre ++ n ++ tail -> n <> [] -> ~ In SLASH n -> Forall (fun c => c = SLASH) tail ->
     (pre = [] \/ exists q, pre = q ++ [SLASH]) -> forall n' pre' tail', p = pre' ++ n' ++ tail' -> n' <> [] -> ~ In SLASH n' ->
     Forall (fun c => c = SLASH) tail' -> length (pre ++ n) <= length (pre' ++ n')).
  { intros p0 n pre tail E Nn In_ F Hp n' pre' tail' E' Nn' In' F'.
    destruct (le_lt_dec (length (pre ++ n)) (length (pre' ++ n'))) as [|L]; [assumption|exfalso].
    destruct (exists_last Nn) as (n0 & c & ->).
    assert (X : In c tail').
    { assert (Y : nth_error p0 (length (pre ++ n0)) = Some c).
      { rewrite E, <- app_assoc, app_assoc. rewrite nth_error_app2 by lia. now rewrite Nat.sub_diag. }
      rewrite E', app_assoc in Y. rewrite app_assoc, (app_length (pre ++ n0)) in L. cbn [length] in L.
      rewrite nth_error_app2 in Y by lia. now apply nth_error_In in Y. }
    rewrite Forall_forall in F'. apply In_. rewrite <- (F' c X). apply in_or_app. right. now left. }
  intros (pre & tail & E & Nn & In_ & F & Hp) (pre' & tail' & E' & Nn' & In' & F' & Hp').
  pose proof (H p n1 pre tail E Nn In_ F Hp n2 pre' tail' E' Nn' In' F').
  pose proof (H p n2 pre' tail' E' Nn' In' F' Hp' n1 pre tail E Nn In_ F).
  assert (P : pre ++ n1 = pre' ++ n2).
  { rewrite E in E'. rewrite !app_assoc in E'. apply (f_equal (firstn (length (pre ++ n1)))) in E'.
    rewrite firstn_app_exact in E'. replace (length (pre ++ n1)) with (length (pre' ++ n2)) in E' by lia. now rewrite firstn_app_exact in E'. }
  clear - P Nn In_ Hp Nn' In' Hp'.
  assert (K : forall pre n pre' n', pre ++ n = pre' ++ n' -> ~ In SLASH n -> (pre' = [] \/ exists q, pre' = q ++ [SLASH]) -> length pre' <= length pre).
  { clear. intros pre n pre' n' E Nn Hp. destruct (le_lt_dec (length pre') (length pre)) as [|L]; [assumption|exfalso].
    destruct Hp as [->|(q & ->)]; [cbn in L; lia|]. rewrite app_length in L. cbn [length] in L. apply Nn.
    assert (Y : nth_error ((q ++ [SLASH]) ++ n') (length q) = Some SLASH).
    { rewrite <- app_assoc. rewrite nth_error_app2 by lia. now rewrite Nat.sub_diag. }
    rewrite <- E in Y. rewrite nth_error_app2 in Y by lia. now apply nth_error_In in Y. }
  pose proof (K _ _ _ _ P In_ Hp'). pose proof (K _ _ _ _ (eq_sym P) In' Hp).
  apply (f_equal (skipn (length pre))) in P. rewrite skipn_app_exact in P. replace (length pre) with (length pre') in P by lia.
  now rewrite skipn_app_exact in P.
Qed.

(** After trimming, the name is the last component. *)
Lemma trimmed_component p name : LastComponent p name -> (forall q, name <> q ++ [BSLASH]) ->
  exists pre, Trimmed p (pre ++ name) /\ (pre = [] \/ exists q, pre = q ++ [SLASH]).
Proof.
  intros (pre & tail & -> & Nn & In_ & F & Hp) Nb. exists pre. split; [|exact Hp].
  exists tail. split; [now rewrite <- app_assoc|]. split; [eapply Forall_impl; [|exact F]; intros c; now left|].
  left. destruct (exists_last Nn) as (n0 & c & ->). exists (pre ++ n0), c. split; [now rewrite app_assoc|].
  split; [|intros ->; now apply (Nb n0)]. intros ->. apply In_, in_or_app. right. now left.
Qed.
Lemma name_after pre name c n0 : name = n0 ++ [c] -> ~ In SLASH name -> (pre = [] \/ exists q, pre = q ++ [SLASH]) ->
  match rfind_byte SLASH (pre ++ name) with Some i => skipn (S i) (pre ++ name) | None => pre ++ name end = name.
Proof.
  intros E Nn [->|(q & ->)].
  - cbn [app]. now rewrite (proj2 (rfind_byte_none SLASH name) Nn).
  - rewrite <- app_assoc. cbn [app]. rewrite rfind_last by exact Nn. change (q ++ SLASH :: name) with (q ++ [SLASH] ++ name). rewrite app_assoc.
    replace (S (length q)) with (length (q ++ [SLASH])) by (rewrite app_length; cbn; lia). apply skipn_app_exact.
Qed.
Lemma set_value_id t k v : value_of t k = Some v -> set_value t k v = t.
Proof.
  induction t as [|[k' v'] t IH]; cbn; [discriminate|]. destruct (beq k' k); [|intros E; now rewrite IH].
  intros E. now injection E as ->.
Qed.

Lemma library_name_component st lves args t p name : validate st lves args = Ok (Some t) ->
  (exists o, CommandLine AnyByte args o /\ In (B "librarypath", p) o) ->
  LastComponent p name -> (forall q, name <> q ++ [BSLASH]) -> library_name t = Ok (Some name, t).
Proof.
  intros V (o & C & Ip) LC Nb. pose proof (validate_keeps _ _ _ _ _ C V (B "librarypath") known_lib) as K.
  unfold library_name. destruct (value_of t (B "librarypath")) as [w|] eqn:Ew.
  2:{ exfalso. apply K, in_fst. eauto. }
  destruct K as (v & Iv & [(_ & T)|[(E & _)|(E & _)]]); [|discriminate E|congruence].
  pose proof (command_distinct _ _ _ C) as [N _]. apply (in_value _ _ _ N) in Iv; apply (in_value _ _ _ N) in Ip. rewrite Ip in Iv. injection Iv as <-.
  destruct (trimmed_component p name LC Nb) as (pre & T' & Hp). rewrite (trimmed_fun _ _ _ T T') in *.
  destruct LC as (_ & _ & _ & Nn & In_ & _). destruct (exists_last Nn) as (n0 & c & En).
  assert (Lb : last_byte (pre ++ name) = Some c) by (rewrite En, app_assoc; apply last_byte_app).
  rewrite Lb. assert (Nc : Ascii.eqb c SLASH = false).
  { apply Ascii.eqb_neq. intros ->. apply In_. rewrite En. apply in_or_app. right. now left. }
  rewrite Nc. rewrite (name_after pre name c n0 En In_ Hp). rewrite set_value_id by exact Ew. reflexivity.
Qed.

(** ** Paths that go wrong *)

Lemma command_value_nonempty P args o k v : CommandLine P args o -> In (k, v) o -> v <> [].
Proof.
  induction 1 as [|c k' v' l o Pc K V I C IH]; [contradiction|]. intros [E|H]; [injection E as _ <-; exact V|now apply IH].
Qed.
Lemma library_value st lves args o t p : validate st lves args = Ok (Some t) -> CommandLine AnyByte args o -> In (B "librarypath", p) o ->
  exists w, value_of t (B "librarypath") = Some w /\ Trimmed p w /\ st w = Some true.
Proof.
  intros V C Ip. pose proof (validate_keeps _ _ _ _ _ C V (B "librarypath") known_lib) as K.
  pose proof (command_distinct _ _ _ C) as [N _].
  destruct (value_of t (B "librarypath")) as [w|] eqn:Ew. 2:{ exfalso. apply K, in_fst. eauto. }
  destruct K as (v & Iv & [(_ & T)|[(E & _)|(E & _)]]); [|discriminate E|congruence].
  apply (in_value _ _ _ N) in Iv. pose proof (in_value _ _ _ N Ip) as Ep. rewrite Ep in Iv. injection Iv as <-.
  exists w. split; [reflexivity|]. split; [exact T|].
  apply validate_spec in V. destruct V as (o' & p' & C' & (_ & _ & (p2 & p3 & I2 & T2 & S2) & _) & _).
  rewrite (command_fun _ _ _ _ _ C' C) in *. apply (in_value _ _ _ N) in I2. rewrite Ep in I2. injection I2 as <-.
  now rewrite (trimmed_fun _ _ _ T T2).
Qed.

(** A library path that consists of slashes: the name is empty, and asking for it again reads
    before the start of the path. *)
Lemma root_library st lves args o t p : validate st lves args = Ok (Some t) -> CommandLine AnyByte args o ->
  In (B "librarypath", p) o -> Forall (fun c => c = SLASH) p ->
  exists t1, library_name t = Ok (Some [], t1) /\ library_name t1 = UB OobRead.
Proof.
  intros V C Ip F. pose proof (command_value_nonempty _ _ _ _ _ C Ip) as Np.
  destruct (library_value _ _ _ _ _ _ V C Ip) as (w & Ew & T & _).
  assert (T2 : Trimmed p [SLASH]).
  { destruct p as [|c p]; [congruence|]. inversion F as [|? ? -> F']; subst. exists p. split; [reflexivity|].
    split; [eapply Forall_impl; [|exact F']; intros x; now left|]. right. reflexivity. }
  rewrite (trimmed_fun _ _ _ T T2) in *. exists (set_value t (B "librarypath") []). split.
  - unfold library_name. rewrite Ew. reflexivity.
  - unfold library_name. rewrite (set_value_same _ _ [] _ Ew). reflexivity.
Qed.

(** A backslash at the end of the name is lost. *)
Lemma backslash_library st lves args o t pre name : validate st lves args = Ok (Some t) -> CommandLine AnyByte args o ->
  In (B "librarypath", pre ++ name ++ [BSLASH]) o -> LastComponent (pre ++ name) name -> (forall q, name <> q ++ [BSLASH]) ->
  (pre = [] \/ exists q, pre = q ++ [SLASH]) ->
  library_name t = Ok (Some name, t) /\ LastComponent (pre ++ name ++ [BSLASH]) (name ++ [BSLASH]).
Proof.
  intros V C Ip LC Nb Hp. destruct (library_value _ _ _ _ _ _ V C Ip) as (w & Ew & T & _).
  destruct LC as (pre' & tail & _ & Nn & In_ & _). destruct (exists_last Nn) as (n0 & c & En).
  assert (Ns : c <> SLASH) by (intros ->; apply In_; rewrite En; apply in_or_app; right; now left).
  assert (T2 : Trimmed (pre ++ name ++ [BSLASH]) (pre ++ name)).
  { exists [BSLASH]. split; [now rewrite app_assoc|]. split; [apply Forall_cons; [now right|apply Forall_nil]|].
    left. exists (pre ++ n0), c. rewrite En, app_assoc. split; [reflexivity|]. split; [exact Ns|]. intros ->. now apply (Nb n0). }
  rewrite (trimmed_fun _ _ _ T T2) in *. split.
  - unfold library_name. rewrite Ew.
    assert (Lb : last_byte (pre ++ name) = Some c) by (rewrite En, app_assoc; apply last_byte_app). rewrite Lb.
    rewrite (proj2 (Ascii.eqb_neq c SLASH) Ns). now rewrite (name_after pre name c n0 En In_ Hp), set_value_id by exact Ew.
  - exists pre, []. rewrite app_nil_r. split; [reflexivity|]. split; [now destruct name|]. split; [|split; [constructor|exact Hp]].
    intros H. apply in_app_or in H. destruct H as [H|[H|[]]]; [contradiction|discriminate H].
Qed.
