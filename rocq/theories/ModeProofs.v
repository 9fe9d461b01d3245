(** Proofs about the permissions of packaged files. *)
From Coq Require Import NArith Lia Bool.
From Verif Require Import Base BaseProofs CryptModel ManifestModel PackageModel PackageSpec TreeProofs ModeModel ModeSpec.

(** ** Directories *)

Fixpoint find (t : node) (p : list bytes) : option node :=
  match p with
  | [] => Some t
  | n :: r => match t with Dir es => match entry es n with Some x => find x r | None => None end | _ => None end
  end.

Lemma entry_enter k y es n : entry (enter k y es) n = if beq k n then Some y else entry es n.
Proof.
  induction es as [|[m t] r IH]; cbn.
  - destruct (beq k n); reflexivity.
  - destruct (beq m k) eqn:E.
    + apply beq_true in E. subst m. cbn. destruct (beq k n); reflexivity.
    + cbn. destruct (beq m n) eqn:E2.
      * apply beq_true in E2. subst m. destruct (beq k n) eqn:E3; [|reflexivity]. apply beq_true in E3. subst k. rewrite beq_refl in E. discriminate.
      * exact IH.
Qed.
Lemma entry_in es n x : entry es n = Some x -> In (n, x) es.
Proof.
  induction es as [|[m t] r IH]; cbn; [discriminate|]. destruct (beq m n) eqn:E.
  - intros [= <-]. apply beq_true in E. subst m. now left.
  - intros H. right. auto.
Qed.
Lemma in_entry es n x : NoDup (map fst es) -> In (n, x) es -> entry es n = Some x.
Proof.
  induction es as [|[m t] r IH]; cbn; [now intros|]. intros ND [E|I].
  - injection E as -> ->. now rewrite beq_refl.
  - inversion ND as [|? ? N1 N2]; subst. destruct (beq m n) eqn:E.
    + apply beq_true in E. subst m. exfalso. apply N1. apply in_map_iff. exists (n, x). split; [reflexivity|exact I].
    + now apply IH.
Qed.
Lemma entry_none es n : ~ In n (map fst es) -> entry es n = None.
Proof. intros N. destruct (entry es n) as [x|] eqn:E; [|reflexivity]. exfalso. apply N. apply entry_in in E. apply in_map_iff. exists (n, x). split; [reflexivity|exact E]. Qed.

Lemma find_has t p m d : find t p = Some (File m d) -> HasFile t p m d.
Proof.
  revert t. induction p as [|n r IH]; intros t; cbn.
  - intros [= ->]. constructor.
  - destruct t as [|es|]; try discriminate. destruct (entry es n) as [x|] eqn:E; [|discriminate]. intros H. exact (Has_below es n x r m d (entry_in _ _ _ E) (IH _ H)).
Qed.
Lemma has_find t p m d : Tidy t -> HasFile t p m d -> find t p = Some (File m d).
Proof.
  intros T H. induction H as [|es n x p m d I H IH]; [reflexivity|]. inversion T as [| |? ND Ts]; subst. cbn. rewrite (in_entry _ _ _ ND I). apply IH. eauto.
Qed.

Lemma beq_neq a b : a <> b -> beq a b = false.
Proof. intros N. destruct (beq a b) eqn:E; [|reflexivity]. apply beq_true in E. contradiction. Qed.

(** ** Modes *)

Lemma readable_spec u m : readable u m = true <-> MayRead u m.
Proof. unfold readable, MayRead. now rewrite orb_true_iff. Qed.
Lemma low_mode m : SameMode (N.land m 4095) m.
Proof.
  intros k L. rewrite N.land_spec. change 4095%N with (N.ones 12). rewrite N.ones_spec_low by exact L. now rewrite andb_true_r.
Qed.
Lemma new_mode u : NewMode u (N.ldiff 438 (u_umask u)).
Proof.
  intros k. rewrite N.ldiff_spec, andb_true_iff, negb_true_iff.
  assert (E : N.testbit 438 k = true <-> In k [1; 2; 4; 5; 7; 8]%N).
  { destruct (N.lt_ge_cases k 9) as [L|L].
    - assert (X : (k = 0 \/ k = 1 \/ k = 2 \/ k = 3 \/ k = 4 \/ k = 5 \/ k = 6 \/ k = 7 \/ k = 8)%N) by lia.
      decompose [or] X; subst k; cbn; split; intros H; try discriminate; try reflexivity; try tauto; intuition discriminate.
    - split; intros H.
      + rewrite N.bits_above_log2 in H; [discriminate|]. cbn. lia.
      + cbn in H. intuition lia. }
  tauto.
Qed.
Lemma new_mode_unique u a b : NewMode u a -> NewMode u b -> a = b.
Proof.
  intros A C. apply N.bits_inj. intros k. specialize (A k). specialize (C k).
  destruct (N.testbit a k), (N.testbit b k); try reflexivity; exfalso; [assert (X : false = true) by tauto|assert (X : false = true) by tauto]; discriminate.
Qed.
Lemma fopen_new u : exists m, fopen_write u None = Some m /\ NewMode u m.
Proof. eexists. split; [reflexivity|apply new_mode]. Qed.
Lemma fopen_file u m d : MayWrite u m -> fopen_write u (Some (File m d)) = Some m.
Proof. intros H. cbn. destruct (u_root u || N.testbit m 7) eqn:E; [reflexivity|]. apply orb_false_iff in E. destruct H; intuition congruence. Qed.
Lemma fopen_some u o m : fopen_write u o = Some m -> (o = None /\ NewMode u m) \/ exists d, o = Some (File m d) /\ MayWrite u m.
Proof.
  destruct o as [[k d|es|]|]; cbn; try discriminate.
  - destruct (u_root u || N.testbit k 7) eqn:E; [|discriminate]. intros [= <-]. right. exists d. split; [reflexivity|]. now apply orb_true_iff in E.
  - intros [= <-]. left. split; [reflexivity|apply new_mode].
Qed.
Lemma fopen_dir u es : fopen_write u (Some (Dir es)) = None.
Proof. reflexivity. Qed.

(** ** Copying *)

Fixpoint copy_go (u : user) (es : list (bytes * node)) (l : list (bytes * node)) : list (bytes * node) :=
  match es with
  | [] => l
  | (n, x) :: r =>
      if beq n DOT_LIBRARY then copy_go u r l
      else copy_go u r (match copy_node u x (entry l n) with Some y => enter n y l | None => l end)
  end.
Lemma copy_dir u es l : copy_node u (Dir es) (Some (Dir l)) = Some (Dir (copy_go u es l)).
Proof.
  cbn [copy_node]. do 2 f_equal. revert l. induction es as [|[n x] r IH]; intros l; [reflexivity|]. cbn [copy_go]. destruct (beq n DOT_LIBRARY); apply IH.
Qed.
Lemma copy_dir_new u es : copy_node u (Dir es) None = Some (Dir (copy_go u es [])).
Proof. exact (copy_dir u es []). Qed.
Lemma copy_none u x o : copy_node u x o = None -> o = None.
Proof.
  destruct x as [m d|es|]; cbn.
  - unfold copy_file. destruct (readable u m); [|now intros]. destruct (fopen_write u o); [discriminate|now intros].
  - destruct o as [[]|]; now intros.
  - now intros.
Qed.
Lemma copy_entry u es : NoDup (map fst es) -> forall l n, entry (copy_go u es l) n =
  match entry es n with Some x => if beq n DOT_LIBRARY then entry l n else copy_node u x (entry l n) | None => entry l n end.
Proof.
  induction es as [|[m x] r IH]; intros ND l n; [reflexivity|]. cbn [copy_go entry map fst] in *. inversion ND as [|? ? N1 N2]; subst.
  destruct (beq m DOT_LIBRARY) eqn:Ed.
  - rewrite (IH N2). destruct (beq m n) eqn:E; [|reflexivity]. apply beq_true in E. subst m. rewrite (entry_none _ _ N1), Ed. reflexivity.
  - rewrite (IH N2). destruct (beq m n) eqn:E.
    + apply beq_true in E. subst m. rewrite (entry_none _ _ N1), Ed. destruct (copy_node u x (entry l n)) as [y|] eqn:C.
      * now rewrite entry_enter, beq_refl.
      * exact (copy_none _ _ _ C).
    + assert (X : entry match copy_node u x (entry l m) with Some y => enter m y l | None => l end n = entry l n).
      { destruct (copy_node u x (entry l m)); [|reflexivity]. now rewrite entry_enter, E. }
      now rewrite X.
Qed.
Lemma copy_find u p : forall t m d, Tidy t -> find t p = Some (File m d) -> ~ In DOT_LIBRARY p -> readable u m = true ->
  exists r, copy_node u t None = Some r /\ find r p = Some (File (N.land m 4095) d).
Proof.
  induction p as [|n p IH]; intros t m d T F N R.
  - cbn in F. injection F as ->. cbn. unfold copy_file. rewrite R. cbn. eexists. split; reflexivity.
  - destruct t as [|es|]; try discriminate. cbn in F. destruct (entry es n) as [x|] eqn:E; [|discriminate]. inversion T as [| |? ND Ts]; subst.
    destruct (IH x m d (Ts _ _ (entry_in _ _ _ E)) F) as (r & C & F2); [intros I; apply N; now right|exact R|].
    rewrite copy_dir_new. eexists. split; [reflexivity|]. cbn [find]. rewrite (copy_entry _ _ ND), E, beq_neq; [|intros X; apply N; now left].
    cbn [entry]. now rewrite C.
Qed.
Lemma copy_file_result u m d x ok : copy_file u m d None = (x, ok) -> readable u m = true -> x = Some (File (N.land m 4095) d) /\ ok = true.
Proof. unfold copy_file. intros H R. rewrite R in H. cbn in H. now inversion H. Qed.

Lemma lves_entry u lves : forall dot dot', NoDup (map fst lves) -> copy_lves u lves dot = (true, dot') -> forall n,
  (~ In n (map fst lves) -> entry dot' n = entry dot n) /\
  (forall m d, In (n, (m, d)) lves -> entry dot' n = Some (File (N.land m 4095) d)).
Proof.
  induction lves as [|[k [m d]] r IH]; intros dot dot' ND C n; cbn in C.
  - injection C as <-. split; [reflexivity|intros ? ? []].
  - inversion ND as [|? ? N1 N2]; subst. destruct (copy_file u m d (entry dot k)) as [[x|] [|]] eqn:F; try discriminate.
    assert (Ex : x = File (N.land m 4095) d). { unfold copy_file in F. destruct (readable u m); [|congruence]. destruct (fopen_write u (entry dot k)); congruence. }
    destruct (IH _ _ N2 C n) as [A1 A2]. split.
    + intros N. cbn in N. rewrite A1 by tauto. rewrite entry_enter, beq_neq by tauto. reflexivity.
    + intros m2 d2 [E|I]; [|now apply A2]. injection E as -> -> ->. rewrite A1 by exact N1. now rewrite entry_enter, beq_refl, Ex.
Qed.

(** ** Encryption *)

Definition enc_first (u : user) (seal : list bytes -> bytes -> bytes) (path : list bytes) (es : list (bytes * node)) : outcome (list (bytes * node)) :=
  match entry es PACKAGE_MO with
  | Some (File m d) => if readable u m then encrypt_file u seal path PACKAGE_MO m d es else Ok es
  | _ => Ok es
  end.
Fixpoint enc_go (u : user) (seal : list bytes -> bytes -> bytes) (path : list bytes) (l cur : list (bytes * node)) : outcome (list (bytes * node)) :=
  match l with
  | [] => Ok cur
  | (n, x) :: r =>
      do cur1 <- (if caseeq n PACKAGE_MO then Ok cur
                  else match x with
                       | Dir _ => do y <- encrypt_dir u seal (path ++ [n]) x ; Ok (enter n y cur)
                       | File m d => if is_modelica n then encrypt_file u seal path n m d cur else Ok cur
                       | Link => Ok cur
                       end) ;
      enc_go u seal path r cur1
  end.
Lemma enc_dir u seal path es : encrypt_dir u seal path (Dir es) =
  (do es1 <- enc_first u seal path es ; do es2 <- enc_go u seal path es es1 ; Ok (Dir es2)).
Proof.
  cbn [encrypt_dir]. unfold enc_first.
  set (f := match entry es PACKAGE_MO with Some (File m d) => _ | _ => _ end). destruct f as [es1|x|]; cbn [bind]; [|reflexivity|reflexivity].
  assert (E : forall l cur, (fix go (l : list (bytes * node)) (cur : list (bytes * node)) {struct l} : outcome (list (bytes * node)) :=
                   match l with
                   | [] => Ok cur
                   | (n, x) :: r =>
                       do cur1 <- (if caseeq n PACKAGE_MO then Ok cur
                                   else match x with
                                        | Dir _ => do y <- encrypt_dir u seal (path ++ [n]) x ; Ok (enter n y cur)
                                        | File m d => if is_modelica n then encrypt_file u seal path n m d cur else Ok cur
                                        | Link => Ok cur
                                        end) ;
                       go r cur1
                   end) l cur = enc_go u seal path l cur).
  { induction l as [|[n x] r IH]; intros cur; [reflexivity|]. cbn [enc_go].
    destruct (if caseeq n PACKAGE_MO then _ else _) as [c1|e|]; cbn [bind]; [apply IH|reflexivity|reflexivity]. }
  now rewrite E.
Qed.
Lemma c_inj a b : a ++ B "c" = b ++ B "c" -> a = b.
Proof. intros E. now apply app_inv_tail in E. Qed.
Lemma encrypt_file_ok u seal path n m d es es' : encrypt_file u seal path n m d es = Ok es' ->
  readable u m = true /\ exists m', fopen_write u (entry es (n ++ B "c")) = Some m' /\ es' = enter (n ++ B "c") (File m' (seal (path ++ [n]) d)) es.
Proof.
  unfold encrypt_file. destruct (readable u m); [|discriminate]. destruct (fopen_write u (entry es (n ++ B "c"))) as [m'|]; [|discriminate].
  intros [= <-]. split; [reflexivity|]. eauto.
Qed.
(** What a step may do. *)
Lemma enc_step u seal path n x r cur cur' : enc_go u seal path ((n, x) :: r) cur = Ok cur' ->
  exists cur1, enc_go u seal path r cur1 = Ok cur' /\
  ((cur1 = cur /\ (caseeq n PACKAGE_MO = true \/ (exists m d, x = File m d /\ is_modelica n = false) \/ x = Link)) \/
   (caseeq n PACKAGE_MO = false /\ exists es y, x = Dir es /\ encrypt_dir u seal (path ++ [n]) x = Ok y /\ cur1 = enter n y cur) \/
   (caseeq n PACKAGE_MO = false /\ is_modelica n = true /\ exists m d m', x = File m d /\ readable u m = true /\
      fopen_write u (entry cur (n ++ B "c")) = Some m' /\ cur1 = enter (n ++ B "c") (File m' (seal (path ++ [n]) d)) cur)).
Proof.
  cbn [enc_go]. intros H. destruct (caseeq n PACKAGE_MO) eqn:C.
  { cbn [bind] in H. exists cur. split; [exact H|]. left. auto. }
  destruct x as [m d|es|].
  - destruct (is_modelica n) eqn:M.
    + destruct (encrypt_file u seal path n m d cur) as [c1|e|] eqn:F; try discriminate. cbn [bind] in H. exists c1. split; [exact H|]. right. right.
      apply encrypt_file_ok in F. destruct F as (R & m' & F & E). split; [reflexivity|]. split; [reflexivity|]. exists m, d, m'. auto.
    + cbn [bind] in H. exists cur. split; [exact H|]. left. split; [reflexivity|]. right. left. eauto.
  - destruct (encrypt_dir u seal (path ++ [n]) (Dir es)) as [y|e|] eqn:F; try discriminate. cbn [bind] in H. exists (enter n y cur). split; [exact H|].
    right. left. split; [reflexivity|]. exists es, y. auto.
  - cbn [bind] in H. exists cur. split; [exact H|]. left. auto.
Qed.
Lemma enc_is_dir u seal path es y : encrypt_dir u seal path (Dir es) = Ok y -> exists es', y = Dir es'.
Proof.
  rewrite enc_dir. destruct (enc_first u seal path es) as [a| |]; cbn [bind]; try discriminate.
  destruct (enc_go u seal path es a) as [b| |]; cbn [bind]; try discriminate. intros [= <-]. eauto.
Qed.
(** A directory stays one; it is encrypted if it is among those still to come. *)
Lemma go_dir u seal path l : forall cur cur' k e, NoDup (map fst l) -> enc_go u seal path l cur = Ok cur' -> entry cur k = Some (Dir e) ->
  (exists e', entry cur' k = Some (Dir e')) /\
  (forall es, In (k, Dir es) l -> caseeq k PACKAGE_MO = false -> exists y, encrypt_dir u seal (path ++ [k]) (Dir es) = Ok y /\ entry cur' k = Some y) /\
  ((~ In k (map fst l) \/ caseeq k PACKAGE_MO = true) -> entry cur' k = Some (Dir e)).
Proof.
  induction l as [|[n x] r IH]; intros cur cur' k e ND H E.
  - cbn in H. injection H as <-. split; [eauto|]. split; [intros ? []|intros _; exact E].
  - cbn [map fst] in ND. inversion ND as [|? ? N1 N2]; subst. destruct (enc_step _ _ _ _ _ _ _ _ H) as (c1 & G & X).
    destruct X as [(-> & X)|[(C & es & y & -> & F & ->)|(C & M & m & d & m' & -> & R & F & ->)]].
    + destruct (IH _ _ _ _ N2 G E) as (A1 & A2 & A3). split; [exact A1|]. split.
      * intros es [I|I] Ck; [|now apply A2]. injection I as -> ->. destruct X as [X|[(? & ? & X & _)|X]]; congruence.
      * intros K. apply A3. cbn in K. tauto.
    + destruct (enc_is_dir _ _ _ _ _ F) as (es' & ->). destruct (beq n k) eqn:B.
      * apply beq_true in B. subst n. assert (E2 : entry (enter k (Dir es') cur) k = Some (Dir es')) by now rewrite entry_enter, beq_refl.
        destruct (IH _ _ _ _ N2 G E2) as (A1 & A2 & A3). split; [exact A1|]. split.
        -- intros es2 [I|I] Ck; [|exfalso; apply N1; apply in_map_iff; now exists (k, Dir es2)]. injection I as ->. exists (Dir es'). split; [exact F|]. apply A3. now left.
        -- intros [K|K]; [exfalso; apply K; now left|congruence].
      * assert (E2 : entry (enter n (Dir es') cur) k = Some (Dir e)) by now rewrite entry_enter, B.
        destruct (IH _ _ _ _ N2 G E2) as (A1 & A2 & A3). split; [exact A1|]. split.
        -- intros es2 [I|I] Ck; [|now apply A2]. injection I as -> _. rewrite beq_refl in B. discriminate.
        -- intros K. apply A3. cbn in K. tauto.
    + assert (B : beq (n ++ Base.B "c") k = false). { apply beq_neq. intros Q. rewrite Q, E in F. discriminate. }
      assert (E2 : entry (enter (n ++ Base.B "c") (File m' (seal (path ++ [n]) d)) cur) k = Some (Dir e)) by now rewrite entry_enter, B.
      destruct (IH _ _ _ _ N2 G E2) as (A1 & A2 & A3). split; [exact A1|]. split.
      * intros es2 [I|I] Ck; [discriminate|now apply A2].
      * intros K. apply A3. cbn in K. tauto.
Qed.
(** The directories that are still to come are in the directory. *)
Definition Kept (l cur : list (bytes * node)) : Prop := forall k e, In (k, Dir e) l -> exists e', entry cur k = Some (Dir e').
(** What is at a name that is neither a directory nor that of an encrypted file stays. *)
Lemma go_same u seal path l : forall cur cur' k, NoDup (map fst l) -> enc_go u seal path l cur = Ok cur' ->
  (forall e, ~ In (k, Dir e) l) -> (forall n m d, In (n, File m d) l -> is_modelica n = true -> caseeq n PACKAGE_MO = false -> k <> n ++ B "c") ->
  entry cur' k = entry cur k.
Proof.
  induction l as [|[n x] r IH]; intros cur cur' k ND H D F.
  - cbn in H. now injection H as <-.
  - cbn [map fst] in ND. inversion ND as [|? ? N1 N2]; subst. destruct (enc_step _ _ _ _ _ _ _ _ H) as (c1 & G & X).
    rewrite (IH _ _ _ N2 G); [|intros e I; apply (D e); now right|intros n2 m2 d2 I; apply (F n2 m2 d2); now right].
    destruct X as [(-> & _)|[(C & es & y & -> & _ & ->)|(C & M & m & d & m' & -> & R & Fo & ->)]]; [reflexivity| |].
    + rewrite entry_enter, beq_neq; [reflexivity|]. intros ->. apply (D es). now left.
    + rewrite entry_enter, beq_neq; [reflexivity|]. intros Q. apply (F n m d); auto. now left.
Qed.
(** Encrypted files. *)
Lemma go_file u seal path l : forall cur cur' n m d, NoDup (map fst l) -> Kept l cur -> enc_go u seal path l cur = Ok cur' ->
  In (n, File m d) l -> is_modelica n = true -> caseeq n PACKAGE_MO = false ->
  readable u m = true /\ exists m', fopen_write u (entry cur (n ++ B "c")) = Some m' /\
  entry cur' (n ++ B "c") = Some (File m' (seal (path ++ [n]) d)).
Proof.
  induction l as [|[k x] r IH]; intros cur cur' n m d ND K H I M C; [destruct I|].
  cbn [map fst] in ND. inversion ND as [|? ? N1 N2]; subst. destruct (enc_step _ _ _ _ _ _ _ _ H) as (c1 & G & X).
  assert (K1 : Kept r c1).
  { intros k2 e I2. destruct (K k2 e (or_intror I2)) as (e' & E). destruct X as [(-> & _)|[(_ & es & y & -> & Fd & ->)|(_ & Mk & m2 & d2 & m' & -> & R & Fo & ->)]]; [eauto| |].
    - rewrite entry_enter. destruct (beq k k2); [|eauto]. destruct (enc_is_dir _ _ _ _ _ Fd) as (es' & ->). eauto.
    - rewrite entry_enter, beq_neq; [eauto|]. intros Q. rewrite Q, E in Fo. discriminate. }
  destruct I as [I|I].
  - injection I as -> ->. destruct X as [(_ & X)|[(_ & es & y & X & _)|(_ & _ & m2 & d2 & m' & X & R & Fo & ->)]]; [|discriminate|].
    + destruct X as [X|[(? & ? & _ & X)|X]]; congruence.
    + injection X as <- <-. split; [exact R|]. exists m'. split; [exact Fo|]. rewrite (go_same _ _ _ _ _ _ (n ++ B "c") N2 G).
      * now rewrite entry_enter, beq_refl.
      * intros e I2. destruct (K _ e (or_intror I2)) as (e' & E). rewrite E in Fo. discriminate.
      * intros n2 m2 d2 I2 _ _ Q. apply c_inj in Q. subst n2. apply N1. apply in_map_iff. now exists (n, File m2 d2).
  - destruct (IH _ _ _ _ _ N2 K1 G I M C) as (R & m' & Fo & E). split; [exact R|]. exists m'. split; [|exact E].
    assert (Nk : k <> n). { intros ->. apply N1. apply in_map_iff. now exists (n, File m d). }
    destruct X as [(-> & _)|[(_ & es & y & -> & Fd & ->)|(_ & Mk & m2 & d2 & m3 & -> & R2 & Fo2 & ->)]]; [exact Fo| |].
    + rewrite entry_enter in Fo. destruct (beq k (n ++ B "c")) eqn:Q; [|exact Fo]. destruct (enc_is_dir _ _ _ _ _ Fd) as (es' & ->). discriminate.
    + rewrite entry_enter, beq_neq in Fo; [exact Fo|]. intros Q. apply c_inj in Q. contradiction.
Qed.
Lemma first_spec u seal path es es1 : enc_first u seal path es = Ok es1 ->
  (forall k, k <> PACKAGE_MO ++ B "c" -> entry es1 k = entry es k) /\
  (forall k e, entry es k = Some (Dir e) -> entry es1 k = Some (Dir e)) /\
  (forall m d, entry es PACKAGE_MO = Some (File m d) -> readable u m = true -> exists m', fopen_write u (entry es (PACKAGE_MO ++ B "c")) = Some m' /\
     entry es1 (PACKAGE_MO ++ B "c") = Some (File m' (seal (path ++ [PACKAGE_MO]) d))) /\
  ((forall m d, entry es PACKAGE_MO <> Some (File m d)) -> es1 = es).
Proof.
  unfold enc_first. intros H.
  assert (X : es1 = es /\ (forall m d, entry es PACKAGE_MO = Some (File m d) -> readable u m = false) \/
    exists m d, entry es PACKAGE_MO = Some (File m d) /\ encrypt_file u seal path PACKAGE_MO m d es = Ok es1).
  { destruct (entry es PACKAGE_MO) as [[m d|e|]|]; try (left; split; [congruence|intros; discriminate]).
    destruct (readable u m) eqn:R; [right; eauto|]. left. split; [congruence|]. intros m2 d2 [= <- <-]. exact R. }
  destruct X as [(-> & X)|(m & d & E & F)].
  - split; [reflexivity|]. split; [now intros|]. split; [|reflexivity]. intros m d E R. specialize (X m d E). congruence.
  - apply encrypt_file_ok in F. destruct F as (R & m' & F & ->). split; [|split; [|split]].
    + intros k N. rewrite entry_enter, beq_neq; [reflexivity|congruence].
    + intros k e Ek. rewrite entry_enter, beq_neq; [exact Ek|]. intros Q. rewrite Q, Ek in F. discriminate.
    + intros m2 d2 E2 _. rewrite E in E2. injection E2 as <- <-. exists m'. split; [exact F|]. now rewrite entry_enter, beq_refl.
    + intros N. destruct (N _ _ E).
Qed.

Lemma caseeq_false n : map lower n <> B "package.mo" -> caseeq n PACKAGE_MO = false.
Proof. intros N. unfold caseeq. apply beq_neq. exact N. Qed.
Lemma caseeq_true n : caseeq n PACKAGE_MO = true -> map lower n = B "package.mo".
Proof. unfold caseeq. intros H. now apply beq_true in H. Qed.
Lemma snoc_cons {A} (p : list A) k q x : p ++ [x] = k :: q -> (p = [] /\ k = x /\ q = []) \/ exists p', p = k :: p' /\ q = p' ++ [x].
Proof. destruct p as [|a p]; cbn; intros [= <- <-]; [left; auto|right; eauto]. Qed.

Lemma enc_keep u seal p : forall t t' path m d, Tidy t -> encrypt_dir u seal path t = Ok t' -> find t p = Some (File m d) ->
  (forall dir n, p = dir ++ [n ++ B "c"] -> Encrypted n -> forall m' d', find t (dir ++ [n]) <> Some (File m' d')) -> find t' p = Some (File m d).
Proof.
  induction p as [|k q IH]; intros t t' path m d T H F NR.
  - cbn in F. injection F as ->. cbn in H. now injection H as <-.
  - destruct t as [|es|]; try discriminate. inversion T as [| |? ND Ts]; subst. rewrite enc_dir in H.
    destruct (enc_first u seal path es) as [es1| |] eqn:H1; cbn [bind] in H; try discriminate.
    destruct (enc_go u seal path es es1) as [es2| |] eqn:H2; cbn [bind] in H; try discriminate. injection H as <-.
    destruct (first_spec _ _ _ _ _ H1) as (S1 & S2 & S3 & S4).
    cbn [find] in F |- *. destruct (entry es k) as [x|] eqn:E; [|discriminate].
    destruct q as [|k2 q].
    + cbn in F. injection F as ->.
      assert (E1 : entry es1 k = Some (File m d)).
      { destruct (list_eq_dec ascii_dec k (PACKAGE_MO ++ B "c")) as [->|N]; [|now rewrite S1].
        rewrite S4; [exact E|]. intros m2 d2 Q. apply (NR [] PACKAGE_MO eq_refl (or_introl eq_refl) m2 d2). cbn [app find]. now rewrite Q. }
      rewrite (go_same _ _ _ _ _ _ k ND H2), E1; [reflexivity| |].
      * intros e I. rewrite (in_entry _ _ _ ND I) in E. discriminate.
      * intros n m2 d2 I M C Q. subst k. apply (NR [] n eq_refl) with (m' := m2) (d' := d2).
        -- right. split; [now apply is_modelica_spec|]. intros Q. rewrite (proj2 (beq_true (map lower n) (map lower PACKAGE_MO)) Q : caseeq n PACKAGE_MO = true) in C. discriminate.
        -- cbn [app find]. now rewrite (in_entry _ _ _ ND I).
    + assert (X : exists e, x = Dir e). { destruct x; try discriminate. eauto. } destruct X as (e & ->).
      destruct (go_dir _ _ _ _ _ _ k e ND H2 (S2 _ _ E)) as (_ & G2 & G3). destruct (caseeq k PACKAGE_MO) eqn:C.
      * rewrite (G3 (or_intror eq_refl)). exact F.
      * destruct (G2 e (entry_in _ _ _ E) eq_refl) as (y & Hy & ->). apply (IH (Dir e) y (path ++ [k])); [exact (Ts _ _ (entry_in _ _ _ E))|exact Hy|exact F|].
        intros dir n Q En m2 d2. specialize (NR (k :: dir) n). cbn [app find] in NR. rewrite E in NR. apply NR; [now rewrite Q|exact En].
Qed.

Lemma enc_new u seal dir : forall t t' path n m d, Tidy t -> encrypt_dir u seal path t = Ok t' -> find t (dir ++ [n]) = Some (File m d) ->
  Encrypted n -> Ordinary dir -> readable u m = true ->
  exists m', fopen_write u (find t (dir ++ [n ++ B "c"])) = Some m' /\ find t' (dir ++ [n ++ B "c"]) = Some (File m' (seal (path ++ dir ++ [n]) d)).
Proof.
  induction dir as [|k dir IH]; intros t t' path n m d T H F En O R; cbn [app] in F.
  - destruct t as [|es|]; try discriminate. inversion T as [| |? ND Ts]; subst. rewrite enc_dir in H.
    destruct (enc_first u seal path es) as [es1| |] eqn:H1; cbn [bind] in H; try discriminate.
    destruct (enc_go u seal path es es1) as [es2| |] eqn:H2; cbn [bind] in H; try discriminate. injection H as <-.
    destruct (first_spec _ _ _ _ _ H1) as (S1 & S2 & S3 & S4). cbn [app find] in F |- *.
    destruct (entry es n) as [x|] eqn:E; [|discriminate]. injection F as ->.
    destruct En as [->|[M C]].
    + change (B "package.mo") with PACKAGE_MO in *. destruct (S3 m d E R) as (m' & Fo & E1). exists m'.
      rewrite (go_same _ _ _ _ _ _ (PACKAGE_MO ++ B "c") ND H2), E1.
      * split; [|reflexivity]. destruct (entry es (PACKAGE_MO ++ B "c")); exact Fo.
      * intros e I. rewrite (in_entry _ _ _ ND I) in Fo. discriminate.
      * intros n m2 d2 I _ Cn Q. apply c_inj in Q. subst n. rewrite caseeq_refl in Cn. discriminate.
    + assert (K : Kept es es1). { intros k e I. exists e. apply S2. now apply in_entry. }
      destruct (go_file _ _ _ _ _ _ n m d ND K H2 (entry_in _ _ _ E) (proj2 (is_modelica_spec n) M) (caseeq_false _ C)) as (_ & m' & Fo & E2).
      exists m'. rewrite E2. split; [|reflexivity]. rewrite S1 in Fo; [destruct (entry es (n ++ B "c")); exact Fo|].
      intros Q. apply c_inj in Q. subst n. now apply C.
  - destruct t as [|es|]; try discriminate. inversion T as [| |? ND Ts]; subst. rewrite enc_dir in H.
    destruct (enc_first u seal path es) as [es1| |] eqn:H1; cbn [bind] in H; try discriminate.
    destruct (enc_go u seal path es es1) as [es2| |] eqn:H2; cbn [bind] in H; try discriminate. injection H as <-.
    destruct (first_spec _ _ _ _ _ H1) as (S1 & S2 & S3 & S4). cbn [app find] in F |- *.
    destruct (entry es k) as [x|] eqn:E; [|discriminate].
    assert (X : exists e, x = Dir e). { destruct x as [? ?|e|]; [|eauto|]; destruct dir; discriminate. } destruct X as (e & ->).
    destruct (go_dir _ _ _ _ _ _ k e ND H2 (S2 _ _ E)) as (_ & G2 & _).
    destruct (G2 e (entry_in _ _ _ E) (caseeq_false _ (O k (or_introl eq_refl)))) as (y & Hy & ->).
    destruct (IH (Dir e) y (path ++ [k]) n m d) as (m' & Fo & E2);
      [exact (Ts _ _ (entry_in _ _ _ E))|exact Hy|exact F|exact En|intros a I; apply O; now right|exact R|].
    exists m'. split; [exact Fo|]. rewrite E2. now rewrite <- app_assoc.
Qed.

(** ** Everything else *)

Lemma node_all (P : node -> Prop) : (forall m d, P (File m d)) -> P Link -> (forall es, (forall n x, In (n, x) es -> P x) -> P (Dir es)) -> forall t, P t.
Proof.
  intros Hf Hl Hd. fix IH 1. intros [m d|es|]; [apply Hf| |apply Hl]. apply Hd.
  induction es as [|[a b] r IHr]; intros n x I; [destruct I|]. destruct I as [E|I]; [|exact (IHr n x I)]. injection E as _ <-. apply IH.
Qed.

Definition Fine {A} (o : outcome A) : Prop := (exists x, o = Ok x) \/ o = UB NullDeref.
Lemma file_fine u seal path n m d es : Fine (encrypt_file u seal path n m d es).
Proof. unfold encrypt_file, Fine. destruct (readable u m); [|auto]. destruct (fopen_write u _); eauto. Qed.
Lemma enc_fine u seal t : forall path, Fine (encrypt_dir u seal path t).
Proof.
  induction t as [m d| |es IH] using node_all; intros path; [left; eexists; reflexivity|left; eexists; reflexivity|]. rewrite enc_dir.
  assert (F1 : Fine (enc_first u seal path es)).
  { unfold enc_first. destruct (entry es PACKAGE_MO) as [[m d|e|]|]; try (left; eexists; reflexivity).
    destruct (readable u m); [apply file_fine|left; eexists; reflexivity]. }
  destruct F1 as [(es1 & ->)| ->]; [|now right]. cbn [bind].
  assert (F2 : forall l cur, (forall n x, In (n, x) l -> In (n, x) es) -> Fine (enc_go u seal path l cur)).
  { induction l as [|[n x] r IHl]; intros cur I; [left; eexists; reflexivity|]. cbn [enc_go].
    assert (F3 : Fine (if caseeq n PACKAGE_MO then Ok cur else match x with
       | Dir _ => do y <- encrypt_dir u seal (path ++ [n]) x ; Ok (enter n y cur)
       | File m d => if is_modelica n then encrypt_file u seal path n m d cur else Ok cur
       | Link => Ok cur end)).
    { destruct (caseeq n PACKAGE_MO); [left; eexists; reflexivity|]. destruct x as [m d|e|].
      - destruct (is_modelica n); [apply file_fine|left; eexists; reflexivity].
      - destruct (IH n (Dir e) (I _ _ (or_introl eq_refl)) (path ++ [n])) as [(y & ->)| ->]; [left; eexists; reflexivity|now right].
      - left; eexists; reflexivity. }
    destruct F3 as [(c1 & ->)| ->]; [|now right]. cbn [bind]. apply IHl. intros a b J. apply I. now right. }
  destruct (F2 es es1 (fun _ _ i => i)) as [(es2 & ->)| ->]; [left; eexists; reflexivity|now right].
Qed.

Lemma enter_names n y l : forall k, In k (map fst (enter n y l)) -> k = n \/ In k (map fst l).
Proof.
  induction l as [|[m t] r IH]; cbn; intros k; [intuition congruence|]. destruct (beq m n) eqn:E; cbn; [tauto|]. intros [H|H]; [auto|]. apply IH in H. tauto.
Qed.
Lemma enter_tidy n y l : Tidy (Dir l) -> Tidy y -> Tidy (Dir (enter n y l)).
Proof.
  intros T Ty. inversion T as [| |? ND Ts]; subst. constructor.
  - clear T Ts. induction l as [|[m t] r IH]; cbn; [constructor; [intros []|constructor]|]. inversion ND as [|? ? N1 N2]; subst. destruct (beq m n) eqn:E; cbn.
    + now constructor.
    + constructor; [|auto]. intros I. apply enter_names in I. destruct I as [->|I]; [|contradiction]. rewrite beq_refl in E. discriminate.
  - clear T ND. induction l as [|[m t] r IH]; cbn; intros k x.
    + intros [[= <- <-]|[]]. exact Ty.
    + destruct (beq m n); cbn.
      * intros [[= <- <-]|I]; [exact Ty|]. apply (Ts k x). now right.
      * intros [[= <- <-]|I]; [apply (Ts m t); now left|]. apply (IH (fun a b J => Ts a b (or_intror J)) k x I).
Qed.
Lemma tidy_nil : Tidy (Dir []).
Proof. constructor; [constructor|intros ? ? []]. Qed.
Lemma entry_tidy l n x : Tidy (Dir l) -> entry l n = Some x -> Tidy x.
Proof. intros T E. inversion T as [| |? ND Ts]; subst. exact (Ts _ _ (entry_in _ _ _ E)). Qed.
Lemma copy_tidy u t : forall dst r, (forall x, dst = Some x -> Tidy x) -> copy_node u t dst = Some r -> Tidy r.
Proof.
  induction t as [m d| |es IH] using node_all; intros dst r T H.
  - cbn in H. unfold copy_file in H. destruct (readable u m); [|auto]. destruct (fopen_write u dst); cbn in H; [|auto]. injection H as <-. constructor.
  - cbn in H. auto.
  - assert (G : forall l, (forall n x, In (n, x) l -> In (n, x) es) -> forall cur, Tidy (Dir cur) -> Tidy (Dir (copy_go u l cur))).
    { induction l as [|[n x] l IHl]; intros I cur Tc; [exact Tc|]. cbn [copy_go].
      assert (I2 : forall a b, In (a, b) l -> In (a, b) es) by (intros a b J; apply I; now right).
      destruct (beq n DOT_LIBRARY); [now apply IHl|]. apply (IHl I2). destruct (copy_node u x (entry cur n)) as [y|] eqn:C; [|exact Tc].
      apply enter_tidy; [exact Tc|]. apply (IH n x (I _ _ (or_introl eq_refl)) (entry cur n) y); [|exact C]. intros z Ez. exact (entry_tidy _ _ _ Tc Ez). }
    destruct dst as [[m d|l|]|].
    + cbn in H. auto.
    + rewrite copy_dir in H. injection H as <-. apply G; auto.
    + cbn in H. auto.
    + rewrite copy_dir_new in H. injection H as <-. apply G; auto. apply tidy_nil.
Qed.
Lemma lves_tidy u lves : forall dot ok dot', Tidy (Dir dot) -> copy_lves u lves dot = (ok, dot') -> Tidy (Dir dot').
Proof.
  induction lves as [|[n [m d]] r IH]; intros dot ok dot' T H; cbn in H.
  - now injection H as _ <-.
  - unfold copy_file in H. destruct (readable u m).
    + destruct (fopen_write u (entry dot n)).
      * apply (IH _ _ _ (enter_tidy n _ _ T (Tidy_file _ d)) H).
      * destruct (entry dot n); injection H as _ <-; exact T.
    + destruct (entry dot n); injection H as _ <-; exact T.
Qed.
Lemma copy_back u p : forall t r m d, Tidy t -> copy_node u t None = Some r -> find r p = Some (File m d) ->
  exists k, find t p = Some (File k d) /\ m = N.land k 4095 /\ readable u k = true.
Proof.
  induction p as [|n p IH]; intros t r m d T C F.
  - cbn in F. injection F as ->. destruct t as [k e|es|]; cbn in C; [|discriminate|discriminate]. unfold copy_file in C. destruct (readable u k) eqn:R; cbn in C; [|discriminate].
    injection C as <- <-. exists k. auto.
  - destruct t as [k e|es|].
    + cbn in C. unfold copy_file in C. destruct (readable u k); cbn in C; [|discriminate]. injection C as <-. discriminate.
    + inversion T as [| |? ND Ts]; subst. rewrite copy_dir_new in C. injection C as <-. cbn [find] in F |- *. rewrite (copy_entry _ _ ND) in F.
      destruct (entry es n) as [x|] eqn:E; cbn [entry] in F; [|discriminate]. destruct (beq n DOT_LIBRARY); [discriminate|].
      destruct (copy_node u x None) as [y|] eqn:Cx; [|discriminate]. exact (IH x y m d (Ts _ _ (entry_in _ _ _ E)) Cx F).
    + discriminate.
Qed.

(** ** The staged library *)

Definition whole (u : user) (lib dot : list (bytes * node)) (m : N) (doc : bytes) : node :=
  Dir (enter DOT_LIBRARY (Dir (enter (B "manifest.xml") (File m doc) dot)) (copy_go u lib [])).
Definition extra_copied (u : user) (extra : option (list (bytes * node))) (dot : list (bytes * node)) : list (bytes * node) :=
  match extra with Some es => copy_go u es dot | None => dot end.
Lemma stage_eq u seal lib lves extra doc : stage u seal lib lves extra doc =
  match copy_lves u lves [] with
  | (true, dot) =>
      match fopen_write u (entry (extra_copied u extra dot) (B "manifest.xml")) with
      | Some m => do t <- encrypt_dir u seal [] (whole u lib (extra_copied u extra dot) m doc) ; Ok (Some t)
      | None => UB NullDeref
      end
  | (false, _) => Ok None
  end.
Proof.
  unfold stage. rewrite copy_dir. destruct (copy_lves u lves []) as [[|] dot]; [|reflexivity]. destruct extra as [es|]; [rewrite copy_dir|]; reflexivity.
Qed.
Lemma whole_tidy u lib lves dot ok extra m doc : copy_lves u lves [] = (ok, dot) -> Tidy (whole u lib (extra_copied u extra dot) m doc).
Proof.
  intros C. apply enter_tidy.
  - apply (copy_tidy u (Dir lib) None); [discriminate|apply copy_dir_new].
  - apply enter_tidy; [|constructor]. pose proof (lves_tidy _ _ _ _ _ tidy_nil C) as T. destruct extra as [es|]; [|exact T].
    apply (copy_tidy u (Dir es) (Some (Dir dot))); [intros x [= <-]; exact T|apply copy_dir].
Qed.
Lemma stage_ok u seal lib lves extra doc t : stage u seal lib lves extra doc = Ok (Some t) -> exists dot m,
  copy_lves u lves [] = (true, dot) /\ encrypt_dir u seal [] (whole u lib (extra_copied u extra dot) m doc) = Ok t.
Proof.
  rewrite stage_eq. destruct (copy_lves u lves []) as [[|] dot]; [|discriminate]. destruct (fopen_write u _) as [m|]; [|discriminate].
  destruct (encrypt_dir u seal [] _) as [x| |] eqn:E; cbn [bind]; try discriminate. intros [= <-]. exists dot, m. auto.
Qed.
Lemma whole_find u lib dot m doc k q : k <> DOT_LIBRARY -> find (whole u lib dot m doc) (k :: q) = find (Dir (copy_go u lib [])) (k :: q).
Proof. intros N. unfold whole. cbn [find]. now rewrite entry_enter, beq_neq by congruence. Qed.

Lemma library_modes u seal lib lves extra doc t : Tidy (Dir lib) -> stage u seal lib lves extra doc = Ok (Some t) ->
  forall p m d, HasFile (Dir lib) p m d -> ~ In (B ".library") p -> MayRead u m ->
  (forall dir n, p = dir ++ [n ++ B "c"] -> Encrypted n -> forall m' d', ~ HasFile (Dir lib) (dir ++ [n]) m' d') ->
  exists m', HasFile t p m' d /\ SameMode m' m.
Proof.
  intros T H p m d F N R NR. destruct (stage_ok _ _ _ _ _ _ _ H) as (dot & mm & C & E). apply (has_find _ _ _ _ T) in F. apply readable_spec in R.
  exists (N.land m 4095). split; [|apply low_mode]. apply find_has. destruct (copy_find u p (Dir lib) m d T F N R) as (r & Cr & Fr).
  rewrite copy_dir_new in Cr. injection Cr as <-. destruct p as [|k q]; [discriminate|].
  assert (Nk : k <> DOT_LIBRARY) by (intros ->; apply N; now left).
  apply (enc_keep u seal (k :: q) _ t [] _ _ (whole_tidy _ _ _ _ _ _ _ _ C) E); [now rewrite whole_find|].
  intros dir n Q En m2 d2 X. assert (Y : exists k2 q2, dir ++ [n] = k2 :: q2 /\ k2 <> DOT_LIBRARY).
  { destruct dir as [|a dir]; [|cbn in Q; injection Q as <- _; eexists _, _; split; [reflexivity|exact Nk]].
    exists n, []. split; [reflexivity|]. intros ->. destruct En as [En|[M _]]; [discriminate|]. apply is_modelica_spec in M. discriminate. }
  destruct Y as (k2 & q2 & Eq & Nk2). rewrite Eq, whole_find in X by exact Nk2. rewrite <- Eq in X.
  destruct (copy_back u (dir ++ [n]) (Dir lib) _ m2 d2 T (copy_dir_new u lib) X) as (k0 & Fk & _). apply find_has in Fk. exact (NR dir n Q En _ _ Fk).
Qed.

Lemma encrypted_modes u seal lib lves extra doc t : Tidy (Dir lib) -> stage u seal lib lves extra doc = Ok (Some t) ->
  forall dir n m d, HasFile (Dir lib) (dir ++ [n]) m d -> ~ In (B ".library") dir -> Encrypted n -> Ordinary dir -> MayRead u m ->
  exists m', HasFile t (dir ++ [n ++ B "c"]) m' (seal (dir ++ [n]) d) /\
    ((forall k e, HasFile (Dir lib) (dir ++ [n ++ B "c"]) k e -> ~ MayRead u k) -> NewMode u m') /\
    (forall k e, HasFile (Dir lib) (dir ++ [n ++ B "c"]) k e -> MayRead u k -> SameMode m' k /\ MayWrite u m').
Proof.
  intros T H dir n m d F N En O R. destruct (stage_ok _ _ _ _ _ _ _ H) as (dot & mm & C & E). apply (has_find _ _ _ _ T) in F. apply readable_spec in R.
  assert (Nn : n <> DOT_LIBRARY). { intros ->. destruct En as [En|[M _]]; [discriminate|]. apply is_modelica_spec in M. discriminate. }
  assert (Nc : n ++ B "c" <> DOT_LIBRARY). { intros Q. apply (f_equal (@rev ascii)) in Q. rewrite rev_app_distr in Q. discriminate. }
  destruct (copy_find u _ (Dir lib) m d T F) as (r & Cr & Fr); [rewrite in_app_iff; intros [I|[I|[]]]; [contradiction|congruence]|exact R|].
  rewrite copy_dir_new in Cr. injection Cr as <-.
  assert (W : forall x, x <> DOT_LIBRARY -> find (whole u lib (extra_copied u extra dot) mm doc) (dir ++ [x]) = find (Dir (copy_go u lib [])) (dir ++ [x])).
  { intros x Nx. destruct dir as [|a dir']; cbn [app]; apply whole_find; [exact Nx|]. intros ->. apply N. now left. }
  destruct (enc_new u seal dir _ t [] n (N.land m 4095) d (whole_tidy _ _ _ _ _ _ _ _ C) E) as (m' & Fo & Fm); [rewrite W by exact Nn; exact Fr|exact En|exact O| |].
  { apply readable_spec in R. apply readable_spec. destruct R as [R|R]; [now left|right]. now rewrite (low_mode m 8%N). }
  exists m'. split; [apply find_has; exact Fm|]. rewrite W in Fo by exact Nc. split.
  - intros No. apply fopen_some in Fo. destruct Fo as [(_ & Fo)|(e & Fe & _)]; [exact Fo|]. exfalso.
    destruct (copy_back u _ (Dir lib) _ _ _ T (copy_dir_new u lib) Fe) as (k & Fk & _ & Rk). apply (No k e); [now apply find_has|now apply readable_spec].
  - intros k e Hk Rk. apply (has_find _ _ _ _ T) in Hk. apply readable_spec in Rk.
    destruct (copy_find u _ (Dir lib) k e T Hk) as (r & Cr & Fr2); [rewrite in_app_iff; intros [I|[I|[]]]; [contradiction|congruence]|exact Rk|].
    rewrite copy_dir_new in Cr. injection Cr as <-. rewrite Fr2 in Fo. apply fopen_some in Fo. destruct Fo as [(Fo & _)|(e2 & Fe & Wm)]; [discriminate|].
    injection Fe as <- _. split; [apply low_mode|exact Wm].
Qed.

Lemma same_run u a b : SameMode a b -> (MayRun u a <-> MayRun u b).
Proof.
  intros S. unfold MayRun. destruct (u_root u).
  - split; intros (k & I & H); exists k; (split; [exact I|]); [rewrite <- S|rewrite S]; try exact H; cbn in I; intuition (subst; reflexivity).
  - now rewrite (S 6%N eq_refl).
Qed.
Lemma lve_modes u seal lib lves extra doc t : Tidy (Dir lib) -> (forall es, extra = Some es -> Tidy (Dir es)) -> NoDup (map fst lves) ->
  stage u seal lib lves extra doc = Ok (Some t) ->
  forall n m d, In (n, (m, d)) lves -> In n (map fst ManifestSpec.shipped) -> (forall es, extra = Some es -> ~ In n (map fst es)) ->
  exists m', HasFile t [B ".library"; n] m' d /\ SameMode m' m /\ (MayRun u m' <-> MayRun u m).
Proof.
  intros T Te ND H n m d I In_ Ne. destruct (stage_ok _ _ _ _ _ _ _ H) as (dot & mm & C & E).
  exists (N.land m 4095). split; [|split; [apply low_mode|apply same_run, low_mode]]. apply find_has.
  assert (Nm : n <> B "manifest.xml") by (intros ->; cbn in In_; intuition discriminate).
  apply (enc_keep u seal [DOT_LIBRARY; n] _ t [] _ _ (whole_tidy _ _ _ _ _ _ _ _ C) E).
  - unfold whole. cbn [find]. rewrite entry_enter, beq_refl. cbn [find]. rewrite entry_enter, beq_neq by congruence.
    destruct (lves_entry u lves _ _ ND C n) as [_ A]. specialize (A m d I). unfold extra_copied. destruct extra as [es|]; [|now rewrite A].
    specialize (Te es eq_refl). inversion Te as [| |? NDe _]; subst. rewrite (copy_entry _ _ NDe), (entry_none _ _ (Ne es eq_refl)). now rewrite A.
  - intros dir x Q _ m2 d2. exfalso. change [DOT_LIBRARY; n] with ([DOT_LIBRARY] ++ [n]) in Q. apply app_inj_tail in Q. destruct Q as [_ Q]. subst n.
    apply in_map_iff in In_. destruct In_ as ((a & b) & Ea & In_). cbn in Ea. subst a. cbn in In_.
    assert (Z : forall s, x ++ B "c" = s -> hd NUL (rev s) = hd NUL (rev (B "c"))) by (intros s <-; now rewrite rev_app_distr).
    destruct In_ as [X|[X|[X|[X|[X|[]]]]]]; injection X as X _; symmetry in X; apply Z in X; discriminate.
Qed.

Lemma stale_crash u seal lib lves doc : Tidy (Dir lib) -> NoDup (map fst lves) -> (forall n m d, In (n, (m, d)) lves -> MayRead u m) ->
  forall dir n m d k e, HasFile (Dir lib) (dir ++ [n]) m d -> ~ In (B ".library") dir -> Encrypted n -> Ordinary dir -> MayRead u m ->
  HasFile (Dir lib) (dir ++ [n ++ B "c"]) k e -> MayRead u k -> ~ MayWrite u k ->
  ~ In (B "manifest.xml") (map fst lves) -> stage u seal lib lves None doc = UB NullDeref.
Proof.
  intros T ND Rl dir n m d k e F N En O R Fk Rk Wk Nm. 
  assert (L : forall l dot, NoDup (map fst l) -> (forall a b c, In (a, (b, c)) l -> MayRead u b) -> (forall a, In a (map fst l) -> entry dot a = None) ->
    exists dot', copy_lves u l dot = (true, dot') /\ (forall a, ~ In a (map fst l) -> entry dot' a = entry dot a)).
  { induction l as [|[a [b c]] l IH]; intros dot NDl Ra En0; [exists dot; split; [reflexivity|reflexivity]|]. inversion NDl as [|? ? N1 N2]; subst. cbn [copy_lves].
    unfold copy_file. rewrite (proj2 (readable_spec u b) (Ra a b c (or_introl eq_refl))), (En0 a (or_introl eq_refl)). cbn [fopen_write].
    destruct (IH (enter a (File (N.land b 4095) c) dot) N2) as (dot' & C & K).
    - intros a2 b2 c2 I. apply (Ra a2 b2 c2). now right.
    - intros a2 I. rewrite entry_enter, beq_neq; [apply En0; now right|]. intros ->. contradiction.
    - exists dot'. split; [exact C|]. intros a2 I. rewrite K by (intros I2; apply I; now right). rewrite entry_enter, beq_neq; [reflexivity|]. intros ->. apply I. now left. }
  destruct (L lves [] ND Rl (fun _ _ => eq_refl)) as (dot & C & K).
  destruct (stage u seal lib lves None doc) as [[t|]|x|] eqn:E.
  - exfalso. destruct (encrypted_modes _ _ _ _ _ _ _ T E dir n m d F N En O R) as (m' & _ & _ & X). destruct (X k e Fk Rk) as [S W]. apply Wk.
    destruct W as [W|W]; [now left|right]. now rewrite <- (S 7%N eq_refl).
  - exfalso. rewrite stage_eq, C in E. cbn [extra_copied] in E. destruct (fopen_write u _); [|discriminate]. destruct (encrypt_dir u seal [] _); discriminate.
  - rewrite <- E. rewrite stage_eq, C in E |- *. cbn [extra_copied] in *. destruct (fopen_write u _) as [mm|]; [|reflexivity].
    destruct (enc_fine u seal (whole u lib dot mm doc) []) as [(y & Q)|Q]; rewrite Q in E |- *; [discriminate|reflexivity].
  - exfalso. rewrite stage_eq, C in E. cbn [extra_copied] in *. destruct (fopen_write u _) as [mm|]; [|discriminate].
    destruct (enc_fine u seal (whole u lib dot mm doc) []) as [(y & Q)|Q]; rewrite Q in E; discriminate.
Qed.

Lemma win_header name : (h_made_by (central_header name) / 256 <> 3)%N.
Proof. discriminate. Qed.
Lemma new_no_run u m : NewMode u m -> ~ MayRun u m.
Proof.
  intros H. unfold MayRun. destruct (u_root u).
  - intros (k & I & Hk). apply H in Hk. destruct Hk as [J _]. cbn in I, J. intuition (subst; discriminate).
  - intros Hk. apply H in Hk. destruct Hk as [J _]. cbn in J. intuition discriminate.
Qed.
Lemma access_spec u m : access_x u m = true <-> MayRun u m.
Proof.
  unfold access_x, MayRun. destruct (u_root u); [|reflexivity]. rewrite negb_true_iff, N.eqb_neq. split.
  - intros N0. destruct (N.testbit m 0) eqn:B0; [exists 0%N; cbn; auto|]. destruct (N.testbit m 3) eqn:B3; [exists 3%N; cbn; auto|].
    destruct (N.testbit m 6) eqn:B6; [exists 6%N; cbn; auto|]. exfalso. apply N0. apply N.bits_inj. intros k. rewrite N.land_spec, N.bits_0.
    destruct (N.testbit 73 k) eqn:Bk; [|apply andb_false_r]. rewrite andb_true_r.
    assert (L : (k < 7)%N). { destruct (N.lt_ge_cases k 7) as [L|L]; [exact L|]. rewrite N.bits_above_log2 in Bk; [discriminate|]. cbn. lia. }
    assert (X : (k = 0 \/ k = 1 \/ k = 2 \/ k = 3 \/ k = 4 \/ k = 5 \/ k = 6)%N) by lia. decompose [or] X; subst k; try assumption; discriminate.
  - intros (k & I & H) Z. apply (f_equal (fun x => N.testbit x k)) in Z. rewrite N.land_spec, N.bits_0, H in Z. cbn in I. intuition (subst; discriminate).
Qed.
