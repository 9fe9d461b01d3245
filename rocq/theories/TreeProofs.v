(** Lemmas about directory trees. *)
From Coq Require Import Permutation.
From Verif Require Import Base BaseProofs ArgsModel ArgsSpec ManifestModel ManifestSpec CryptModel CryptSpec PackageModel PackageSpec.

Lemma tree_induction (P : tree -> Prop) :
  (forall d, P (Reg d)) -> P Other -> (forall es, (forall n x, In (n, x) es -> P x) -> P (Folder es)) -> forall t, P t.
Proof.
  intros HR HO HF. fix IH 1. intros [d|es|]; [apply HR| |apply HO]. apply HF.
  induction es as [|[m y] r IHr]; intros n x I; [contradiction|].
  destruct I as [E|I]; [|exact (IHr n x I)]. injection E as _ <-. apply IH.
Qed.

Lemma lookup_in es n t : lookup es n = Some t -> In (n, t) es.
Proof.
  induction es as [|[m u] r IH]; cbn [lookup]; [discriminate|]. destruct (beq m n) eqn:E.
  - intros [= ->]. apply beq_true in E. subst. now left.
  - intros H. right. now apply IH.
Qed.
Lemma lookup_none es n : lookup es n = None <-> ~ In n (map fst es).
Proof.
  induction es as [|[m u] r IH]; cbn [lookup map fst In]; [tauto|]. destruct (beq m n) eqn:E.
  - apply beq_true in E. subst. split; [discriminate|]. tauto.
  - apply beq_false in E. rewrite IH. tauto.
Qed.
Lemma in_lookup es n t : NoDup (map fst es) -> In (n, t) es -> lookup es n = Some t.
Proof.
  induction es as [|[m u] r IH]; cbn [lookup map fst]; intros ND I; [contradiction|]. inversion ND as [|? ? Nm ND']; subst.
  destruct I as [E|I].
  - injection E as -> ->. now rewrite beq_refl.
  - destruct (beq m n) eqn:E; [|now apply IH]. apply beq_true in E. subst. destruct Nm. exact (in_map fst r (n, t) I).
Qed.
Lemma set_entry_in es n t m x : In (m, x) (set_entry n t es) -> (m = n /\ x = t) \/ (In (m, x) es).
Proof.
  induction es as [|[k u] r IH]; cbn [set_entry In].
  - intros [[= <- <-]|[]]. now left.
  - destruct (beq k n) eqn:E; cbn [In].
    + apply beq_true in E. subst. intros [[= <- <-]|H]; [now left|]. right. now right.
    + intros [H|H]; [right; now left|]. destruct (IH H) as [H'|H']; [now left|]. right. now right.
Qed.
Lemma set_entry_new es n t : In (n, t) (set_entry n t es).
Proof.
  induction es as [|[k u] r IH]; cbn [set_entry]; [now left|]. destruct (beq k n) eqn:E; [|now right].
  apply beq_true in E. subst. now left.
Qed.
Lemma set_entry_old es n t m x : m <> n -> In (m, x) es -> In (m, x) (set_entry n t es).
Proof.
  intros N. induction es as [|[k u] r IH]; cbn [set_entry In]; [tauto|]. intros H. destruct (beq k n) eqn:E.
  - apply beq_true in E. subst. destruct H as [[= -> ->]|H]; [contradiction|now right].
  - destruct H as [H|H]; [now left|]. right. now apply IH.
Qed.
Lemma set_entry_names es n t : map fst (set_entry n t es) = map fst es \/ (map fst (set_entry n t es) = map fst es ++ [n] /\ ~ In n (map fst es)).
Proof.
  induction es as [|[k u] r IH]; cbn [set_entry map fst app]; [right; now split|]. destruct (beq k n) eqn:E; cbn [map fst].
  - now left.
  - apply beq_false in E. destruct IH as [IH|[IH N]]; rewrite IH; [now left|]. right. split; [reflexivity|]. intros [H|H]; contradiction.
Qed.
Lemma nodup_snoc {A} (l : list A) x : NoDup l -> ~ In x l -> NoDup (l ++ [x]).
Proof.
  induction l as [|y l IH]; cbn [app]; intros ND N; [constructor; [tauto|constructor]|]. inversion ND; subst. constructor.
  - rewrite in_app_iff. intros [H|[H|[]]]; [contradiction|]. subst. apply N. now left.
  - apply IH; [assumption|]. intros H. apply N. now right.
Qed.
Lemma set_entry_nodup es n t : NoDup (map fst es) -> NoDup (map fst (set_entry n t es)).
Proof. intros ND. destruct (set_entry_names es n t) as [->|[-> N]]; [exact ND|now apply nodup_snoc]. Qed.
Lemma set_entry_absent es n t : ~ In n (map fst es) -> set_entry n t es = es ++ [(n, t)].
Proof.
  induction es as [|[k u] r IH]; cbn [set_entry map fst In app]; [reflexivity|]. intros N. destruct (beq k n) eqn:E.
  - apply beq_true in E. subst. tauto.
  - rewrite IH; tauto.
Qed.

Lemma set_files_cons nd l es : set_files (nd :: l) es = set_files l (set_entry (fst nd) (Reg (snd nd)) es).
Proof. reflexivity. Qed.
Lemma set_files_app l1 l2 es : set_files (l1 ++ l2) es = set_files l2 (set_files l1 es).
Proof. unfold set_files. apply fold_left_app. Qed.
Lemma set_files_in l : forall es m x, In (m, x) (set_files l es) -> In (m, x) es \/ exists d, x = Reg d /\ In (m, d) l.
Proof.
  induction l as [|[n d] l IH]; intros es m x H; [now left|]. rewrite set_files_cons in H. cbn [fst snd] in H.
  destruct (IH _ _ _ H) as [H'|(d' & -> & I)].
  - destruct (set_entry_in _ _ _ _ _ H') as [[-> ->]|H'']; [|now left]. right. exists d. split; [reflexivity|now left].
  - right. exists d'. split; [reflexivity|now right].
Qed.
Lemma set_files_old l : forall es m x, ~ In m (map fst l) -> In (m, x) es -> In (m, x) (set_files l es).
Proof.
  induction l as [|[n d] l IH]; intros es m x N I; [exact I|]. rewrite set_files_cons. cbn [map fst snd In] in *. apply IH; [tauto|].
  apply set_entry_old; [|exact I]. intros ->. tauto.
Qed.
Lemma set_files_new l : forall es m d, NoDup (map fst l) -> In (m, d) l -> In (m, Reg d) (set_files l es).
Proof.
  induction l as [|[n d] l IH]; intros es m e ND I; [contradiction|]. rewrite set_files_cons. cbn [map fst snd] in *. inversion ND; subst.
  destruct I as [[= -> ->]|I]; [|now apply IH]. apply set_files_old; [assumption|apply set_entry_new].
Qed.
Lemma set_files_nodup l : forall es, NoDup (map fst es) -> NoDup (map fst (set_files l es)).
Proof. induction l as [|nd l IH]; intros es ND; [exact ND|]. rewrite set_files_cons. now apply IH, set_entry_nodup. Qed.

(** ** Paths *)

Lemma at_cons es n p y : At (Folder es) (n :: p) y <-> exists x, In (n, x) es /\ At x p y.
Proof. split; [intros H; inversion H; subst; eauto|]. intros (x & I & A). now apply At_below with x. Qed.
Lemma at_nil t y : At t [] y <-> t = y.
Proof. split; [intros H; now inversion H|intros ->; constructor]. Qed.
Lemma at_reg d p y : At (Reg d) p y <-> p = [] /\ y = Reg d.
Proof. split; [intros H; inversion H; auto|intros [-> ->]; constructor]. Qed.
Lemma at_other p y : At Other p y <-> p = [] /\ y = Other.
Proof. split; [intros H; inversion H; auto|intros [-> ->]; constructor]. Qed.
Lemma at_folder_reg es p d : At (Folder es) p (Reg d) -> exists n q x, p = n :: q /\ In (n, x) es /\ At x q (Reg d).
Proof. intros H. inversion H; subst. eauto 6. Qed.
Lemma at_app t p q y : At t (p ++ q) y <-> exists x, At t p x /\ At x q y.
Proof.
  revert t. induction p as [|n p IH]; intros t; cbn [app].
  - split; [intros H; exists t; split; [constructor|exact H]|]. intros (x & A & A'). apply at_nil in A. now subst.
  - split.
    + intros H. inversion H as [|es n' x p' y' I A]; subst. apply IH in A. destruct A as (z & A1 & A2). exists z.
      split; [now apply At_below with x|exact A2].
    + intros (z & A1 & A2). inversion A1 as [|es n' x p' y' I A]; subst. apply At_below with x; [exact I|]. apply IH. eauto.
Qed.

Lemma slashed_cons n p : p <> [] -> slashed (n :: p) = n ++ [SLASH] ++ slashed p.
Proof. destruct p; [contradiction|reflexivity]. Qed.
Lemma slashed_path p n : slashed (p ++ [n]) = path_of p n.
Proof.
  induction p as [|c p IH]; [reflexivity|]. cbn [app]. rewrite slashed_cons by (destruct p; discriminate). rewrite IH. reflexivity.
Qed.
Lemma slashed_snoc p n : p <> [] -> slashed (p ++ [n]) = slashed p ++ [SLASH] ++ n.
Proof.
  induction p as [|c p IH]; [contradiction|]. intros _. destruct p as [|c2 p]; [reflexivity|].
  cbn [app]. rewrite slashed_cons by discriminate. cbn [app] in IH. rewrite IH by discriminate. rewrite (slashed_cons c) by discriminate.
  rewrite <- !app_assoc. reflexivity.
Qed.

(** ** Proper trees *)

Lemma proper_folder es : Proper (Folder es) -> NoDup (map fst es) /\ forall n x, In (n, x) es -> FileName n /\ Proper x.
Proof. intros H. inversion H; subst. now split. Qed.
Lemma proper_at t p x : Proper t -> At t p x -> Proper x /\ Forall FileName p.
Proof.
  intros P A. induction A as [t|es n x p y I A IH]; [now split|]. destruct (proper_folder es P) as [_ F].
  destruct (F n x I) as [Fn Px]. destruct (IH Px) as [Py Fp]. split; [exact Py|now constructor].
Qed.
Lemma proper_set_entry es n x : Proper (Folder es) -> FileName n -> Proper x -> Proper (Folder (set_entry n x es)).
Proof.
  intros P Fn Px. destruct (proper_folder es P) as [ND F]. constructor; [now apply set_entry_nodup|].
  intros m y I. destruct (set_entry_in _ _ _ _ _ I) as [[-> ->]|I']; [now split|now apply F].
Qed.
Lemma proper_set_files l : forall es, Proper (Folder es) -> Forall FileName (map fst l) -> Proper (Folder (set_files l es)).
Proof.
  induction l as [|[n d] l IH]; intros es P F; [exact P|]. cbn [map fst] in F. inversion F; subst. rewrite set_files_cons. apply IH; [|assumption].
  apply proper_set_entry; [exact P|assumption|constructor].
Qed.
Lemma at_unique t p x : Proper t -> At t p x -> forall y, At t p y -> x = y.
Proof.
  intros P A. induction A as [t|es n x p z I A IH]; intros y A'; [now apply at_nil in A'|].
  apply at_cons in A'. destruct A' as (x' & I' & A'). destruct (proper_folder es P) as [ND F].
  assert (x' = x) as ->. { apply in_lookup in I; [|exact ND]. apply in_lookup in I'; [|exact ND]. congruence. }
  apply IH; [now apply (F n x)|exact A'].
Qed.

(** ** Reading a directory again *)

Lemma same_folder l l2 : Same (Folder l) (Folder l2) -> exists l1, Forall2 (fun a b => fst a = fst b /\ Same (snd a) (snd b)) l l1 /\ Permutation l1 l2.
Proof. intros H. inversion H; subst. eauto. Qed.
Lemma forall2_in_l {A C} (P : A -> C -> Prop) l m : Forall2 P l m -> forall x, In x l -> exists y, In y m /\ P x y.
Proof.
  induction 1 as [|a b l m H _ IH]; intros x I; [contradiction|]. destruct I as [<-|I]; [exists b; split; [now left|exact H]|].
  destruct (IH x I) as (y & Iy & Py). exists y. split; [now right|exact Py].
Qed.
Lemma forall2_in_r {A C} (P : A -> C -> Prop) l m : Forall2 P l m -> forall y, In y m -> exists x, In x l /\ P x y.
Proof.
  induction 1 as [|a b l m H _ IH]; intros x I; [contradiction|]. destruct I as [<-|I]; [exists a; split; [now left|exact H]|].
  destruct (IH x I) as (y & Iy & Py). exists y. split; [now right|exact Py].
Qed.
Lemma same_in l l2 : Same (Folder l) (Folder l2) -> forall n x, In (n, x) l -> exists y, In (n, y) l2 /\ Same x y.
Proof.
  intros H n x I. destruct (same_folder _ _ H) as (l1 & F & P). destruct (forall2_in_l _ _ _ F _ I) as ([m y] & Iy & E & S). cbn [fst snd] in *. subst m.
  exists y. split; [exact (Permutation_in _ P Iy)|exact S].
Qed.
Lemma same_in_r l l2 : Same (Folder l) (Folder l2) -> forall n y, In (n, y) l2 -> exists x, In (n, x) l /\ Same x y.
Proof.
  intros H n y I. destruct (same_folder _ _ H) as (l1 & F & P). apply (Permutation_in _ (Permutation_sym P)) in I.
  destruct (forall2_in_r _ _ _ F _ I) as ([m x] & Ix & E & S). cbn [fst snd] in *. subst m. exists x. now split.
Qed.
Lemma same_names l l2 : Same (Folder l) (Folder l2) -> Permutation (map fst l) (map fst l2).
Proof.
  intros H. destruct (same_folder _ _ H) as (l1 & F & P). rewrite <- (Permutation_map fst P).
  clear - F. induction F as [|a b l m [E _] _ IH]; [constructor|]. cbn [map]. rewrite E. now constructor.
Qed.
Lemma same_at t : forall t' p d, Same t t' -> (At t p (Reg d) <-> At t' p (Reg d)).
Proof.
  induction t as [e| |es IH] using tree_induction; intros t' p d S.
  - inversion S; subst. tauto.
  - inversion S; subst. tauto.
  - inversion S as [| |l l1 l2 F P]; subst. split; intros A; apply at_folder_reg in A; destruct A as (n & q & x & -> & I & A).
    + destruct (same_in _ _ S n x I) as (y & Iy & Sy). apply At_below with y; [exact Iy|]. now apply (IH n x I y q d Sy).
    + destruct (same_in_r _ _ S n x I) as (y & Iy & Sy). apply At_below with y; [exact Iy|]. now apply (IH n y Iy x q d Sy).
Qed.
Lemma same_proper t : forall t', Same t t' -> Proper t -> Proper t'.
Proof.
  induction t as [e| |es IH] using tree_induction; intros t' S P.
  - inversion S; subst. exact P.
  - inversion S; subst. exact P.
  - inversion S as [| |l l1 l2 F Pm]; subst. destruct (proper_folder es P) as [ND Fe]. constructor.
    + exact (Permutation_NoDup (same_names _ _ S) ND).
    + intros n y I. destruct (same_in_r _ _ S n y I) as (x & Ix & Sx). destruct (Fe n x Ix) as [Fn Px]. split; [exact Fn|]. now apply (IH n x Ix).
Qed.
Lemma same_folder_inv es t : Same (Folder es) t -> exists l, t = Folder l.
Proof. intros H. inversion H; subst. eauto. Qed.

(** ** Names *)

Lemma is_modelica_spec n : is_modelica n = true <-> Modelica n.
Proof.
  unfold is_modelica. split.
  - destruct (rfind_byte DOT n) as [i|] eqn:R; [|discriminate]. intros H. apply beq_true in H.
    destruct (proj1 (rfind_byte_some _ _ _) R) as (pre & post & E & N & L). subst n. exists pre, post. split; [reflexivity|].
    rewrite skipn_app, L, skipn_all2, Nat.sub_diag in H by lia. cbn [skipn app] in H. unfold to_lower in H. cbn [map] in H.
    exact (f_equal (@tl _) H).
  - intros (b & e & -> & He). assert (N : ~ In DOT e).
    { intros I. apply (in_map lower) in I. rewrite He in I. cbn in I. repeat destruct I as [I|I]; try discriminate I; exact I. }
    cbn [app]. rewrite (rfind_byte_app_in DOT b e N). rewrite skipn_app, skipn_all, Nat.sub_diag. cbn [skipn app]. unfold to_lower. cbn [map].
    rewrite He. reflexivity.
Qed.
