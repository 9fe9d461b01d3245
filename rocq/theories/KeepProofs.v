(** What is left in the staging folder after a failure. *)
From Coq Require Import Permutation.
From Verif Require Import Base BaseProofs ArgsModel ArgsSpec ArgsProofs ManifestModel ManifestSpec WireModel CryptModel CryptSpec
  PackageModel PackageSpec TreeProofs CopyProofs EncProofs ZipProofs PackageProofs.

(** Names of new files: they end in "c" and are not those of folders. *)
Definition Suffixed (es : entries) (l : list (bytes * bytes)) : Prop :=
  forall m, In m (map fst l) -> (exists n, m = n ++ B "c") /\ forall fs, lookup es m <> Some (Folder fs).
Lemma suffixed_nil es : Suffixed es [].
Proof. intros m []. Qed.
Lemma suffixed_app es a b : Suffixed es a -> Suffixed es b -> Suffixed es (a ++ b).
Proof. intros H1 H2 m I. rewrite map_app in I. apply in_app_or in I. destruct I as [I|I]; [now apply H1|now apply H2]. Qed.
Lemma encrypt_file_names pr K w top rel n x es tbl ok tbl1 new : encrypt_file pr K w top rel n x es tbl = Ok (ok, tbl1, new) -> Suffixed es new.
Proof.
  unfold encrypt_file. intros H. destruct (fit _ (top ++ _)) as [f| |]; [|discriminate|discriminate]. cbn [bind] in H.
  destruct (fit _ (f ++ _)) as [g| |]; [|discriminate|discriminate]. cbn [bind] in H. destruct (w_open w f && w_open w g && _) eqn:O; [|discriminate].
  apply andb_true_iff in O. destruct O as [_ O].
  destruct x as [d|fs|]; [|injection H as _ _ <-; apply suffixed_nil|injection H as _ _ <-; apply suffixed_nil].
  destruct (w_encrypts w rel); [|injection H as _ _ <-; apply suffixed_nil]. destruct (cr_encrypt _ _ _ _ _ _ _) as [[t1 out]| |]; [|discriminate|discriminate]. cbn [bind] in H.
  destruct out as [out|]; injection H as _ _ <-; [|apply suffixed_nil]. intros m [<-|[]]. cbn [fst]. split; [eauto|]. intros fs L. revert O. change (lookup es (n ++ B "c") = Some (Folder fs)) in L. rewrite L. discriminate.
Qed.
Lemma modelica_kept es l m : Suffixed es l -> is_modelica m = true -> ~ In m (map fst l).
Proof.
  intros S M I. destruct (S m I) as [(n & ->) _]. pose proof (proj1 (is_modelica_spec _) M) as (b & e & E & He).
  apply (f_equal (@rev _)) in E. rewrite !rev_app_distr in E. destruct (rev e) as [|c re] eqn:R.
  - apply (f_equal (@rev _)) in R. rewrite rev_involutive in R. subst. discriminate.
  - cbn in E. injection E as <- _. apply (f_equal (@rev _)) in R. rewrite rev_involutive in R. subst e. cbn [rev] in He. rewrite map_app in He.
    apply (f_equal (@rev _)) in He. rewrite rev_app_distr in He. discriminate.
Qed.

(** Modelica files stay. *)
Definition Keeps (t t' : tree) : Prop := forall dir n d, is_modelica n = true -> At t (dir ++ [n]) (Reg d) -> At t' (dir ++ [n]) (Reg d).
Lemma keeps_refl t : Keeps t t.
Proof. now intros dir n d. Qed.
(** Entries and their new contents. *)
Inductive KeepList : list (bytes * tree) -> list (bytes * tree) -> Prop :=
| KL_nil : KeepList [] []
| KL_cons n x y r s : Keeps x y -> (forall d, x = Reg d -> y = Reg d) -> ((exists fs, x = Folder fs) -> exists gs, y = Folder gs) -> KeepList r s -> KeepList ((n, x) :: r) ((n, y) :: s).
Lemma keeplist_refl l : KeepList l l.
Proof. induction l as [|[n x] l IH]; constructor; try assumption; [apply keeps_refl|tauto|tauto]. Qed.
Lemma keeplist_in l l' : KeepList l l' -> forall n x, In (n, x) l -> exists y, In (n, y) l' /\ Keeps x y /\ (forall d, x = Reg d -> y = Reg d) /\ ((exists fs, x = Folder fs) -> exists gs, y = Folder gs).
Proof.
  induction 1 as [|n x y r s K R F H IH]; intros m z I; [contradiction|]. destruct I as [E|I].
  - injection E as <- <-. exists y. split; [now left|tauto].
  - destruct (IH m z I) as (y' & I' & R'). exists y'. split; [now right|exact R'].
Qed.
Lemma keep_folder es es2 new : NoDup (map fst es) -> KeepList es es2 -> Suffixed es new -> Keeps (Folder es) (Folder (set_files new es2)).
Proof.
  intros Nd KL S dir n d M A. destruct dir as [|c dir]; cbn [app] in *.
  - apply at_cons in A. destruct A as (x & I & A). apply at_nil in A. subst x. destruct (keeplist_in _ _ KL _ _ I) as (y & Iy & _ & Ry & _). rewrite (Ry d eq_refl) in Iy.
    apply at_cons. exists (Reg d). split; [|constructor]. apply set_files_old; [now apply (modelica_kept es)|exact Iy].
  - apply at_cons in A. destruct A as (x & I & A). destruct x as [e|fs|].
    + exfalso. apply at_reg in A. destruct A as [A _]. now destruct dir.
    + destruct (keeplist_in _ _ KL _ _ I) as (y & Iy & Ky & _). apply at_cons. exists y. split; [|now apply Ky]. apply set_files_old; [|exact Iy].
      intros Im. apply (proj2 (S c Im) fs). now apply in_lookup.
    + exfalso. apply at_other in A. destruct A as [A _]. now destruct dir.
Qed.

Lemma encrypt_keeps pr K w top : forall t rel tbl ok tbl' t', Proper t -> encrypt_dir pr K w top rel t tbl = Ok (ok, tbl', t') -> Keeps t t'.
Proof.
  induction t as [e| |es IH] using tree_induction; intros rel tbl ok tbl' t' P H; [injection H as _ _ <-; apply keeps_refl|injection H as _ _ <-; apply keeps_refl|].
  destruct (proper_folder _ P) as [Nd Pe]. rewrite encrypt_folder in H.
  destruct (fit _ (match rel with Some r => _ | None => _ end)) as [full| |]; [|discriminate|discriminate]. cbn [bind] in H.
  destruct (fit _ (full ++ B "/package.mo")) as [pkg| |]; [|discriminate|discriminate]. cbn [bind] in H.
  destruct (fit _ (rel_join rel PACKAGE_MO)) as [prel| |]; [|discriminate|discriminate]. cbn [bind] in H.
  match type of H with bind ?X _ = _ => destruct X as [[[ok1 tbl1] newp]| |] eqn:E1 end; [|discriminate|discriminate]. cbn [bind] in H.
  assert (S1 : Suffixed es newp).
  { destruct (lookup es PACKAGE_MO) as [x|]; [|injection E1 as _ _ <-; apply suffixed_nil]. destruct (w_open w pkg); [|injection E1 as _ _ <-; apply suffixed_nil].
    now apply encrypt_file_names in E1. }
  destruct (ok1 && _); [|injection H as _ _ <-; apply keep_folder; [exact Nd|apply keeplist_refl|exact S1]].
  destruct (enc_list _ _ _ _ _ _ _ _) as [[[[ok2 tbl2] es2] new2]| |] eqn:E2; [|discriminate|discriminate]. cbn [bind] in H. injection H as _ _ <-.
  enough (X : forall l tbl1 ok2 tbl2 es2 new2, incl l es -> enc_list pr K w top rel es l tbl1 = Ok (ok2, tbl2, es2, new2) -> KeepList l es2 /\ Suffixed es new2).
  { destruct (X _ _ _ _ _ _ (incl_refl _) E2) as [KL S2]. apply keep_folder; [exact Nd|exact KL|now apply suffixed_app]. }
  clear - IH Pe. induction l as [|[n x] r IHl]; intros tbl1 ok2 tbl2 es2 new2 Inc E; [injection E as _ _ <- <-; split; [constructor|apply suffixed_nil]|].
  rewrite enc_list_cons in E. assert (Inx : In (n, x) es) by (apply Inc; now left). assert (Inr : incl r es) by (intros y I; apply Inc; now right).
  destruct (enc_one pr K w top rel es n x tbl1) as [[[[ok1 tb1] x1] new1]| |] eqn:E1; [|discriminate|discriminate]. cbn [bind] in E.
  assert (X1 : Keeps x x1 /\ (forall d, x = Reg d -> x1 = Reg d) /\ ((exists fs, x = Folder fs) -> exists gs, x1 = Folder gs) /\ Suffixed es new1).
  { assert (R : Keeps x x /\ (forall d, x = Reg d -> x = Reg d) /\ ((exists fs, x = Folder fs) -> exists gs, x = Folder gs)) by (split; [apply keeps_refl|split; tauto]).
    unfold enc_one in E1. destruct (caseeq n PACKAGE_MO); [injection E1 as _ _ <- <-; pose proof (suffixed_nil es); tauto|].
    destruct (fit _ (rel_join rel n)) as [p| |]; [|discriminate|discriminate]. cbn [bind] in E1. destruct x as [d|fs|].
    - destruct (is_modelica n); [|injection E1 as _ _ <- <-; pose proof (suffixed_nil es); tauto].
      destruct (encrypt_file _ _ _ _ _ _ _ _ _) as [[[ok3 tb3] new3]| |] eqn:Ef; [|discriminate|discriminate]. cbn [bind] in E1. injection E1 as _ _ <- <-.
      apply encrypt_file_names in Ef. tauto.
    - destruct (encrypt_dir _ _ _ _ _ _ _) as [[[ok3 tb3] y]| |] eqn:Ed; [|discriminate|discriminate]. cbn [bind] in E1. injection E1 as _ _ <- <-.
      split; [exact (IH n _ Inx _ _ _ _ _ (proj2 (Pe _ _ Inx)) Ed)|]. split; [discriminate|]. split; [intros _; now apply encrypt_dir_folder in Ed|apply suffixed_nil].
    - injection E1 as _ _ <- <-. pose proof (suffixed_nil es). tauto. }
  destruct X1 as (K1 & R1 & F1 & S1). destruct ok1.
  - destruct (enc_list pr K w top rel es r tb1) as [[[[ok3 tb3] r2] new3]| |] eqn:E3; [|discriminate|discriminate]. cbn [bind] in E. injection E as _ _ <- <-.
    destruct (IHl _ _ _ _ _ Inr E3) as [KL S2]. split; [now constructor|now apply suffixed_app].
  - injection E as _ _ <- <-. split; [constructor; try assumption; apply keeplist_refl|exact S1].
Qed.

Lemma zip_codes pr K w t staging name path L r : encrypt_and_zip pr K w t staging name path L = Ok r -> k_code r = 0 \/ 8 <= k_code r.
Proof.
  unfold encrypt_and_zip. intros H. match type of H with bind ?X _ = _ => destruct X as [[ok lib1]| |] end; [|discriminate|discriminate]. cbn [bind] in H.
  destruct ok; [|injection H as <-; right; cbn; lia]. destruct (the_library_name t) as [[n t1]| |]; [|discriminate|discriminate]. cbn [bind] in H.
  destruct (create_zip _ _ _ _ _) as [[ok2 a]| |]; [|discriminate|discriminate]. cbn [bind] in H. destruct ok2; injection H as <-; [now left|right; cbn; lia].
Qed.
Lemma zip_leaves pr K w t staging name path L r : Sane w -> Proper (Folder L) -> encrypt_and_zip pr K w t staging name path L = Ok r -> 3 <= k_code r ->
  exists T, k_staging r = Some [(name, T)] /\ Keeps (Folder L) T.
Proof.
  intros (So & _) P H Cd. unfold encrypt_and_zip in H.
  match type of H with bind ?X _ = _ => destruct X as [[ok lib1]| |] eqn:E end; [|discriminate|discriminate]. cbn [bind] in H. exists lib1. split.
  - destruct ok; [|injection H as <-; reflexivity]. destruct (the_library_name t) as [[n t1]| |]; [|discriminate|discriminate]. cbn [bind] in H.
    destruct (create_zip _ _ _ _ _) as [[ok2 a]| |]; [|discriminate|discriminate]. cbn [bind] in H. destruct ok2; injection H as <-; [cbn in Cd; lia|reflexivity].
  - destruct (using_encryption t); [|injection E as _ <-; apply keeps_refl].
    destruct (encrypt_dir _ _ _ _ _ _ _) as [[[ok1 tb] l1]| |] eqn:Ed; [|discriminate|discriminate]. cbn [bind] in E. injection E as _ <-.
    apply encrypt_keeps in Ed; [|now apply (same_proper (Folder L))]. intros dir n d M A. apply Ed; [exact M|]. now apply (same_at (Folder L)).
Qed.

(** After a failure that comes after copying, the Modelica files of the library are in the staging folder. *)
Lemma failure_leaves pr K w args o name lib r : Sane w -> CopiesAll w -> Request w args o name lib -> package pr K w args = Ok r -> 3 <= k_code r ->
  exists es, k_staging r = Some es /\ forall dir n d, At (Folder lib) (dir ++ [n]) (Reg d) -> ~ In DOT_LIBRARY (dir ++ [n]) -> Modelica n ->
    At (Folder es) (name :: dir ++ [n]) (Reg d).
Proof.
  intros Sa W Rq H Cd. destruct (request_run _ _ _ _ _ _ _ _ Rq H) as [->|(t & p & Sl & D & Hs)]; [cbn in Cd; lia|]. pose proof Sl as (V & C & Hn & Ep & _). pose proof Sa as (So & Sp & _).
  destruct (stage_inv pr K w args o name p t lib r Sl D Hs) as [(_ & _ & Cd6)|(st & doc & lib1 & dot2 & L & St & He)].
  2: { pose proof (staged_proper _ _ _ _ _ _ _ _ _ _ Sa D St) as PL. destruct (zip_leaves _ _ _ _ _ _ _ _ _ Sa PL He Cd) as (T & Ek & Kp).
    exists [(name, T)]. split; [exact Ek|]. intros dir n d A N M. apply at_cons. exists T. split; [now left|]. apply Kp; [now apply is_modelica_spec|].
    destruct St as (_ & _ & _ & Cn & _ & _ & ->). pose proof (stage_all _ _ _ _ _ W (Sp _ _ D) Cn) as ->.
    destruct (proj2 (clean_at (Folder lib) (dir ++ [n]) d) (conj A N)) as (y & Ey & Ay). rewrite clean_folder in Ey. injection Ey as <-.
    destruct (dir ++ [n]) as [|c q] eqn:Eq; [now destruct dir|]. apply at_cons in Ay. destruct Ay as (z & Iz & Az).
    apply at_cons. exists z. split; [|exact Az]. apply set_entry_old; [|exact Iz]. intros ->. apply N. now left. }
  unfold stage_and_pack, copied_source_path in Hs. destruct (w_staging w) as [staging|] eqn:Es; [|discriminate].
  rewrite (the_name _ _ Hn) in Hs. cbn [bind] in Hs. rewrite (the_name _ _ Hn) in Hs. cbn [bind] in Hs.
  destruct (new_name name && w_mkdir w _) eqn:Nn; [|injection Hs as <-; cbn in Cd; lia]. rewrite Ep in Hs.
  unfold stage_files in Hs. destruct (fit _ p) as [f| |] eqn:Ff; [|discriminate|discriminate]. apply fit_ok in Ff. destruct Ff as [-> Lp]. cbn [bind] in Hs. rewrite D in Hs.
  destruct (w_opendir w Copying p) eqn:Op; [|injection Hs as <-; cbn in Cd; lia].
  destruct (copy_node _ _ _ _ _) as [y| |] eqn:Cn; [|discriminate|discriminate]. cbn [bind] in Hs.
  assert (Ey : exists lib1, y = Some (Folder lib1)).
  { rewrite copy_folder in Cn. cbn [target] in Cn. rewrite Op in Cn. destruct (copy_list _ _ _ _ _) as [l'| |]; [|discriminate|discriminate]. cbn [bind] in Cn. injection Cn as <-. eauto. }
  destruct Ey as (lib1 & ->). pose proof (stage_all _ _ _ _ _ W (Sp _ _ D) Cn) as ->.
  assert (A0 : forall dir n d, At (Folder lib) (dir ++ [n]) (Reg d) -> ~ In DOT_LIBRARY (dir ++ [n]) -> At (Folder (clean_list lib)) (dir ++ [n]) (Reg d)).
  { intros dir n d A N. destruct (proj2 (clean_at (Folder lib) (dir ++ [n]) d) (conj A N)) as (y & Ey & Ay). rewrite clean_folder in Ey. injection Ey as <-. exact Ay. }
  assert (A1 : forall x dir n d, At (Folder lib) (dir ++ [n]) (Reg d) -> ~ In DOT_LIBRARY (dir ++ [n]) -> At (Folder (set_entry DOT_LIBRARY x (clean_list lib))) (dir ++ [n]) (Reg d)).
  { intros x dir n d A N. pose proof (A0 dir n d A N) as B0. destruct (dir ++ [n]) as [|c q] eqn:Eq; [now destruct dir|]. apply at_cons in B0. destruct B0 as (z & Iz & Az).
    apply at_cons. exists z. split; [|exact Az]. apply set_entry_old; [|exact Iz]. intros ->. apply N. now left. }
  assert (Top : forall T, (forall dir n d, At (Folder lib) (dir ++ [n]) (Reg d) -> ~ In DOT_LIBRARY (dir ++ [n]) -> Modelica n -> At T (dir ++ [n]) (Reg d)) ->
    k_staging r = Some [(name, T)] -> exists es, k_staging r = Some es /\ forall dir n d, At (Folder lib) (dir ++ [n]) (Reg d) -> ~ In DOT_LIBRARY (dir ++ [n]) -> Modelica n ->
    At (Folder es) (name :: dir ++ [n]) (Reg d)).
  { intros T HT Ek. exists [(name, T)]. split; [exact Ek|]. intros dir n d A N M. apply at_cons. exists T. split; [now left|now apply HT]. }
  unfold complete in Hs. destruct (match lookup _ DOT_LIBRARY with None => _ | Some _ => false end); [|injection Hs as <-; apply (Top (Folder (clean_list lib))); [intros; now apply A0|reflexivity]].
  destruct (prepare_icon _ _ _ _) as [[icon|]| |]; [|injection Hs as <-; eapply Top; [|reflexivity]; intros; now apply A1|discriminate|discriminate]. cbn [bind] in Hs.
  destruct (copy_lve _ _ _ _) as [[ok lves] dot1] eqn:Cl. destruct ok; [|injection Hs as <-; eapply Top; [|reflexivity]; intros; now apply A1].
  destruct (copy_extra _ _ _) as [[ok dot2]| |] eqn:Ce; [|discriminate|discriminate]. cbn [bind] in Hs. destruct ok; [|injection Hs as <-; eapply Top; [|reflexivity]; intros; now apply A1].
  destruct (fit _ _) as [u| |]; [|discriminate|discriminate]. cbn [bind] in Hs. destruct (create_manifest _ _ _ _ _) as [[t1 doc]| |] eqn:Cm; [|discriminate|discriminate]. cbn [bind] in Hs.
  apply zip_codes in Hs. lia.
Qed.
