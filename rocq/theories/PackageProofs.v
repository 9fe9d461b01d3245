(** The packaging tool from the command line to the archive. *)
From Coq Require Import Permutation.
From Verif Require Import Base BaseProofs ArgsModel ArgsSpec ArgsProofs XmlSpec ManifestModel ManifestSpec ManifestProofs WireModel CryptModel CryptSpec CbcProofs MaskProofs
  DemaskProofs CryptProofs PackageModel PackageSpec TreeProofs CopyProofs EncProofs ZipProofs.

(** ** The arguments *)

Lemma last_component_name t p name : value_of t (B "librarypath") = Some p -> last_byte p <> Some SLASH -> LastComponent p name ->
  library_name t = Ok (Some name, t).
Proof.
  intros V L (pre & tail & E & N & S & F & Hp). assert (tail = []) as ->.
  {
    destruct tail as [|c0 tl0]; [reflexivity|]. destruct (@exists_last _ (c0 :: tl0)) as (q & c & Et); [discriminate|]. rewrite Et in *.
    exfalso. apply L. rewrite E, !app_assoc. unfold last_byte. rewrite rev_app_distr. cbn [rev app].
    apply Forall_app in F. destruct F as [_ F]. inversion F; subst. reflexivity. }
  rewrite app_nil_r in E. unfold library_name. rewrite V.
  assert (Lp : last_byte p = last_byte name) by (rewrite E; now apply last_byte_app2).
  destruct (last_byte p) as [c|] eqn:Lb.
  2: { exfalso. unfold last_byte in Lp. destruct (rev name) eqn:R; [|discriminate]. apply (f_equal (@rev _)) in R. rewrite rev_involutive in R. contradiction. }
  destruct (Ascii.eqb c SLASH) eqn:Ec; [apply Ascii.eqb_eq in Ec; subst; congruence|].
  rewrite (set_value_id _ _ _ V). f_equal. f_equal. f_equal. destruct Hp as [->|(q & ->)].
  - cbn [app] in E. subst p. now rewrite (proj2 (rfind_byte_none SLASH name) S).
  - rewrite <- app_assoc in E. cbn [app] in E. subst p. rewrite (rfind_byte_app_in SLASH q name S).
    replace (q ++ SLASH :: name) with ((q ++ [SLASH]) ++ name) by now rewrite <- app_assoc.
    rewrite skipn_app. replace (Datatypes.S (length q)) with (length (q ++ [SLASH])) by (rewrite app_length; cbn [length]; lia).
    now rewrite skipn_all, Nat.sub_diag.
Qed.

Lemma help_none args : help_requested args = false <-> ~ In (B "--help") args /\ ~ In (B "-h") args.
Proof.
  unfold help_requested. rewrite <- not_true_iff_false, existsb_exists. split.
  - intros H. split; intros I; apply H; eexists; (split; [exact I|reflexivity]).
  - intros [N1 N2] (a & I & H). apply lookup_in_In in H. cbn [help_arguments In] in H. destruct H as [<-|[<-|[]]]; contradiction.
Qed.
Lemma trimmed_last p p' : ArgsSpec.Trimmed p p' -> last_byte p' <> Some SLASH \/ p' = [SLASH].
Proof.
  intros (tail & _ & _ & [(q & c & -> & Nc & _)|L]).
  - left. unfold last_byte. rewrite rev_app_distr. cbn [rev app]. congruence.
  - destruct p' as [|c [|c2 r]]; try discriminate. cbn. destruct (Ascii.ascii_dec c SLASH) as [->|N]; [now right|left; congruence].
Qed.
Lemma component_exists p : p <> [] -> last_byte p <> Some SLASH -> exists name, LastComponent p name.
Proof.
  intros N L. destruct (rfind_byte SLASH p) as [i|] eqn:R.
  - destruct (proj1 (rfind_byte_some _ _ _) R) as (a & b & -> & Nb & _). exists b. exists (a ++ [SLASH]), []. split; [now rewrite app_nil_r, <- app_assoc|].
    split; [|split; [exact Nb|split; [constructor|right; eauto]]]. intros ->. apply L. unfold last_byte. rewrite rev_app_distr. reflexivity.
  - apply rfind_byte_none in R. exists p, [], []. rewrite app_nil_r. split; [reflexivity|]. split; [exact N|]. split; [exact R|]. split; [constructor|now left].
Qed.
Lemma component_not_root name : ~ LastComponent [SLASH] name.
Proof.
  intros (pre & tail & E & N & S & _). destruct pre as [|c pre]; cbn [app] in E.
  - destruct name as [|c name]; [contradiction|]. cbn [app] in E. injection E as <- _. apply S. now left.
  - injection E as _ E. symmetry in E. apply app_eq_nil in E. destruct E as [_ E]. apply app_eq_nil in E. tauto.
Qed.

(** The arguments of a request. *)
Definition Slots (w : world) (args : list bytes) (o : list (bytes * bytes)) (name p : bytes) (t : slots) : Prop :=
  validate (stats_of w) (count_lve w) args = Ok (Some t) /\ CommandLine AnyByte args o /\ library_name t = Ok (Some name, t) /\
  value_of t (B "librarypath") = Some p /\ using_encryption t = encrypted o.
Lemma request_run pr K w args o name lib r : Request w args o name lib -> package pr K w args = Ok r ->
  r = {| k_code := 1; k_staging := None; k_archive := None |} \/
  exists t p, Slots w args o name p t /\ w_disk w p = Some (Folder lib) /\ stage_and_pack pr K w t = Ok r.
Proof.
  intros (C & H1 & H2 & p & p' & Ip & T & LC & D) H. unfold package in H.
  destruct args as [|a args]; [inversion C; subst; contradiction|]. rewrite (proj2 (help_none _) (conj H1 H2)) in H.
  destruct (validate _ _ _) as [[t|]| |] eqn:V; [|injection H as <-; now left|discriminate|discriminate]. cbn [bind] in H. right. exists t, p'.
  split; [|now split]. pose proof (validate_keeps _ _ _ _ _ C V (B "librarypath") known_lib) as Kp.
  destruct (value_of t (B "librarypath")) as [v|] eqn:Ev; [|exfalso; apply Kp; exact (in_map fst _ _ Ip)].
  destruct Kp as (v0 & Iv & [(_ & Tv)|[(E & _)|(E & _)]]); [|discriminate|congruence].
  assert (v0 = p). { apply (value_command _ _ _ _ _ C) in Iv. apply (value_command _ _ _ _ _ C) in Ip. congruence. } subst v0.
  rewrite (trimmed_fun _ _ _ Tv T) in *. clear Tv.
  split; [exact V|]. split; [exact C|]. split; [|split; [exact Ev|exact (encrypted_using _ _ _ _ _ V C)]].
  apply (last_component_name t p'); [exact Ev| |exact LC]. destruct (trimmed_last _ _ T) as [L| ->]; [exact L|]. now apply component_not_root in LC.
Qed.
(** A run that makes an archive has a request. *)
Lemma archive_request pr K w args r : package pr K w args = Ok r -> k_archive r <> None -> exists o name lib, Request w args o name lib.
Proof.
  intros H N. unfold package in H. destruct args as [|a args]; [injection H as <-; now contradiction N|].
  destruct (help_requested (a :: args)) eqn:Hh; [injection H as <-; now contradiction N|].
  destruct (validate _ _ _) as [[t|]| |] eqn:V; [|injection H as <-; now contradiction N|discriminate|discriminate]. cbn [bind] in H.
  destruct (proj1 (validate_accepts _ _ _) (ex_intro _ t V)) as (o & C & _ & _ & (p & p' & Ip & T & St) & _).
  destruct (w_disk w p') as [[d|lib|]|] eqn:D; unfold stats_of in St; rewrite D in St; try discriminate.
  pose proof (validate_keeps _ _ _ _ _ C V (B "librarypath") known_lib) as Kp.
  destruct (value_of t (B "librarypath")) as [v|] eqn:Ev; [|exfalso; apply Kp; exact (in_map fst _ _ Ip)].
  destruct Kp as (v0 & Iv & [(_ & Tv)|[(E & _)|(E & _)]]); [|discriminate|congruence].
  assert (v0 = p). { apply (value_command _ _ _ _ _ C) in Iv. apply (value_command _ _ _ _ _ C) in Ip. congruence. } subst v0.
  rewrite (trimmed_fun _ _ _ Tv T) in *. clear Tv. destruct (trimmed_last _ _ T) as [L| ->].
  - destruct (component_exists p') as (name & LC); [now apply (trimmed_nonempty _ _ T)|exact L|]. exists o, name, lib.
    apply help_none in Hh. split; [exact C|]. split; [apply Hh|]. split; [apply Hh|]. exists p, p'. now split.
  - exfalso. unfold stage_and_pack, copied_source_path in H. destruct (w_staging w); [|discriminate].
    assert (L1 : library_name t = Ok (Some [], set_value t (B "librarypath") [])) by (unfold library_name; rewrite Ev; reflexivity).
    assert (L2 : library_name (set_value t (B "librarypath") []) = UB OobRead) by (unfold library_name; rewrite (set_value_same _ _ [] _ Ev); reflexivity).
    unfold the_library_name in H. rewrite L1 in H. cbn [bind] in H. rewrite L2 in H. discriminate.
Qed.

(** ** The passes *)

Lemma the_name t name : library_name t = Ok (Some name, t) -> the_library_name t = Ok (name, t).
Proof. intros H. unfold the_library_name. now rewrite H. Qed.
Lemma manifest_slots b read lves icon t t1 doc name : library_name t = Ok (Some name, t) -> create_manifest b read lves icon t = Ok (t1, doc) -> t1 = t /\ b = true.
Proof.
  unfold create_manifest. destruct b; [|discriminate]. intros ->. cbn [bind].
  destruct (add_encryption _ _ _) as [x1| |]; [|discriminate|discriminate]. cbn [bind].
  destruct (add_icon _ _ _) as [x2| |]; [|discriminate|discriminate]. cbn [bind].
  destruct (add_file _ _ (B "tools") _) as [x3| |]; [|discriminate|discriminate]. cbn [bind].
  destruct (add_file _ _ (B "dependencies") _) as [x4| |]; [|discriminate|discriminate]. cbn [bind]. intros [= <- _]. now split.
Qed.

(** The library before encryption: a copy [lib1] and the .library folder. *)
Definition Staged (w : world) (t : slots) (p staging name : bytes) (es : entries) (doc : bytes) (lib1 dot2 L : entries) : Prop :=
  w_staging w = Some staging /\ new_name name = true /\ w_opendir w Copying p = true /\
  copy_node w p (staging ++ [SLASH] ++ name) (Folder es) (Some (Folder [])) = Ok (Some (Folder lib1)) /\
  lookup lib1 DOT_LIBRARY = None /\
  (exists lves dot1, copy_lve w t (staging ++ [SLASH] ++ name ++ B "/.library") [] = (true, lves, dot1) /\
    copy_extra w (staging ++ [SLASH] ++ name ++ B "/.library") dot1 = Ok (true, dot2) /\
    exists icon, prepare_icon w t (staging ++ [SLASH] ++ name) (w_order w Searching (set_entry DOT_LIBRARY (Folder []) lib1)) = Ok (Some icon) /\
      create_manifest true (read_of w) lves icon t = Ok (t, doc)) /\
  L = set_entry DOT_LIBRARY (Folder (set_entry (B "manifest.xml") (Reg doc) dot2)) lib1.

Lemma stage_inv pr K w args o name p t lib r : Slots w args o name p t -> w_disk w p = Some (Folder lib) -> stage_and_pack pr K w t = Ok r ->
  (k_archive r = None /\ k_staging r <> None /\ 2 <= k_code r <= 6) \/
  exists staging doc lib1 dot2 L, Staged w t p staging name lib doc lib1 dot2 L /\
    encrypt_and_zip pr K w t staging name (staging ++ [SLASH] ++ name) L = Ok r.
Proof.
  intros (V & C & Hn & Ep & _) D H. unfold stage_and_pack, copied_source_path in H. destruct (w_staging w) as [staging|] eqn:Es; [|discriminate].
  rewrite (the_name _ _ Hn) in H. cbn [bind] in H. rewrite (the_name _ _ Hn) in H. cbn [bind] in H.
  destruct (new_name name && w_mkdir w _) eqn:Nn; [|injection H as <-; left; cbn; repeat split; [discriminate|lia|lia]].
  apply andb_true_iff in Nn. destruct Nn as [Nn _]. rewrite Ep in H. unfold stage_files in H.
  destruct (fit _ p) as [f| |] eqn:Ff; [|discriminate|discriminate]. apply fit_ok in Ff. destruct Ff as [-> Lp]. cbn [bind] in H. rewrite D in H.
  destruct (w_opendir w Copying p) eqn:Od; [|injection H as <-; left; cbn; repeat split; [discriminate|lia|lia]].
  destruct (copy_node _ _ _ _ _) as [c| |] eqn:Cn; [|discriminate|discriminate]. cbn [bind] in H.
  assert (exists lib1, c = Some (Folder lib1)) as (lib1 & ->).
  { rewrite copy_folder in Cn. cbn [target] in Cn. rewrite Od in Cn. destruct (copy_list _ _ _ _ _) as [l| |]; [|discriminate|discriminate].
    injection Cn as <-. eauto. }
  unfold complete in H. destruct (lookup lib1 DOT_LIBRARY) eqn:Ld; [injection H as <-; left; cbn; repeat split; [discriminate|lia|lia]|].
  destruct (w_mkdir w _); [|injection H as <-; left; cbn; repeat split; [discriminate|lia|lia]].
  destruct (prepare_icon _ _ _ _) as [[icon|]| |] eqn:Pi; [|injection H as <-; left; cbn; repeat split; [discriminate|lia|lia]|discriminate|discriminate].
  cbn [bind] in H. rewrite <- !app_assoc in H.
  destruct (copy_lve _ _ _ _) as [[ok lves] dot1] eqn:Cl. destruct ok; [|injection H as <-; left; cbn; repeat split; [discriminate|lia|lia]].
  destruct (copy_extra _ _ _) as [[ok dot2]| |] eqn:Ce; [|discriminate|discriminate]. cbn [bind] in H.
  destruct ok; [|injection H as <-; left; cbn; repeat split; [discriminate|lia|lia]].
  destruct (fit _ _) as [f| |] eqn:Ff; [|discriminate|discriminate]. cbn [bind] in H. clear Ff f.
  destruct (create_manifest _ _ _ _ _) as [[t1 doc]| |] eqn:Cm; [|discriminate|discriminate]. cbn [bind] in H.
  destruct (manifest_slots _ _ _ _ _ _ _ _ Hn Cm) as [-> Eb]. rewrite Eb in Cm. right. exists staging, doc, lib1, dot2. eexists. split; [|exact H].
  split; [exact Es|]. split; [exact Nn|]. split; [exact Od|]. split; [exact Cn|]. split; [exact Ld|]. split; [|reflexivity].
  exists lves, dot1. split; [exact Cl|]. split; [exact Ce|]. exists icon. now split.
Qed.

Lemma encrypt_dir_folder pr K w top rel es tbl ok tbl' t' : encrypt_dir pr K w top rel (Folder es) tbl = Ok (ok, tbl', t') -> exists l, t' = Folder l.
Proof.
  rewrite encrypt_folder. intros H.
  destruct (fit _ (match rel with Some r => _ | None => _ end)) as [full| |]; [|discriminate|discriminate]. cbn [bind] in H.
  destruct (fit _ (full ++ B "/package.mo")) as [pkg| |]; [|discriminate|discriminate]. cbn [bind] in H.
  destruct (fit _ (rel_join rel PACKAGE_MO)) as [prel| |]; [|discriminate|discriminate]. cbn [bind] in H.
  match type of H with bind ?X _ = _ => destruct X as [[[ok1 tbl1] newp]| |] end; [|discriminate|discriminate]. cbn [bind] in H.
  destruct (ok1 && _); [|injection H as _ _ <-; eauto].
  destruct (enc_list _ _ _ _ _ _ _ _) as [[[[ok2 tbl2] es2] new2]| |]; [|discriminate|discriminate]. cbn [bind] in H. injection H as _ _ <-. eauto.
Qed.

Lemma same_single n x es : Same (Folder [(n, x)]) (Folder es) -> exists y, es = [(n, y)] /\ Same x y.
Proof.
  intros H. destruct (same_folder _ _ H) as (l1 & F & P). inversion F as [|a b la lb [E S] F2]; subst. inversion F2; subst.
  destruct b as [m y]. cbn [fst snd] in *. subst m. exists y. split; [|exact S]. now apply Permutation_length_1_inv.
Qed.

Lemma zip_name_entry staging rest : length (staging ++ [SLASH] ++ rest) <= MAX_PATH_LENGTH ->
  zip_name staging (staging ++ [SLASH] ++ rest) = rest.
Proof.
  intros L. unfold zip_name, snprintf. rewrite app_assoc, skipn_app.
  replace (length staging + 1) with (length (staging ++ [SLASH])) by (rewrite app_length; cbn [length]; lia).
  rewrite skipn_all, Nat.sub_diag. cbn [app skipn]. apply firstn_all2. rewrite app_assoc, !app_length in L. cbn [length] in L. lia.
Qed.

(** What is in the archive. *)
Definition Packed (enc : bool) (name : bytes) (lib2 : tree) (complete : bool) (l : list (bytes * bytes)) : Prop :=
  (forall e d, In (e, d) l -> exists dir n, e = path_of (name :: dir) n /\ At lib2 (dir ++ [n]) (Reg d) /\ (enc = true -> is_modelica n = false)) /\
  (complete = true -> forall dir n d, At lib2 (dir ++ [n]) (Reg d) -> (enc = true -> is_modelica n = false) -> In (path_of (name :: dir) n, d) l).

Lemma zip_top w staging enc name lib2 ok l : (forall k es, Same (Folder es) (Folder (w_order w k es))) -> NoSlashEnd staging -> name <> [] -> ~ In SLASH name ->
  Proper (Folder lib2) -> zip_dir w staging enc staging (Folder (w_order w Zipping [(name, Folder lib2)])) = Ok (ok, l) ->
  Packed enc name (Folder lib2) ok l.
Proof.
  intros Or NS Nn Sn P H. destruct (same_single _ _ _ (Or Zipping [(name, Folder lib2)])) as (y & Ey & Sy). rewrite Ey in H. clear Ey.
  destruct (same_folder_inv _ _ Sy) as (lib3 & ->). pose proof (same_proper _ _ Sy P) as P3.
  rewrite zip_folder in H. destruct (w_opendir w Zipping staging); [|injection H as <- <-; split; [intros e d []|discriminate]].
  rewrite zip_list_cons, (join_noslash _ _ NS) in H. destruct (fit _ _) as [p| |] eqn:Ff; [|discriminate|discriminate]. apply fit_ok in Ff. destruct Ff as [-> _]. cbn [bind] in H.
  destruct (zip_dir w staging enc (staging ++ [SLASH] ++ name) (Folder lib3)) as [[ok1 l1]| |] eqn:Z; [|discriminate|discriminate]. cbn [bind zip_list] in H.
  assert (E : ok = ok1 /\ l = l1). { destruct ok1; [rewrite app_nil_r in H|]; injection H as <- <-; now split. } destruct E as [-> ->]. clear H.
  assert (NS2 : NoSlashEnd (staging ++ [SLASH] ++ name)).
  { split; [now destruct staging|]. rewrite app_assoc, last_byte_app2 by exact Nn. intros H. apply last_byte_in in H. contradiction. }
  destruct (zip_spec _ _ _ _ _ _ _ P3 NS2 Z) as [Z1 Z2]. split.
  - intros e d I. destruct (Z1 e d I) as (dir & n & A & M & -> & L). exists dir, n. rewrite <- !app_assoc in *.
    split; [now apply zip_name_entry|]. split; [now apply (same_at _ _ _ _ Sy)|exact M].
  - intros Hok dir n d A M. apply (same_at _ _ _ _ Sy) in A. destruct (Z2 Hok dir n d A M) as [I L].
    rewrite <- !app_assoc in I, L. rewrite zip_name_entry in I by exact L. exact I.
Qed.

Lemma good_same w rd t0 t t' l : Same t0 t -> Good w rd t t' l -> Good w rd t0 t' l.
Proof.
  intros S (G1 & G2 & G3 & G4 & G5 & G6 & G7). repeat apply conj; try assumption.
  - intros s I. destruct (G1 s I) as (dir & E & A & R). exists dir. split; [exact E|]. split; [now apply (same_at _ _ _ _ S)|exact R].
  - intros p d A. destruct (G4 p d A) as [A'|H]; [left; now apply (same_at _ _ _ _ S)|now right].
  - intros p n d A. apply (same_at _ _ _ _ S) in A. exact (G5 p n d A).
  - intros WO dir n d A. apply (same_at _ _ _ _ S) in A. exact (G6 WO dir n d A).
Qed.

(** ** The staged library *)

Lemma lve_shipped : lve_names = map fst shipped.
Proof. reflexivity. Qed.
Lemma check_filename n : negb (beq n []) && forallb (fun c => negb (Ascii.eqb c SLASH) && negb (Ascii.eqb c NUL)) n && negb (beq n (B ".")) && negb (beq n (B "..")) = true -> FileName n.
Proof.
  intros H. apply andb_true_iff in H. destruct H as [H H4]. apply andb_true_iff in H. destruct H as [H H3]. apply andb_true_iff in H. destruct H as [H1 H2].
  rewrite forallb_forall in H2. split; [intros ->; discriminate|]. split; [|split; [|split]].
  - intros I. specialize (H2 _ I). rewrite Ascii.eqb_refl in H2. discriminate.
  - intros I. specialize (H2 _ I). rewrite Ascii.eqb_refl, andb_false_r in H2. discriminate.
  - intros ->. discriminate.
  - intros ->. discriminate.
Qed.
Lemma lve_filename n : In n lve_names -> FileName n.
Proof. intros I. apply check_filename. cbn [lve_names In] in I. repeat destruct I as [<-|I]; try reflexivity. contradiction. Qed.
Lemma dot_filename : FileName DOT_LIBRARY.
Proof. now apply check_filename. Qed.
Lemma manifest_filename : FileName (B "manifest.xml").
Proof. now apply check_filename. Qed.

Lemma copy_lves_inv w exe to : forall names dot ok l dot', copy_lves w exe to names dot = (ok, l, dot') -> (forall n, In n names -> In n lve_names) ->
  (Proper (Folder dot) -> Proper (Folder dot')) /\
  forall n x, In (n, x) dot' -> In (n, x) dot \/ exists y f t d, In n names /\ w_disk w (lve_path exe n) = Some y /\ d = match y with Reg e => e | _ => [] end /\ fst (w_copy w f t d) = match x with Reg e => Some e | _ => None end /\ exists e, x = Reg e.
Proof.
  induction names as [|m r IH]; intros dot ok l dot' H Hn; cbn [copy_lves] in H.
  - injection H as _ _ <-. split; [tauto|]. intros n x I. now left.
  - assert (Hr : forall n, In n r -> In n lve_names) by (intros n I; apply Hn; now right).
    assert (Wk : forall n x, (exists y f t d, In n r /\ w_disk w (lve_path exe n) = Some y /\ d = match y with Reg e => e | _ => [] end /\ fst (w_copy w f t d) = match x with Reg e => Some e | _ => None end /\ exists e, x = Reg e) ->
      exists y f t d, In n (m :: r) /\ w_disk w (lve_path exe n) = Some y /\ d = match y with Reg e => e | _ => [] end /\ fst (w_copy w f t d) = match x with Reg e => Some e | _ => None end /\ exists e, x = Reg e).
    { intros n x (y & f & t & d & I & R). exists y, f, t, d. split; [now right|exact R]. }
    destruct (w_disk w (lve_path exe m)) as [x0|] eqn:D.
    + destruct (w_copy w (lve_path exe m) (to ++ [SLASH] ++ m) match x0 with Reg d => d | _ => [] end) as [o ok0] eqn:Cp.
      set (dot1 := match o with Some d => set_entry m (Reg d) dot | None => dot end) in *.
      assert (X : (Proper (Folder dot) -> Proper (Folder dot1)) /\ forall n x, In (n, x) dot1 -> In (n, x) dot \/
         exists y f t d, In n (m :: r) /\ w_disk w (lve_path exe n) = Some y /\ d = match y with Reg e => e | _ => [] end /\ fst (w_copy w f t d) = match x with Reg e => Some e | _ => None end /\ exists e, x = Reg e).
      { subst dot1. destruct o as [e|]; [|split; [tauto|intros n x I; now left]]. split.
        - intros P. apply proper_set_entry; [exact P|apply lve_filename, Hn; now left|constructor].
        - intros n x I. destruct (set_entry_in _ _ _ _ _ I) as [[-> ->]|I']; [|now left]. right. exists x0, (lve_path exe m), (to ++ [SLASH] ++ m). eexists.
          split; [now left|]. split; [exact D|]. split; [reflexivity|]. rewrite Cp. split; [reflexivity|eauto]. }
      destruct X as [X1 X2]. destruct ok0.
      * destruct (copy_lves w exe to r dot1) as [[ok' l'] dot2] eqn:E. injection H as <- <- <-. destruct (IH _ _ _ _ E Hr) as [Y1 Y2]. split; [tauto|].
        intros n x I. destruct (Y2 n x I) as [I'|I']; [now apply X2|right; now apply Wk].
      * injection H as _ _ <-. now split.
    + destruct (copy_lves w exe to r dot) as [[ok' l'] dot2] eqn:E. injection H as <- <- <-. destruct (IH _ _ _ _ E Hr) as [Y1 Y2]. split; [tauto|].
      intros n x I. destruct (Y2 n x I) as [I'|I']; [now left|right; now apply Wk].
Qed.
Lemma proper_empty : Proper (Folder []).
Proof. constructor; [constructor|intros n x []]. Qed.

Lemma staged_proper w t p staging name es doc lib1 dot2 L : Sane w -> w_disk w p = Some (Folder es) ->
  Staged w t p staging name es doc lib1 dot2 L -> Proper (Folder L).
Proof.
  intros (_ & Sp & _) D (_ & _ & _ & Cn & Ld & (lves & dot1 & Cl & Ce & _) & ->).
  assert (P1 : Proper (Folder lib1)).
  { apply (copy_proper w _ _ _ _ _ (Sp _ _ D)) in Cn; [exact Cn|]. intros z [= <-]. exact proper_empty. }
  assert (Pd1 : Proper (Folder dot1)).
  { unfold copy_lve in Cl. destruct (using_encryption t); [|injection Cl as _ <-; exact proper_empty].
    destruct (w_exe w) as [exe|]; [|discriminate]. apply copy_lves_inv in Cl; [|tauto]. apply Cl, proper_empty. }
  assert (Pd2 : Proper (Folder dot2)).
  { unfold copy_extra in Ce. destruct (w_exe w) as [exe|]; [|discriminate]. destruct (w_disk w (exe ++ B "/.library")) as [x|] eqn:Dx; [|now injection Ce as <-].
    unfold stage_files in Ce. destruct (fit _ _) as [f| |] eqn:Ff; [|discriminate|discriminate]. apply fit_ok in Ff. destruct Ff as [-> _]. cbn [bind] in Ce.
    rewrite Dx in Ce. destruct x as [d|xs|]; [discriminate| |discriminate]. destruct (w_opendir w Copying _); [|discriminate].
    destruct (copy_node _ (_ ++ B "/.library") _ _ _) as [c| |] eqn:Cx; [|discriminate|discriminate]. cbn [bind] in Ce. injection Ce as <-.
    destruct c as [[d|l|]|]; try exact Pd1. apply (copy_proper w _ _ _ _ _ (Sp _ _ Dx)) in Cx; [exact Cx|]. now intros z [= <-]. }
  apply proper_set_entry; [exact P1|exact dot_filename|]. apply proper_set_entry; [exact Pd2|exact manifest_filename|constructor].
Qed.

Lemma staged_origin w t p staging name es doc lib1 dot2 L : ExactCopies w -> PlainLves w -> w_disk w p = Some (Folder es) ->
  Staged w t p staging name es doc lib1 dot2 L -> forall q d, At (Folder L) q (Reg d) -> Origin w es q d.
Proof.
  intros X Pl D (_ & _ & _ & Cn & Ld & (lves & dot1 & Cl & Ce & _) & ->) q d A.
  apply at_folder_reg in A. destruct A as (n & q' & x & -> & I & A). destruct (set_entry_in _ _ _ _ _ I) as [[-> ->]|I'].
  2: { pose proof (copy_bound w X _ _ _ _ _ Cn (n :: q') d) as Bd. destruct Bd as [(z & [= <-] & Az)|[A' _]].
       - apply at_cons. eauto.
       - apply at_folder_reg in Az. destruct Az as (? & ? & ? & _ & [] & _).
       - now apply From_library. }
  apply at_folder_reg in A. destruct A as (m & q2 & x2 & -> & I2 & A). destruct (set_entry_in _ _ _ _ _ I2) as [[-> ->]|I3].
  { apply at_reg in A. destruct A as [-> _]. apply From_manifest. }
  assert (H1 : forall m x q d, In (m, x) dot1 -> At x q (Reg d) -> Origin w es (DOT_LIBRARY :: m :: q) d).
  { intros m1 x1 q1 d1 I1 A1. unfold copy_lve in Cl. destruct (using_encryption t); [|injection Cl as _ <-; contradiction].
    destruct (w_exe w) as [exe|] eqn:Ex; [|discriminate]. destruct (proj2 (copy_lves_inv _ _ _ _ _ _ _ _ Cl (fun n I => I)) m1 x1 I1) as [[]|(y & f & tt & d0 & In0 & Dy & Ed & Ef & (e & ->))].
    apply at_reg in A1. destruct A1 as [-> [= ->]]. rewrite lve_shipped in In0. destruct (Pl exe m1 y Ex In0) as (d2 & ->); [exact Dy|].
    subst d0. destruct (X f tt d2) as [E|E]; rewrite E in Ef; [|discriminate]. injection Ef as <-. now apply From_lve with exe. }
  unfold copy_extra in Ce. destruct (w_exe w) as [exe|] eqn:Ex; [|discriminate].
  destruct (w_disk w (exe ++ B "/.library")) as [y|] eqn:Dx; [|injection Ce as <-; now apply (H1 m x2)].
  unfold stage_files in Ce. destruct (fit _ _) as [f| |] eqn:Ff; [|discriminate|discriminate]. apply fit_ok in Ff. destruct Ff as [-> _]. cbn [bind] in Ce.
  rewrite Dx in Ce. destruct y as [e|xs|]; [discriminate| |discriminate]. destruct (w_opendir w Copying _); [|discriminate].
  destruct (copy_node _ (_ ++ B "/.library") _ _ _) as [c| |] eqn:Cx; [|discriminate|discriminate]. cbn [bind] in Ce. injection Ce as <-.
  destruct c as [[e|l|]|]; try now apply (H1 m x2).
  destruct (copy_bound w X _ _ _ _ _ Cx (m :: q2) d) as [(z & [= <-] & Az)|[A' _]].
  - apply at_cons. eauto.
  - apply at_cons in Az. destruct Az as (x3 & I4 & A4). now apply (H1 m x3).
  - apply From_extra with exe (Folder xs); [exact Ex|exact Dx|exact A'].
Qed.

(** ** Archives *)

Lemma archive_inv pr K w args o name lib r z l : Sane w -> Request w args o name lib -> package pr K w args = Ok r -> k_archive r = Some (z, l) ->
  z = archive_name name /\ (k_code r = 0 \/ k_code r = 9) /\
  exists t p staging doc lib1 dot2 L lib2, Slots w args o name p t /\ w_disk w p = Some (Folder lib) /\ Staged w t p staging name lib doc lib1 dot2 L /\
    Proper (Folder L) /\ Proper (Folder lib2) /\ Packed (encrypted o) name (Folder lib2) (k_code r =? 0) l /\
    ((encrypted o = true /\ exists tbl tr, Trace pr K w [] tr tbl /\ Good w [] (Folder L) (Folder lib2) tr) \/ (encrypted o = false /\ lib2 = L)) /\
    (k_code r = 0 -> k_staging r = match remove_tree w staging (Folder (w_order w Removing [(name, Folder lib2)])) with
                                   | (_, Some (Folder es)) => Some es
                                   | _ => None
                                   end).
Proof.
  intros Sa Rq H Ea. destruct (request_run _ _ _ _ _ _ _ _ Rq H) as [->|(t & p & Sl & D & Hs)]; [discriminate|].
  destruct (stage_inv _ _ _ _ _ _ _ _ _ _ Sl D Hs) as [(N & _)|(staging & doc & lib1 & dot2 & L & St & He)]; [congruence|].
  pose proof (staged_proper _ _ _ _ _ _ _ _ _ _ Sa D St) as PL. pose proof Sa as (Or & Sp & Ss & Sr).
  pose proof Sl as (V & C & Hn & Ep & Ue). unfold encrypt_and_zip in He. rewrite Ue in He.
  assert (NSt : NoSlashEnd staging).
  { destruct St as (Es & _). destruct (Ss _ Es) as (x & -> & Lx & Nx). split; [discriminate|].
    rewrite last_byte_app2 by (intros ->; discriminate). intros Hl. apply last_byte_in in Hl. contradiction. }
  assert (Nn : name <> [] /\ ~ In SLASH name).
  { destruct Rq as (_ & _ & _ & p0 & p' & _ & _ & (pre & tail & _ & N1 & N2 & _) & _). now split. }
  assert (X : exists ok lib2, Proper (Folder lib2) /\ (ok = true ->
      (encrypted o = true /\ exists tbl tr, Trace pr K w [] tr tbl /\ Good w [] (Folder L) (Folder lib2) tr) \/ (encrypted o = false /\ lib2 = L)) /\
      (if ok then
        do (n, t1) <- the_library_name t ;
        do (ok2, archive) <- create_zip w t1 n staging (w_order w Zipping [(name, Folder lib2)]) ;
        if ok2 then
          Ok {| k_code := 0;
                k_staging := match remove_tree w staging (Folder (w_order w Removing [(name, Folder lib2)])) with
                             | (_, Some (Folder es)) => Some es
                             | _ => None
                             end;
                k_archive := archive |}
        else Ok {| k_code := 9; k_staging := Some [(name, Folder lib2)]; k_archive := archive |}
      else stop 8 (Some [(name, Folder lib2)])) = Ok r).
  { destruct (encrypted o).
    - destruct (encrypt_dir _ _ _ _ _ _ _) as [[[ok tbl] lib2]| |] eqn:E; [|discriminate|discriminate]. cbn [bind] in He.
      destruct (encrypt_dir_folder _ _ _ _ _ _ _ _ _ _ E) as (l2 & ->). destruct ok; [|injection He as <-; discriminate].
      pose proof (same_proper _ _ (Or Encrypting L) PL) as PL'. destruct (enc_trace _ _ _ _ _ [] _ _ _ PL' E) as (tr & T & G). apply (good_same _ _ _ _ _ _ (Or Encrypting L)) in G.
      exists true, l2. split; [apply G|]. split; [|exact He]. intros _. left. split; [reflexivity|]. now exists tbl, tr.
    - cbn [bind] in He. exists true, L. split; [exact PL|]. split; [|exact He]. intros _. right. now split. }
  clear He. destruct X as (ok & lib2 & P2 & Hd & He). destruct ok; [|injection He as <-; discriminate]. specialize (Hd eq_refl).
  rewrite (the_name _ _ Hn) in He. cbn [bind] in He. unfold create_zip in He. rewrite Ue in He.
  destruct (w_zip_open w); [|cbn [bind] in He; injection He as <-; discriminate].
  destruct (zip_dir _ _ _ _ _) as [[ok2 l2]| |] eqn:Z; [|discriminate|discriminate]. cbn [bind] in He.
  apply zip_top in Z; [|exact Or|exact NSt|apply Nn|apply Nn|exact P2].
  destruct ok2; injection He as <-; cbn [k_archive k_code k_staging] in *; injection Ea as <- <-; (split; [reflexivity|]); (split; [tauto|]);
    exists t, p, staging, doc, lib1, dot2, L, lib2; (repeat split; try assumption; try now apply Z).
  all: try (apply St || apply Sl). all: try discriminate.
Qed.

(** ** No plain Modelica files *)

Lemma modelica_path a n : Modelica (a ++ SLASH :: n) -> Modelica n.
Proof.
  intros (b & e & E & He). assert (Ns : ~ In SLASH (DOT :: e)).
  { intros [H|H]; [discriminate|]. apply (in_map lower) in H. rewrite He in H. cbn in H. repeat destruct H as [H|H]; try discriminate H; exact H. }
  cbn [app] in E. destruct (app_split _ _ _ _ _ E) as [(q & -> & Eq)|(q & -> & Eq)].
  - exfalso. apply Ns. right. rewrite Eq. apply in_or_app. right. now left.
  - destruct q as [|c q]; [discriminate|]. cbn [app] in Eq. injection Eq as <- Eq. exists q, e. now split.
Qed.
Lemma path_last dir n : forall name, exists a, path_of (name :: dir) n = a ++ SLASH :: n.
Proof.
  induction dir as [|c dir IH]; intros name; [now exists name|]. destruct (IH c) as (a & E). cbn [path_of] in *. rewrite E.
  exists (name ++ [SLASH] ++ a). now rewrite <- !app_assoc.
Qed.

Lemma no_modelica pr K w args o r z l : Sane w -> CommandLine AnyByte args o -> encrypted o = true -> package pr K w args = Ok r -> k_archive r = Some (z, l) ->
  forall e d, In (e, d) l -> ~ Modelica e.
Proof.
  intros Sa C En H Ea e d I. destruct (archive_request _ _ _ _ _ H) as (o' & name & lib & Rq); [congruence|].
  assert (o' = o) as -> by exact (command_fun _ _ _ _ _ (proj1 Rq) C).
  destruct (archive_inv _ _ _ _ _ _ _ _ _ _ Sa Rq H Ea) as (_ & _ & t & p & st & doc & lib1 & dot2 & L & lib2 & _ & _ & _ & _ & _ & (P1 & _) & _).
  destruct (P1 e d I) as (dir & n & -> & _ & M). intros Hm. destruct (path_last dir n name) as (a & Ep). rewrite Ep in Hm. apply modelica_path in Hm.
  apply is_modelica_spec in Hm. rewrite (M En) in Hm. discriminate.
Qed.

Lemma archive_contents pr K w args o name lib r z l : GoodPrimitives pr -> length K = 32 -> Sane w -> ExactCopies w -> PlainLves w ->
  Request w args o name lib -> package pr K w args = Ok r -> k_archive r = Some (z, l) ->
  forall e d, In (e, d) l -> exists q, e = slashed (name :: q) /\
    ((Origin w lib q d /\ (encrypted o = true -> ~ Modelica e)) \/
     (encrypted o = true /\ exists dir n src, q = dir ++ [n ++ B "c"] /\ Modelica n /\ Origin w lib (dir ++ [n]) src /\
        Concealed pr (w_iv w (slashed (dir ++ [n]))) (w_mask w (slashed (dir ++ [n]))) src d)).
Proof.
  intros G LK Sa X Pl Rq H Ea e d I.
  destruct (archive_inv _ _ _ _ _ _ _ _ _ _ Sa Rq H Ea) as (_ & _ & t & p & st & doc & lib1 & dot2 & L & lib2 & Sl & D & St & PL & P2 & (P1 & _) & En & _).
  destruct (P1 e d I) as (dir & n & Ee & A & M). exists (dir ++ [n]). split; [rewrite Ee; change (name :: dir ++ [n]) with ((name :: dir) ++ [n]); now rewrite slashed_path|].
  assert (O : forall q d, At (Folder L) q (Reg d) -> Origin w lib q d) by exact (staged_origin _ _ _ _ _ _ _ _ _ _ X Pl D St).
  assert (NM : encrypted o = true -> ~ Modelica e).
  { intros He. destruct Sl as (_ & C & _). exact (no_modelica _ _ _ _ _ _ _ _ Sa C He H Ea e d I). }
  destruct En as [(He & tbl & tr & T & Gd)|(He & ->)]; [|left; split; [now apply O|exact NM]].
  pose proof Gd as (G1 & _ & _ & G4 & _). destruct (G4 _ _ A) as [A'|(s & dir' & Is & Ed & Ep & ->)]; [left; split; [now apply O|exact NM]|].
  right. split; [exact He|]. cbn [app] in Ed. subst dir'. exists (s_dir s), (s_name s), (s_data s). destruct (G1 s Is) as (dir2 & Ed & A' & _ & Ms & _). cbn [app] in Ed. subst dir2.
  split; [exact Ep|]. split; [now apply is_modelica_spec|]. split; [now apply O|]. rewrite slashed_path. fold (s_rel s).
  destruct Sa as (_ & _ & _ & Sr). apply (trace_concealed pr K w G LK Sr _ _ _ T); [|exact Is]. intros q v F. discriminate.
Qed.

(** ** Completeness *)

Lemma stage_all w p to es lib1 : CopiesAll w -> Proper (Folder es) -> copy_node w p to (Folder es) (Some (Folder [])) = Ok (Some (Folder lib1)) -> lib1 = clean_list es.
Proof.
  intros W P H. assert (E : copy_node w p to (Folder es) None = Ok (Some (Folder lib1))).
  { rewrite copy_folder in *. cbn [target] in *. destruct W as (_ & Wm & _). now rewrite Wm. }
  apply (copy_all w W _ _ _ _ P) in E. rewrite clean_folder in E. now injection E as ->.
Qed.
Lemma modelica_c n : is_modelica n = true -> is_modelica (n ++ B "c") = false.
Proof.
  intros _. apply not_true_iff_false. intros H. apply is_modelica_spec in H. destruct H as (b & e & E & He).
  apply (f_equal (@rev _)) in E. rewrite !rev_app_distr in E. destruct (rev e) as [|c re] eqn:R.
  - apply (f_equal (@rev _)) in R. rewrite rev_involutive in R. subst. discriminate.
  - cbn in E. injection E as <- _. apply (f_equal (@rev _)) in R. rewrite rev_involutive in R. subst e. cbn [rev] in He. rewrite map_app in He.
    apply (f_equal (@rev _)) in He. rewrite rev_app_distr in He. discriminate.
Qed.
Lemma code_archive pr K w args o name lib r : Request w args o name lib -> package pr K w args = Ok r ->
  (k_code r = 0 -> exists z l, k_archive r = Some (z, l)) /\ (2 <= k_code r -> k_staging r <> None).
Proof.
  intros Rq H. destruct (request_run _ _ _ _ _ _ _ _ Rq H) as [->|(t & p & Sl & D & Hs)]; [split; [discriminate|cbn; lia]|].
  destruct (stage_inv _ _ _ _ _ _ _ _ _ _ Sl D Hs) as [(N & Ns & Cd)|(staging & doc & lib1 & dot2 & L & St & He)]; [split; [lia|tauto]|].
  unfold encrypt_and_zip in He. destruct (if using_encryption t then _ else _) as [[ok lib2]| |]; [|discriminate|discriminate]. cbn [bind] in He.
  destruct ok; [|injection He as <-; split; discriminate]. destruct (the_library_name t) as [[n t1]| |]; [|discriminate|discriminate]. cbn [bind] in He.
  destruct (create_zip _ _ _ _ _) as [[ok2 ar]| |] eqn:Z; [|discriminate|discriminate]. cbn [bind] in He. destruct ok2; injection He as <-; cbn [k_code k_archive k_staging].
  - split; [|lia]. intros _. unfold create_zip in Z. destruct (w_zip_open w); [|discriminate].
    destruct (zip_dir _ _ _ _ _) as [[ok3 l]| |]; [|discriminate|discriminate]. cbn [bind] in Z. injection Z as _ <-. eauto.
  - split; discriminate.
Qed.

(** The copy and the library have the same files outside .library. *)
Lemma staged_at w t p staging name es doc lib1 dot2 L : CopiesAll w -> Sane w -> w_disk w p = Some (Folder es) -> Staged w t p staging name es doc lib1 dot2 L ->
  forall q d, hd [] q <> DOT_LIBRARY -> (At (Folder L) q (Reg d) <-> At (Folder es) q (Reg d) /\ ~ In DOT_LIBRARY q).
Proof.
  intros W (_ & Sp & _) D (_ & _ & _ & Cn & _ & _ & ->) q d Nq. apply (stage_all w _ _ _ _ W (Sp _ _ D)) in Cn. subst lib1.
  pose proof (clean_at (Folder es) q d) as Cl. rewrite clean_folder in Cl. rewrite <- Cl. clear Cl. split.
  - intros A. apply at_folder_reg in A. destruct A as (n & q' & x & -> & I & A). cbn [hd] in Nq. destruct (set_entry_in _ _ _ _ _ I) as [[-> _]|I']; [contradiction|].
    eexists. split; [reflexivity|]. apply at_cons. eauto.
  - intros (y & [= <-] & A). apply at_folder_reg in A. destruct A as (n & q' & x & -> & I & A). cbn [hd] in Nq. apply at_cons. exists x. split; [|exact A].
    now apply set_entry_old.
Qed.
Lemma dot_not_modelica : is_modelica DOT_LIBRARY = false.
Proof. reflexivity. Qed.

Lemma archive_complete pr K w args o name lib r : Sane w -> CopiesAll w -> Request w args o name lib -> package pr K w args = Ok r -> k_code r = 0 ->
  exists l, k_archive r = Some (archive_name name, l) /\
  forall dir n d, At (Folder lib) (dir ++ [n]) (Reg d) -> ~ In DOT_LIBRARY (dir ++ [n]) ->
    (encrypted o = false -> In (slashed (name :: dir ++ [n]), d) l) /\
    (encrypted o = true -> ~ Modelica n -> (forall m e, n = m ++ B "c" -> Modelica m -> ~ At (Folder lib) (dir ++ [m]) (Reg e)) ->
       In (slashed (name :: dir ++ [n]), d) l) /\
    (encrypted o = true -> Modelica n -> (caseeq n PACKAGE_MO = true -> n = PACKAGE_MO) -> Forall (fun c => caseeq c PACKAGE_MO = false) dir ->
       exists out, In (slashed (name :: dir ++ [n ++ B "c"]), out) l /\
         (GoodPrimitives pr -> length K = 32 -> Concealed pr (w_iv w (slashed (dir ++ [n]))) (w_mask w (slashed (dir ++ [n]))) d out)).
Proof.
  intros Sa W Rq H Cd. destruct (proj1 (code_archive _ _ _ _ _ _ _ _ Rq H) Cd) as (z & l & Ea).
  destruct (archive_inv _ _ _ _ _ _ _ _ _ _ Sa Rq H Ea) as (-> & _ & t & p & st & doc & lib1 & dot2 & L & lib2 & Sl & D & St & PL & P2 & (_ & P1) & En & _).
  rewrite Cd in P1. specialize (P1 eq_refl). exists l. split; [exact Ea|]. intros dir n d A Nd.
  pose proof (staged_at _ _ _ _ _ _ _ _ _ _ W Sa D St) as SA.
  assert (Hh : forall m, (dir = [] -> m <> DOT_LIBRARY) -> hd [] (dir ++ [m]) <> DOT_LIBRARY).
  { intros m Hm. destruct dir as [|c dir]; [now apply Hm|]. cbn [app hd]. intros ->. apply Nd. now left. }
  assert (AL : At (Folder L) (dir ++ [n]) (Reg d)). { apply SA; [|now split]. apply Hh. intros -> ->. apply Nd. now left. }
  assert (Sx : forall m, slashed (name :: dir ++ [m]) = path_of (name :: dir) m).
  { intros m. change (name :: dir ++ [m]) with ((name :: dir) ++ [m]). apply slashed_path. }
  split; [|split].
  - intros He. destruct En as [(He' & _)|(_ & ->)]; [congruence|]. rewrite Sx. apply P1; [exact AL|congruence].
  - intros He Nm Ov. destruct En as [(_ & tbl & tr & T & Gd)|(He' & _)]; [|congruence]. destruct Gd as (G1 & _ & _ & _ & G5 & _). rewrite Sx. apply P1.
    + destruct (G5 _ _ _ AL) as [A'|(s & Is & Ed & Es)]; [exact A'|exfalso]. cbn [app] in Ed. destruct (G1 s Is) as (dir2 & Ed2 & A2 & _ & Ms & _). cbn [app] in Ed2.
      subst dir2. rewrite Ed in A2. apply (Ov (s_name s) (s_data s) Es); [now apply is_modelica_spec|]. apply SA in A2; [apply A2|].
      apply Hh. intros _ E. rewrite E in Ms. discriminate.
    + intros _. apply not_true_iff_false. intros Hm. apply is_modelica_spec in Hm. contradiction.
  - intros He Mn Cp Fd. destruct En as [(_ & tbl & tr & T & Gd)|(He' & _)]; [|congruence]. destruct Gd as (G1 & _ & _ & _ & _ & G6 & _).
    apply is_modelica_spec in Mn. destruct W as (_ & _ & _ & Wo). destruct (G6 Wo dir n d AL Mn Cp Fd) as (s & Is & Ed & Es & Ds). cbn [app] in Ed.
    destruct (G1 s Is) as (dir2 & Ed2 & _ & A2 & _). cbn [app] in Ed2. subst dir2. rewrite Ed, Es in A2. exists (s_out s). split.
    + rewrite Sx. apply P1; [exact A2|]. intros _. now apply modelica_c.
    + intros G LK. rewrite slashed_path. destruct Sa as (_ & _ & _ & Sr).
      assert (TL : TableLen pr []) by (intros q v F; discriminate). pose proof (trace_concealed pr K w G LK Sr _ _ _ T TL s Is) as Cc.
      unfold s_rel in Cc. now rewrite Ed, Es, Ds in Cc.
Qed.

(** ** Removal *)

Definition remove_list (w : world) (path : bytes) : entries -> bool * entries :=
  fix go (es : entries) : bool * entries :=
    match es with
    | [] => (true, [])
    | (n, x) :: r =>
        let p := path ++ [SLASH] ++ n in
        let '(ok, x') := match x with
                         | Folder _ => remove_tree w p x
                         | _ => if w_unlink w p then (true, None) else (false, Some x)
                         end in
        let kept := match x' with Some y => [(n, y)] | None => [] end in
        if ok then let '(ok2, r') := go r in (ok2, kept ++ r') else (false, kept ++ r)
    end.
Lemma remove_folder w path es : remove_tree w path (Folder es) =
  if w_opendir w Removing path then
    let '(ok, rest) := remove_list w path es in
    if ok && match rest with [] => w_rmdir w path | _ => false end then (true, None) else (false, Some (Folder rest))
  else (true, Some (Folder es)).
Proof. reflexivity. Qed.
Lemma remove_all w : (forall p, w_opendir w Removing p = true) -> (forall p, w_unlink w p = true) -> (forall p, w_rmdir w p = true) ->
  forall t path es, t = Folder es -> remove_tree w path t = (true, None).
Proof.
  intros Wo Wu Wr. induction t as [e| |fs IH] using tree_induction; intros path es E; [discriminate|discriminate|]. clear E es.
  rewrite remove_folder, Wo. assert (G : remove_list w path fs = (true, [])).
  { induction fs as [|[n x] r IHr]; [reflexivity|]. specialize (IHr (fun n x I => IH n x (or_intror I))). change (remove_list w path ((n, x) :: r)) with
      (let p := path ++ [SLASH] ++ n in
        let '(ok, x') := match x with
                         | Folder _ => remove_tree w p x
                         | _ => if w_unlink w p then (true, None) else (false, Some x)
                         end in
        let kept := match x' with Some y => [(n, y)] | None => [] end in
        if ok then let '(ok2, r') := remove_list w path r in (ok2, kept ++ r') else (false, kept ++ r)).
    cbv zeta. destruct x as [d|l|].
    - now rewrite Wu, IHr.
    - now rewrite (IH n (Folder l) (or_introl eq_refl) _ l eq_refl), IHr.
    - now rewrite Wu, IHr. }
  rewrite G, Wr. reflexivity.
Qed.
