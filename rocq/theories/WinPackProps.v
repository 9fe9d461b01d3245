(** Packaging on Windows: the icon, the archive, copies, removal, encryption. *)
From Verif Require Import Base BaseProofs ArgsModel ManifestModel WireModel CryptModel CryptSpec CryptProps MaskProofs PackageModel PackageSpec TreeProofs CopyProofs EncProofs
  PackageExamples PackCopyModel PackCopyProps WinPackModel WinPackSpec WinPackProofs WinEncProofs.

(** ** Examples *)

Definition win_world : world := machine my_lib no_faults.
Definition well (_ : bytes) : copy_calls := all_well 512.
Definition ST : bytes := B "C:\Temp\TemporaryFolderAb1".
Fixpoint small (t : tree) : bool :=
  match t with
  | Reg d => length d <=? 512
  | Folder es => forallb (fun e => small (snd e)) es
  | Other => true
  end.
Lemma well_fine t : small t = true -> forall q p d, At t p (Reg d) -> Fine (well q) d.
Proof.
  intros H q p d A. assert (L : length d <= 512).
  { remember (Reg d) as x eqn:E. revert H E. induction A as [t|es n y p z I _ IH]; intros H E.
    - subst t. now apply Nat.leb_le.
    - apply IH; [|exact E]. cbn [small] in H. rewrite forallb_forall in H. exact (H _ I). }
  unfold Fine, well, all_well. cbn [y_open_read y_stat y_calloc y_read y_open_write y_write]. now repeat split.
Qed.
Fixpoint win_ok (t : tree) : bool :=
  match t with
  | Folder es => forallb (fun e => forallb (fun c => negb (Ascii.eqb c BSLASH)) (fst e) && win_ok (snd e)) es
  | _ => true
  end.
Lemma win_check t : win_ok t = true -> WinNames t.
Proof.
  induction t as [e| |es IH] using tree_induction; intros H; [constructor|constructor|]. constructor. intros n x I. cbn [win_ok] in H. rewrite forallb_forall in H.
  specialize (H _ I). cbn [fst snd] in H. apply andb_prop in H. destruct H as [H1 H2]. split; [|now apply (IH n x I)].
  intros X. rewrite forallb_forall in H1. specialize (H1 _ X). discriminate H1.
Qed.
Fixpoint spelt_ok (t : tree) : bool :=
  match t with
  | Folder es => forallb (fun e => (negb (caseeq (fst e) (B "package.mo")) || beq (fst e) (B "package.mo")) && spelt_ok (snd e)) es
  | _ => true
  end.
Lemma spelt_check t : spelt_ok t = true -> Spelt t.
Proof.
  induction t as [e| |es IH] using tree_induction; intros H; [constructor|constructor|]. constructor. intros n x I. cbn [spelt_ok] in H. rewrite forallb_forall in H.
  specialize (H _ I). cbn [fst snd] in H. apply andb_prop in H. destruct H as [H1 H2]. split; [|now apply (IH n x I)].
  intros C. rewrite C in H1. cbn [negb orb] in H1. now apply beq_true.
Qed.

(** ** C78 *)

(** The icon is found if and only if it comes before the first folder, or does so in that folder. *)
Theorem C78_icon_partial : forall w name path lib o, (forall p, w_opendir w Searching p = true) -> locate_win w name path lib = Ok o ->
  (o = None <-> forall p, ~ Seen name lib p) /\
  (forall q, o = Some q -> exists p, Seen name lib p /\ q = path ++ B "\" ++ backslashed p).
Proof.
  intros w name path lib o Wo H. unfold locate_win in H. destruct (findwin_spec w name Wo (Folder lib) path None lib eq_refl) as [E|(i & E & D)]; rewrite E in H; [discriminate|].
  cbn [bind] in H. injection H as <-. destruct D as [[-> D]|(p & S1 & ->)]; (split; [split|]); try discriminate.
  - intros _. exact D.
  - intros _. reflexivity.
  - intros D. now destruct (D p).
  - intros q [= <-]. now exists p.
Qed.
Print Assumptions C78_icon_partial.
Example C78_icon_ex : locate_win win_world (B "icon.png") ST [(B "A.mo", Reg []); (B "Images", Folder [(B "icon.png", Reg (B "PNG"))]); (B "z", Folder [])] =
  Ok (Some (ST ++ B "\Images\icon.png")).
Proof. vm_compute. reflexivity. Qed.

(** When directories are listed by name, the new folder .library comes first and nothing is found: packaging with an icon fails, although
    the library holds the file. *)
Theorem C78_icon_refuted : forall w name path lib, (forall p, w_opendir w Searching p = true) -> ByName lib -> NoDup (map fst lib) ->
  In (B ".library", Folder []) lib -> Ordinary (B ".library") lib -> length path < 2000 -> locate_win w name path lib = Ok None.
Proof. exact noicon_listed. Qed.
Print Assumptions C78_icon_refuted.
Definition listed : list (bytes * tree) :=
  [(B ".library", Folder []); (B "A.mo", Reg (B "model A end A;")); (B "icon.png", Reg (B "PNG")); (B "package.mo", Reg (B "package P end P;"))].
Example C78_refuted_ex : ByName listed /\ Ordinary (B ".library") listed /\ At (Folder listed) [B "icon.png"] (Reg (B "PNG")) /\
  locate_win win_world (B "icon.png") ST listed = Ok None.
Proof.
  split; [|split; [|split]].
  - repeat (constructor; [intros e I; cbn [In] in I; repeat destruct I as [<-|I]; try contradiction; vm_compute; lia|]). constructor.
  - intros n x I. unfold listed in I. cbn [In] in I. repeat destruct I as [I|I]; try contradiction; injection I as <- _; [now left|right; vm_compute; lia..].
  - apply find_path_at. reflexivity.
  - apply C78_icon_refuted; [reflexivity| | |now left| |vm_compute; lia].
    + repeat (constructor; [intros e I; cbn [In] in I; repeat destruct I as [<-|I]; try contradiction; vm_compute; lia|]). constructor.
    + now apply distinct_nodup.
    + intros n x I. unfold listed in I. cbn [In] in I. repeat destruct I as [I|I]; try contradiction; injection I as <- _; [now left|right; vm_compute; lia..].
Qed.

(** ** C79 *)

(** If nothing fails and no old archive stays, an archive is made if and only if no folder is without folders and files to be added; it then
    holds exactly the files that belong there, each once, with slashes in their names. *)
Theorem C79_archive_partial : forall c w old encrypted st root ok l, Proper (Folder root) -> WinNames (Folder root) ->
  (forall p, w_opendir w Zipping p = true) -> (forall p, w_zip_add w p = true) ->
  (forall p d, At (Folder root) p (Reg d) -> Fine (c (st ++ B "\" ++ backslashed p)) d) ->
  create_zip_win c w old true encrypted st root = Ok (ok, l) ->
  (ok = true <-> Filled encrypted (Folder root)) /\
  (ok = true -> NoDup (map fst l) /\
     forall name d, In (name, d) l <-> exists dir n, name = slashed (dir ++ [n]) /\ At (Folder root) (dir ++ [n]) (Reg d) /\ Shown encrypted n).
Proof.
  intros c w old enc st root ok l P W Wo Wz F H. unfold create_zip_win in H.
  destruct (zipwin_spec c w st enc Wo Wz (Folder root) st root eq_refl P F) as [E|(ok' & l' & E & Hok & HL)]; rewrite E in H; [discriminate|]. cbn [bind app] in H.
  injection H as <- <-. split; [exact Hok|]. intros T. destruct (HL T) as (L & [ND HLi] & -> & Len). clear HL E Hok T.
  assert (Nm : forall p d, In (p, d) L -> zip_name_win st (st ++ [BSLASH] ++ backslashed p) = slashed p).
  { intros p d I. apply zip_name_spec; [|now apply (Len p d)]. apply HLi in I. destruct I as [A _]. exact (winnames_at _ W p _ A). }
  assert (Fn : forall p d, In (p, d) L -> Forall Name p /\ exists dir n, p = dir ++ [n]).
  { intros p d I. apply HLi in I. destruct I as [A (dir & n & -> & _)]. split; [|now exists dir, n]. destruct (proper_at _ _ _ P A) as [_ Fp].
    pose proof (winnames_at _ W _ _ A) as Fb. rewrite Forall_forall in *. intros m I. destruct (Fp m I) as (N1 & N2 & N3 & _). split; [exact N1|split; [exact N2|]]. split; [now apply Fb|exact N3]. }
  split.
  - rewrite map_map. cbn [fst]. clear HLi Len F P W Wo Wz. induction L as [|[p d] L IH]; [constructor|]. cbn [map fst] in *. inversion ND as [|? ? Np ND']; subst.
    constructor; [|apply IH; [exact ND'|intros q e I; apply (Nm q e); now right|intros q e I; apply (Fn q e); now right]].
    intros I. apply in_map_iff in I. destruct I as ([q e] & E & I). cbn [fst] in E. rewrite (Nm q e (or_intror I)), (Nm p d (or_introl eq_refl)) in E.
    destruct (Fn p d (or_introl eq_refl)) as [F1 (d1 & n1 & ->)]. destruct (Fn q e (or_intror I)) as [F2 (d2 & n2 & ->)]. rewrite !slashed_path in E.
    apply Forall_app in F1, F2. destruct F1 as [F1 G1], F2 as [F2 G2]. apply Forall_cons_iff in G1, G2. destruct G1 as [G1 _], G2 as [G2 _].
    apply path_of_inj in E; [|exact F2|exact F1|now apply name_noslash|now apply name_noslash]. destruct E as [-> ->]. apply Np. now apply (in_map fst) in I.
  - intros name d. rewrite in_map_iff. split.
    + intros ([p e] & E & I). pose proof (f_equal fst E) as E1. pose proof (f_equal snd E) as E2. cbn [fst snd] in E1, E2. subst e. rewrite <- E1, (Nm p d I). apply HLi in I. destruct I as [A (dir & n & -> & S1)]. now exists dir, n.
    + intros (dir & n & -> & A & S1). exists (dir ++ [n], d). cbn [fst snd]. assert (I : In (dir ++ [n], d) L) by (apply HLi; split; [exact A|now exists dir, n]).
      split; [|exact I]. now rewrite (Nm _ _ I).
Qed.
Print Assumptions C79_archive_partial.
Definition staged : list (bytes * tree) :=
  [(B "P", Folder [(B "package.moc", Reg (B "x")); (B "package.mo", Reg (B "package P end P;")); (B "Images", Folder [(B "icon.png", Reg (B "PNG"))])])].
Example C79_archive_ex : proper_ok (Folder staged) && win_ok (Folder staged) && small (Folder staged) = true /\
  create_zip_win well win_world [] true true ST staged = Ok (true, [(B "P/package.moc", B "x"); (B "P/Images/icon.png", B "PNG")]).
Proof. split; [reflexivity|]. vm_compute. reflexivity. Qed.

(** A library with an empty folder cannot be packaged. *)
Theorem C79_empty_folder_refuted : forall c w old encrypted st root ok l dir, Proper (Folder root) ->
  (forall p, w_opendir w Zipping p = true) -> (forall p, w_zip_add w p = true) ->
  (forall p d, At (Folder root) p (Reg d) -> Fine (c (st ++ B "\" ++ backslashed p)) d) ->
  At (Folder root) dir (Folder []) -> create_zip_win c w old true encrypted st root = Ok (ok, l) -> ok = false.
Proof.
  intros c w old enc st root ok l dir P Wo Wz F A H. unfold create_zip_win in H.
  destruct (zipwin_spec c w st enc Wo Wz (Folder root) st root eq_refl P F) as [E|(ok' & l' & E & Hok & _)]; rewrite E in H; [discriminate|]. cbn [bind] in H.
  injection H as <- _. destruct ok'; [|reflexivity]. exfalso. apply (filled_at enc _ (proj1 Hok eq_refl) dir [] A). reflexivity.
Qed.
Print Assumptions C79_empty_folder_refuted.
Example C79_empty_ex : create_zip_win well win_world [] true false ST [(B "P", Folder [(B "package.mo", Reg (B "x")); (B "Resources", Folder [])])] =
  Ok (false, [(B "P/package.mo", B "x")]).
Proof. vm_compute. reflexivity. Qed.

(** A file that cannot be opened: a null pointer is used. *)
Theorem C79_unreadable_refuted : forall c w old removed encrypted st n d post, w_opendir w Zipping st = true -> Shown encrypted n -> length st + length n < 2000 ->
  y_stat (c (st ++ B "\" ++ n)) = true -> y_calloc (c (st ++ B "\" ++ n)) = true -> y_open_read (c (st ++ B "\" ++ n)) = false ->
  create_zip_win c w old removed encrypted st ((n, Reg d) :: post) = UB NullDeref.
Proof.
  intros c w old rm enc st n d post Wo Sh L S1 S2 S3. unfold create_zip_win. rewrite zipwin_folder, Wo, zipwin_cons. rewrite fit_short.
  - cbn [bind]. apply shown_dec in Sh. rewrite Sh. change (back_join st n) with (st ++ B "\" ++ n). now rewrite S1, S2, S3.
  - unfold back_join. rewrite !app_length. change (length [BSLASH]) with 1. unfold MAX_PATH_LENGTH. clear - L. lia.
Qed.
Print Assumptions C79_unreadable_refuted.
Definition locked (q : bytes) (p : bytes) : copy_calls :=
  {| y_open_read := negb (beq p q); y_stat := true; y_calloc := true; y_read := 512; y_open_write := true; y_write := 512; y_mode := true |}.
Example C79_unreadable_ex : create_zip_win (locked (ST ++ B "\a.txt")) win_world [] true true ST [(B "a.txt", Reg (B "x"))] = UB NullDeref.
Proof. vm_compute. reflexivity. Qed.

(** An archive that could not be removed is extended: what was in it stays. *)
Theorem C79_old_refuted : forall c w old encrypted st root ok l e, create_zip_win c w old false encrypted st root = Ok (ok, l) -> In e old -> In e l.
Proof.
  intros c w old enc st root ok l e H I. unfold create_zip_win in H. destruct (zip_win _ _ _ _ _ _) as [[ok' l']| |]; [|discriminate|discriminate]. cbn [bind] in H.
  injection H as _ <-. apply in_or_app. now left.
Qed.
Print Assumptions C79_old_refuted.
Example C79_old_ex : create_zip_win well win_world [(B "P/Secret.mo", B "model Secret end Secret;")] false true ST staged =
  Ok (true, [(B "P/Secret.mo", B "model Secret end Secret;"); (B "P/package.moc", B "x"); (B "P/Images/icon.png", B "PNG")]).
Proof. vm_compute. reflexivity. Qed.

(** ** C80 *)

(** If nothing fails, the copy has the files and folders of the library, apart from those called .library and what is below them. *)
Theorem C80_copy_partial : forall c w from to lib, Proper (Folder lib) -> Enumerates w ->
  (forall p d, At (Folder lib) p (Reg d) -> Fine (c (from ++ B "\" ++ backslashed p)) d) ->
  (forall u, copy_win c w from to (Folder lib) (Some []) <> UB u) /\
  forall ok dst, copy_win c w from to (Folder lib) (Some []) = Ok (ok, dst) -> ok = true /\ exists l, dst = Some l /\
    (forall p d, At (Folder l) p (Reg d) <-> At (Folder lib) p (Reg d) /\ ~ In (B ".library") p) /\
    (forall p, (exists s, At (Folder l) p (Folder s)) <-> (exists s, At (Folder lib) p (Folder s)) /\ ~ In (B ".library") p).
Proof.
  intros c w from to lib P En F.
  assert (F' : forall p d, At (Folder lib) p (Reg d) -> Fine (c (from ++ match p with [] => [] | _ => [BSLASH] ++ backslashed p end)) d).
  { intros p d A. destruct p as [|n p]; [apply at_nil in A; discriminate|]. now apply F. }
  destruct (copywin_exact c w (proj1 En Copying) (proj2 En) (Folder lib) from to P F' lib eq_refl) as [-> | ->]; [|split; discriminate]. split; [discriminate|].
  intros ok dst [= <- <-]. split; [reflexivity|]. exists (strip_list lib). split; [reflexivity|]. rewrite <- strip_folder. split.
  - intros p d. rewrite strip_at. split.
    + intros (y & A & N & E & _). destruct y; [|discriminate|discriminate]. injection E as <-. now split.
    + intros [A N]. exists (Reg d). split; [exact A|]. split; [exact N|]. split; [reflexivity|left; discriminate].
  - intros p. split.
    + intros [s A]. apply strip_at in A. destruct A as (y & A & N & E & _). destruct y as [|es|]; [discriminate| |discriminate]. split; [now exists es|exact N].
    + intros [[s A] N]. exists (strip_list s). apply strip_at. exists (Folder s). split; [exact A|]. split; [exact N|]. split; [reflexivity|left; discriminate].
Qed.
Print Assumptions C80_copy_partial.
Example C80_copy_ex : proper_ok (Folder my_lib) && small (Folder my_lib) = true /\
  match copy_win well win_world (B "C:\Lib") ST (Folder (my_lib ++ [(B "Empty", Folder [])])) (Some []) with
  | Ok (true, Some l) => map fst l = [B "A.mo"; B "icon.png"; B "Sub"; B "package.mo"; B "Resources"; B "Empty"]
  | _ => False
  end.
Proof. split; [reflexivity|]. vm_compute. reflexivity. Qed.

(** A file that cannot be opened for reading: copying does not end properly. *)
Theorem C80_unreadable_refuted : forall c w from to lib q d, Proper (Folder lib) -> Enumerates w ->
  (forall p, y_stat (c p) = true /\ y_calloc (c p) = true /\ y_open_write (c p) = true) ->
  At (Folder lib) q (Reg d) -> ~ In (B ".library") q -> y_open_read (c (from ++ B "\" ++ backslashed q)) = false ->
  (exists u, copy_win c w from to (Folder lib) (Some []) = UB u) \/ copy_win c w from to (Folder lib) (Some []) = Blocked.
Proof.
  intros c w from to lib q d P En Hc A N O. apply (copywin_fatal c w En (Folder lib) from to P Hc q d A); [|exact N|exact O].
  intros ->. apply at_nil in A. discriminate.
Qed.
Print Assumptions C80_unreadable_refuted.
Example C80_unreadable_ex : copy_win (locked (B "C:\Lib\Sub\B.MO")) win_world (B "C:\Lib") ST (Folder my_lib) (Some []) = UB NullDeref.
Proof. vm_compute. reflexivity. Qed.

(** A write that is cut short, and a folder that cannot be listed: success. *)
Theorem C80_incomplete_refuted : forall c w from to n d, w_opendir w Copying from = true -> n <> B ".library" -> length from + length n < 2000 -> length to + length n < 2000 ->
  Fine (c (from ++ B "\" ++ n)) [] -> length d <= y_read (c (from ++ B "\" ++ n)) ->
  copy_win c w from to (Folder [(n, Reg d)]) (Some []) = Ok (true, Some [(n, Reg (firstn (y_write (c (from ++ B "\" ++ n))) d))]) /\
  forall es, w_mkdir w (to ++ B "\" ++ n) = true -> w_opendir w Copying (from ++ B "\" ++ n) = false ->
  copy_win c w from to (Folder [(n, Folder es)]) (Some []) = Ok (true, Some [(n, Folder [])]).
Proof.
  intros c w from to n d Wo N L1 L2 (F1 & F2 & F3 & _ & F5 & _) R. rewrite !copywin_folder, Wo.
  assert (E : beq n DOT_LIBRARY = false) by now apply beq_false.
  assert (G1 : fit MAX_PATH_LENGTH (back_join from n) = Ok (from ++ B "\" ++ n)).
  { apply (fit_short _ (back_join from n)). unfold back_join. rewrite !app_length. change (length [BSLASH]) with 1. unfold MAX_PATH_LENGTH. clear - L1. lia. }
  assert (G2 : fit MAX_PATH_LENGTH (back_join to n) = Ok (to ++ B "\" ++ n)).
  { apply (fit_short _ (back_join to n)). unfold back_join. rewrite !app_length. change (length [BSLASH]) with 1. unfold MAX_PATH_LENGTH. clear - L2. lia. }
  split.
  - rewrite copywin_cons, E, G1, G2. cbn [bind]. rewrite F1, F2, F3, F5. cbn [andb lookup set_entry]. rewrite (firstn_all2 d R).
    rewrite (proj2 (Nat.sub_0_le _ _) R). cbn [repeat]. rewrite app_nil_r. reflexivity.
  - intros es M O. rewrite copywin_folder, Wo, copywin_cons, E, G1, G2. cbn [bind lookup]. rewrite M, copywin_folder, O. reflexivity.
Qed.
Print Assumptions C80_incomplete_refuted.
Example C80_incomplete_ex : copy_win (fun _ => {| y_open_read := true; y_stat := true; y_calloc := true; y_read := 9; y_open_write := true; y_write := 3; y_mode := true |})
    win_world (B "C:\Lib") ST (Folder [(B "A.mo", Reg (B "model A end A;"))]) (Some []) = Ok (true, Some [(B "A.mo", Reg (B "mod"))]).
Proof. vm_compute. reflexivity. Qed.

(** ** C81 *)

(** If the folder can be listed, success is reported if and only if it is gone; it is gone if nothing fails and it holds files and folders
    only. *)
Theorem C81_removed_partial : forall w st root,
  (w_opendir w Removing st = true -> (fst (delete_staging_win w st root) = true <-> snd (delete_staging_win w st root) = None)) /\
  ((forall p, w_opendir w Removing p = true) -> (forall p, w_unlink w p = true) -> (forall p, w_rmdir w p = true) -> Plain (Folder root) ->
     delete_staging_win w st root = (true, None)).
Proof. intros w st root. split; [apply rmwin_gone|]. intros O U R P. exact (rmwin_works w O U R (Folder root) st root eq_refl P). Qed.
Print Assumptions C81_removed_partial.
(** What is left was there. *)
Theorem C81_left_partial : forall w st root ok x, delete_staging_win w st root = (ok, Some x) ->
  forall p d, At x p (Reg d) -> At (Folder root) p (Reg d).
Proof.
  intros w st root ok x H p d A. destruct (rmwin_left w _ _ _ _ H p _ A) as (z & Az & E). now rewrite (E d eq_refl) in Az.
Qed.
Print Assumptions C81_left_partial.
(** If it cannot be listed, success is reported and everything is still there. *)
Theorem C81_unlisted_refuted : forall w st root, w_opendir w Removing st = false -> delete_staging_win w st root = (true, Some (Folder root)).
Proof. intros w st root O. unfold delete_staging_win. rewrite rmwin_folder, O. reflexivity. Qed.
Print Assumptions C81_unlisted_refuted.
Definition in_use (q : bytes) : world := machine my_lib
  {| f_copy := f_copy no_faults; f_open := f_open no_faults; f_encrypts := f_encrypts no_faults; f_opendir := fun _ p => negb (beq p q); f_unlink := fun p => negb (beq p q);
     f_tmpdir := None; f_zip_add := f_zip_add no_faults |}.
Example C81_removed_ex : delete_staging_win win_world ST my_lib = (true, None) /\
  delete_staging_win (in_use (ST ++ B "\package.mo")) ST my_lib =
    (false, Some (Folder [(B "package.mo", Reg (B "package MyLib end MyLib;")); (B "Resources", Folder [(B "data.txt", Reg (B "1 2 3"))])])) /\
  delete_staging_win (in_use (ST ++ B "\Resources")) ST my_lib = (false, Some (Folder [(B "Resources", Folder [(B "data.txt", Reg (B "1 2 3"))])])) /\
  delete_staging_win (in_use ST) ST my_lib = (true, Some (Folder my_lib)).
Proof. vm_compute. now repeat split. Qed.

(** ** C82 *)

(** A library is encrypted on Windows as elsewhere: the same result, the same files with the same contents. *)
Theorem C82_same : forall pr K w v top lib, SameDraws w v -> Proper (Folder lib) -> WinNames (Folder lib) -> Spelt (Folder lib) ->
  result_of (encrypt_win pr K v top None (Folder lib) []) = result_of (encrypt_dir pr K w top None (Folder lib) []).
Proof.
  intros pr K w v top lib SD P W Sp. destruct (encrypt_bk pr K w v top SD (Folder lib) [] [] lib eq_refl P W Sp ltac:(constructor) ltac:(constructor)) as [E _].
  change (encrypt_win pr K v top (option_map bk (relstr [])) (Folder lib) (bkt [])) with (encrypt_win pr K v top None (Folder lib) []) in E. rewrite E.
  change (relstr []) with (@None bytes). destruct (encrypt_dir pr K w top None (Folder lib) []) as [[[ok t] x]|u|]; reflexivity.
Qed.
Print Assumptions C82_same.
Example C82_ex : SameDraws win_world win_world /\ proper_ok (Folder my_lib) && win_ok (Folder my_lib) && spelt_ok (Folder my_lib) = true /\
  match result_of (encrypt_win toy toy_key win_world ST None (Folder my_lib) []) with
  | Ok (true, Folder l) => map fst l = [B "A.mo"; B "icon.png"; B ".library"; B "Sub"; B "package.mo"; B "Resources"; B "package.moc"; B "A.moc"]
  | _ => False
  end.
Proof.
  split; [|split; [reflexivity|vm_compute; reflexivity]]. split; [reflexivity|]. split; [reflexivity|]. split; [reflexivity|]. split; [reflexivity|].
  intros p F. rewrite (slashed_bk p F). cbn [win_world machine w_iv w_mask w_encrypts no_faults f_encrypts]. rewrite bk_length. now repeat split.
Qed.

(** Without [Spelt] the platforms differ: a package file in another spelling is encrypted on Windows, and silently left out elsewhere. *)
Definition loud_lib : entries := [(B "A.mo", Reg (B "model A end A;")); (B "Package.MO", Reg (B "package L end L;"))].
Definition files_of (o : outcome (bool * tree)) : entries := match o with Ok (true, Folder l) => l | _ => [] end.
Definition loud_win : entries := Eval vm_compute in files_of (result_of (encrypt_win toy toy_key win_world ST None (Folder loud_lib) [])).
Definition loud_other : entries := Eval vm_compute in files_of (result_of (encrypt_dir toy toy_key win_world ST None (Folder loud_lib) [])).
Theorem C82_spelling_refuted : exists pr K w v top lib win other,
  GoodPrimitives pr /\ SameDraws w v /\ Proper (Folder lib) /\ WinNames (Folder lib) /\
  result_of (encrypt_win pr K v top None (Folder lib) []) = Ok (true, Folder win) /\
  result_of (encrypt_dir pr K w top None (Folder lib) []) = Ok (true, Folder other) /\
  map fst lib = [B "A.mo"; B "Package.MO"] /\
  map fst win = [B "A.mo"; B "Package.MO"; B "package.moc"; B "A.moc"] /\ map fst other = [B "A.mo"; B "Package.MO"; B "A.moc"].
Proof.
  exists toy, toy_key, win_world, win_world, ST, loud_lib, loud_win, loud_other.
  split; [exact toy_good|]. split; [exact (proj1 C82_ex)|]. split; [apply proper_check; reflexivity|]. split; [apply win_check; reflexivity|].
  split; [vm_compute; reflexivity|]. split; [vm_compute; reflexivity|]. repeat split.
Qed.
Print Assumptions C82_spelling_refuted.
