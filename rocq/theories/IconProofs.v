(** The icon of a library, and removal of the staged copy. *)
From Coq Require Import Permutation.
From Verif Require Import Base BaseProofs ArgsModel ArgsSpec ArgsProofs XmlSpec XmlProofs ManifestModel ManifestSpec ManifestProofs WireModel CryptModel CryptSpec CbcProofs MaskProofs DemaskProofs CryptProofs
  PackageModel PackageSpec TreeProofs CopyProofs EncProofs ZipProofs PackageProofs.

(** ** Removal *)

Lemma staging_removed pr K w args o name lib r : Request w args o name lib -> package pr K w args = Ok r ->
  (forall p, w_opendir w Removing p = true) -> (forall p, w_unlink w p = true) -> (forall p, w_rmdir w p = true) ->
  (k_staging r = None <-> k_code r <= 1).
Proof.
  intros Rq H Wo Wu Wr. pose proof (proj2 (code_archive _ _ _ _ _ _ _ _ Rq H)) as Hc. split.
  - intros E. destruct (le_lt_dec (k_code r) 1) as [L|L]; [exact L|]. now contradiction (Hc L).
  - intros L. destruct (request_run _ _ _ _ _ _ _ _ Rq H) as [->|(t & p & Sl & D & Hs)]; [reflexivity|].
    destruct (stage_inv _ _ _ _ _ _ _ _ _ _ Sl D Hs) as [(N & Ns & Cd)|(staging & doc & lib1 & dot2 & L' & St & He)]; [lia|].
    unfold encrypt_and_zip in He. destruct (if using_encryption t then _ else _) as [[ok lib2]| |]; [|discriminate|discriminate]. cbn [bind] in He.
    destruct ok; [|injection He as <-; cbn in L; lia]. destruct (the_library_name t) as [[n t1]| |]; [|discriminate|discriminate]. cbn [bind] in He.
    destruct (create_zip _ _ _ _ _) as [[ok2 ar]| |] eqn:Z; [|discriminate|discriminate]. cbn [bind] in He.
    destruct ok2; (match type of He with Ok ?x = Ok r => assert (r = x) as -> by congruence end); cbn [k_code k_staging] in *; [|lia]. now rewrite (remove_all w Wo Wu Wr _ staging _ eq_refl).
Qed.

(** ** The icon *)

Definition find_list (w : world) (filename path : bytes) : entries -> option bytes -> outcome (bool * option bytes) :=
  fix go (es : entries) (icon : option bytes) : outcome (bool * option bytes) :=
    match es with
    | [] => Ok (false, icon)
    | (n, x) :: r =>
        do p <- fit MAX_PATH_LENGTH (join path n) ;
        match x with
        | Folder _ => do (_, icon') <- find_file w filename p x icon ; go r icon'
        | Reg _ => if beq n filename then Ok (true, match icon with None => Some p | Some _ => icon end) else go r icon
        | Other => go r icon
        end
    end.
Lemma find_folder w fn path es icon : find_file w fn path (Folder es) icon =
  if w_opendir w Searching path then find_list w fn path es icon else Ok (false, icon).
Proof. reflexivity. Qed.
Lemma find_list_cons w fn path n x r icon : find_list w fn path ((n, x) :: r) icon =
  do p <- fit MAX_PATH_LENGTH (join path n) ;
  match x with
  | Folder _ => do (_, icon') <- find_file w fn p x icon ; find_list w fn path r icon'
  | Reg _ => if beq n fn then Ok (true, match icon with None => Some p | Some _ => icon end) else find_list w fn path r icon
  | Other => find_list w fn path r icon
  end.
Proof. reflexivity. Qed.

(** A path found below [path]. *)
Definition Found (path : bytes) (t : tree) (fn : bytes) (icon : option bytes) : Prop :=
  exists dir d, At t (dir ++ [fn]) (Reg d) /\ icon = Some (path ++ [SLASH] ++ path_of dir fn).
Lemma find_inv w fn : forall t path icon b icon', Proper t -> NoSlashEnd path -> find_file w fn path t icon = Ok (b, icon') ->
  (icon' = icon \/ (icon = None /\ Found path t fn icon')) /\
  (b = true -> icon' <> None /\ exists es d, t = Folder es /\ In (fn, Reg d) es).
Proof.
  induction t as [e| |es IH] using tree_induction; intros path icon b icon' P NS H;
    try (cbn [find_file] in H; injection H as <- <-; split; [now left|discriminate]).
  rewrite find_folder in H. destruct (w_opendir w Searching path); [|injection H as <- <-; split; [now left|discriminate]].
  destruct (proper_folder _ P) as [_ Hp].
  enough (G : forall l icon, incl l es -> find_list w fn path l icon = Ok (b, icon') ->
    (icon' = icon \/ (icon = None /\ Found path (Folder es) fn icon')) /\ (b = true -> icon' <> None /\ exists d, In (fn, Reg d) es)).
  { destruct (G es icon (incl_refl _) H) as [G1 G2]. split; [exact G1|]. intros Hb. destruct (G2 Hb) as [N (d & I)]. split; [exact N|]. eauto. }
  clear H. induction l as [|[n x] r IHl]; intros ic Inc H; [injection H as <- <-; split; [now left|discriminate]|].
  rewrite find_list_cons in H. destruct (fit _ _) as [p| |] eqn:F; [|discriminate|discriminate]. apply fit_ok in F. destruct F as [-> _]. cbn [bind] in H.
  assert (Inx : In (n, x) es) by (apply Inc; now left). assert (Inr : incl r es) by (intros y I; apply Inc; now right).
  rewrite (join_noslash _ _ NS) in H. destruct (Hp _ _ Inx) as [Fn Px]. destruct x as [d|fs|].
  - destruct (beq n fn) eqn:Bn; [|exact (IHl ic Inr H)]. apply beq_true in Bn. subst n. injection H as <- <-. split.
    + destruct ic as [i|]; [now left|]. right. split; [reflexivity|]. exists [], d. split; [|reflexivity]. apply at_cons. exists (Reg d). split; [exact Inx|constructor].
    + intros _. split; [destruct ic; discriminate|eauto].
  - destruct (find_file w fn (path ++ [SLASH] ++ n) (Folder fs) ic) as [[b1 ic1]| |] eqn:E1; [|discriminate|discriminate]. cbn [bind] in H.
    apply (IH n (Folder fs) Inx) in E1; [|exact Px|rewrite app_assoc; now apply filename_noslash]. destruct E1 as [E1 _]. destruct (IHl ic1 Inr H) as [G1 G2]. split; [|exact G2].
    destruct E1 as [->|[-> (dir & d & A & Ei)]]; [exact G1|]. right. split; [reflexivity|]. destruct G1 as [->|[Hn _]]; [|congruence].
    exists (n :: dir), d. split; [apply at_cons; eauto|]. rewrite Ei. cbn [path_of]. now rewrite <- !app_assoc.
  - exact (IHl ic Inr H).
Qed.

(** What is left of the path, by the length of TMPDIR. *)
Lemma skip_to n (a b c : bytes) : length a <= n < length a + length b -> ~ In SLASH b ->
  exists b', b' <> [] /\ ~ In SLASH b' /\ skipn n (a ++ b ++ c) = b' ++ c.
Proof.
  intros L Ns. exists (skipn (n - length a) b). split; [|split].
  - intros E. apply (f_equal (@length _)) in E. rewrite skipn_length in E. cbn in E. lia.
  - intros I. apply Ns. rewrite <- (firstn_skipn (n - length a) b). apply in_or_app. now right.
  - rewrite skipn_app, (skipn_all2 a) by lia. cbn [app]. rewrite skipn_app. now replace (n - length a - length b) with 0 by lia.
Qed.
Lemma clean_up_cut w a b q : q <> [] -> ~ In SLASH b -> length a <= tmpdir_length w + 1 < length a + length b ->
  clean_up_icon_path w (a ++ b ++ SLASH :: q) = Ok (Some q).
Proof.
  intros Nq Nb L. unfold clean_up_icon_path. fold (tmpdir_length w).
  destruct (Nat.ltb_spec (length (a ++ b ++ SLASH :: q)) (tmpdir_length w + 1)) as [L2|_]; [rewrite !app_length in L2; cbn [length] in L2; lia|].
  destruct (skip_to (tmpdir_length w + 1) a b (SLASH :: q) L Nb) as (b' & Nb' & Sb & E). rewrite E.
  destruct (b' ++ SLASH :: q) as [|c r] eqn:Eb; [destruct b'; discriminate|]. rewrite <- Eb.
  assert (F : find_byte SLASH (b' ++ SLASH :: q) = Some (length b')).
  { clear - Sb. induction b' as [|c b' IH]; [reflexivity|]. cbn [app find_byte length]. destruct (Ascii.eqb_spec c SLASH) as [->|_]; [exfalso; apply Sb; now left|].
    rewrite IH by (intros I; apply Sb; now right). reflexivity. }
  rewrite F. replace (S (length b')) with (length (b' ++ [SLASH])) by (rewrite app_length; cbn [length]; lia).
  replace (b' ++ SLASH :: q) with ((b' ++ [SLASH]) ++ q) by (now rewrite <- app_assoc). rewrite skipn_app, skipn_all, Nat.sub_diag. cbn [app skipn]. now destruct q.
Qed.
Lemma cut_slash w a b q : q <> [] -> ~ In SLASH b -> tmpdir_length w + 1 = length a + length b ->
  clean_up_icon_path w (a ++ b ++ SLASH :: q) = Ok (Some q).
Proof.
  intros Nq Nb L. unfold clean_up_icon_path. fold (tmpdir_length w).
  destruct (Nat.ltb_spec (length (a ++ b ++ SLASH :: q)) (tmpdir_length w + 1)) as [L2|_]; [rewrite !app_length in L2; cbn [length] in L2; lia|].
  rewrite L, app_assoc, <- app_length, skipn_app, skipn_all, Nat.sub_diag. cbn [app skipn find_byte]. change (Ascii.eqb SLASH SLASH) with true. cbn iota. now destruct q.
Qed.
Lemma clean_up_long w icon : length icon < tmpdir_length w + 1 -> clean_up_icon_path w icon = UB OobRead.
Proof. intros L. unfold clean_up_icon_path. fold (tmpdir_length w). now destruct (Nat.ltb_spec (length icon) (tmpdir_length w + 1)); [|lia]. Qed.

Lemma path_of_nonempty dir n : n <> [] -> path_of dir n <> [].
Proof. intros N. destruct dir as [|c dir]; cbn [path_of]; [exact N|]. intros E. apply app_eq_nil in E. destruct E as [_ E]. discriminate. Qed.
(** For a staging folder with its usual name. *)
Lemma clean_up_spec w x name q : length x = 6 -> ~ In SLASH x -> ~ In SLASH name -> q <> [] ->
  let icon := B "/tmp/TemporaryFolder" ++ x ++ [SLASH] ++ name ++ [SLASH] ++ q in
  (4 <= tmpdir_length w < staging_length -> clean_up_icon_path w icon = Ok (Some (name ++ [SLASH] ++ q))) /\
  (staging_length <= tmpdir_length w <= staging_length + length name -> clean_up_icon_path w icon = Ok (Some q)) /\
  (staging_length + length name + 1 + length q < tmpdir_length w -> clean_up_icon_path w icon = UB OobRead).
Proof.
  intros Lx Sx Sn Nq icon. unfold staging_length. split; [|split].
  - intros L. assert (E : icon = B "/tmp/" ++ (B "TemporaryFolder" ++ x) ++ SLASH :: (name ++ [SLASH] ++ q)) by (unfold icon; now rewrite <- !app_assoc).
    rewrite E. assert (Ns : ~ In SLASH (B "TemporaryFolder" ++ x)).
    { intros I. apply in_app_or in I. destruct I as [I|I]; [|contradiction]. cbn in I. repeat destruct I as [I|I]; try discriminate I; exact I. }
    assert (Nn : name ++ [SLASH] ++ q <> []) by (intros Z; apply app_eq_nil in Z; destruct Z as [_ Z]; discriminate).
    destruct (Nat.eq_dec (tmpdir_length w) 25) as [E25|N25].
    + apply cut_slash; [exact Nn|exact Ns|]. rewrite E25, app_length, Lx. reflexivity.
    + apply clean_up_cut; [exact Nn|exact Ns|]. rewrite app_length, Lx. change (length (B "/tmp/")) with 5. change (length (B "TemporaryFolder")) with 15. lia.
  - intros L. assert (E : icon = (B "/tmp/TemporaryFolder" ++ x ++ [SLASH]) ++ name ++ SLASH :: q) by (unfold icon; now rewrite <- !app_assoc).
    assert (La : length (B "/tmp/TemporaryFolder" ++ x ++ [SLASH]) = 27) by (rewrite !app_length, Lx; reflexivity).
    rewrite E. destruct (Nat.eq_dec (tmpdir_length w) (26 + length name)) as [E25|N25].
    + apply cut_slash; [exact Nq|exact Sn|]. rewrite La. lia.
    + apply clean_up_cut; [exact Nq|exact Sn|]. rewrite La. lia.
  - intros L. apply clean_up_long. unfold icon. rewrite !app_length, Lx. change (length (B "/tmp/TemporaryFolder")) with 20. cbn [length]. lia.
Qed.

(** ** The manifest in the archive *)

Lemma base_name v : BaseName v (extract_filename v).
Proof.
  unfold extract_filename. destruct (rfind_byte SLASH v) as [i|] eqn:R.
  - destruct (proj1 (rfind_byte_some _ _ _) R) as (a & b & -> & Nb & La). exists (a ++ [SLASH]). subst i.
    replace (S (length a)) with (length (a ++ [SLASH])) by (rewrite app_length; cbn [length]; lia).
    replace (a ++ SLASH :: b) with ((a ++ [SLASH]) ++ b) by (now rewrite <- app_assoc). rewrite skipn_app, skipn_all, Nat.sub_diag. cbn [app skipn].
    split; [reflexivity|]. split; [exact Nb|right; eauto].
  - apply rfind_byte_none in R. exists []. split; [reflexivity|]. split; [exact R|now left].
Qed.
Lemma base_name_fun v n m : BaseName v n -> BaseName v m -> n = m.
Proof.
  intros (p1 & -> & N1 & H1) (p2 & E & N2 & H2). destruct H1 as [->|(q1 & ->)], H2 as [->|(q2 & ->)].
  - exact E.
  - cbn [app] in E. exfalso. apply N1. rewrite E. rewrite !in_app_iff. cbn [In]. tauto.
  - cbn [app] in E. exfalso. apply N2. rewrite <- E. rewrite !in_app_iff. cbn [In]. tauto.
  - rewrite <- !app_assoc in E. cbn [app] in E. destruct (app_split _ _ _ _ _ E) as [(q & -> & Eq)|(q & -> & Eq)].
    + exfalso. apply N2. rewrite Eq. apply in_or_app. right. now left.
    + destruct q as [|c q]; cbn [app] in Eq; [congruence|]. exfalso. apply N1. apply (f_equal (@tl _)) in Eq. cbn [tl] in Eq. rewrite Eq. apply in_or_app. right. now left.
Qed.

Lemma copy_lves_list w exe to : (forall f t d, w_copy w f t d = (Some d, true)) -> forall names dot ok l dot', copy_lves w exe to names dot = (ok, l, dot') ->
  ok = true /\ l = map (fun n => match w_disk w (lve_path exe n) with Some _ => Some n | None => None end) names /\
  (forall n d, In (n, Reg d) dot -> exists d', In (n, Reg d') dot') /\
  forall n, In n names -> w_disk w (lve_path exe n) <> None -> exists d, In (n, Reg d) dot'.
Proof.
  intros W. induction names as [|m r IH]; intros dot ok l dot' H; cbn [copy_lves] in H.
  - injection H as <- <- <-. split; [reflexivity|]. split; [reflexivity|]. split; [eauto|]. intros n [].
  - cbn [map]. destruct (w_disk w (lve_path exe m)) as [x|] eqn:D.
    + rewrite W in H. match type of H with (let '(_, _) := ?X in _) = _ => destruct X as [[ok1 l1] dot1] eqn:E end. injection H as <- <- <-.
      destruct (IH _ _ _ _ E) as (H1 & H2 & H3 & H4). split; [exact H1|]. split; [now rewrite H2|].
      assert (Nw : exists d, In (m, Reg d) dot1) by (eapply H3; apply set_entry_new). split.
      * intros n d I. destruct (list_eq_dec Ascii.ascii_dec n m) as [->|Ne]; [exact Nw|]. eapply H3. apply set_entry_old; eassumption.
      * intros n [<-|I] Hd; [exact Nw|now apply H4].
    + destruct (copy_lves w exe to r dot) as [[ok1 l1] dot1] eqn:E. injection H as <- <- <-. destruct (IH _ _ _ _ E) as (H1 & H2 & H3 & H4).
      split; [exact H1|]. split; [now rewrite H2|]. split; [exact H3|]. intros n [<-|I] Hd; [congruence|now apply H4].
Qed.
Lemma copy_keeps w from to : forall es l l', copy_list w from to es l = Ok l' -> forall n d, lookup l n = Some (Reg d) -> exists d', lookup l' n = Some (Reg d').
Proof.
  induction es as [|[m x] r IH]; intros l l' H n d L; [injection H as <-; eauto|].
  rewrite copy_list_cons in H. destruct (beq m DOT_LIBRARY); [now apply (IH _ _ H _ d)|].
  destruct (fit _ (join from m)) as [f| |]; [|discriminate|discriminate]. cbn [bind] in H. destruct (fit _ (to ++ _)) as [g| |]; [|discriminate|discriminate]. cbn [bind] in H.
  destruct (copy_node w f g x (lookup l m)) as [y| |] eqn:C; [|discriminate|discriminate]. cbn [bind] in H.
  assert (K : exists d', lookup (match y with Some y' => set_entry m y' l | None => l end) n = Some (Reg d')); [|destruct K as (d' & K); now apply (IH _ _ H _ d')].
  destruct y as [y|]; [|eauto]. destruct (beq m n) eqn:Bm.
  - apply beq_true in Bm. subst m. rewrite L in C. assert (Ey : exists d', y = Reg d').
    { destruct x as [e|fs|]; cbn [copy_node] in C; [|injection C as <-; eauto|injection C as <-; eauto]. destruct (fst (w_copy w f g e)); injection C as <-; eauto. }
    destruct Ey as (d' & ->). exists d'. clear - L. induction l as [|[k z] l IHl]; [discriminate|]. cbn [lookup set_entry] in *.
    destruct (beq k n) eqn:Bk; cbn [lookup]; rewrite Bk; [reflexivity|now apply IHl].
  - exists d. clear - L Bm. induction l as [|[k z] l IHl]; [discriminate|]. cbn [lookup set_entry] in *. destruct (beq k m) eqn:Bk; cbn [lookup].
    + apply beq_true in Bk. subst k. now rewrite Bm in *.
    + destruct (beq k n); [exact L|now apply IHl].
Qed.
Lemma beside_list w exe : w_exe w = Some exe -> present (map (fun n => match w_disk w (lve_path exe n) with Some _ => Some n | None => None end) lve_names) = beside w.
Proof.
  intros E. unfold beside. rewrite E. unfold lve_path, lve_names, shipped. cbn [map filter fst].
  destruct (w_disk w (exe ++ B "/LVE/" ++ B "lve_win32.exe")), (w_disk w (exe ++ B "/LVE/" ++ B "lve_win64.exe")), (w_disk w (exe ++ B "/LVE/" ++ B "lve_linux32")),
    (w_disk w (exe ++ B "/LVE/" ++ B "lve_linux64")), (w_disk w (exe ++ B "/LVE/" ++ B "lve_darwin64")); reflexivity.
Qed.
Lemma in_beside w fp : In fp (beside w) <-> In fp shipped /\ exists exe, w_exe w = Some exe /\ w_disk w (exe ++ B "/LVE/" ++ fst fp) <> None.
Proof.
  unfold beside. rewrite filter_In. apply and_iff_compat_l. destruct (w_exe w) as [exe|].
  - destruct (w_disk w (exe ++ B "/LVE/" ++ fst fp)) eqn:D; split; intros H; [exists exe; split; [reflexivity|congruence]|reflexivity|discriminate|].
    destruct H as (e & [= <-] & H). congruence.
  - split; [discriminate|]. intros (e & [=] & _).
Qed.

Lemma request_writable w args o name lib : Request w args o name lib -> Forall (fun kv => Writable (snd kv)) o -> Writable name.
Proof.
  intros (_ & _ & _ & p & p' & Ip & T & LC & _) F. rewrite Forall_forall in F. apply (last_component_writable p' name LC). apply (trimmed_writable p); [exact T|exact (F _ Ip)].
Qed.

(** The files of .library end up in the archive. *)
Lemma dot_packed pr K w args o name lib r l : Sane w -> Request w args o name lib -> package pr K w args = Ok r -> k_code r = 0 -> k_archive r = Some (archive_name name, l) ->
  exists t p staging doc lib1 dot2 L, Slots w args o name p t /\ w_disk w p = Some (Folder lib) /\ Staged w t p staging name lib doc lib1 dot2 L /\
    forall n d, In (n, Reg d) (set_entry (B "manifest.xml") (Reg doc) dot2) -> is_modelica n = false -> last_byte n <> Some (ch 99) ->
      In (slashed [name; B ".library"; n], d) l.
Proof.
  intros Sa Rq H Cd Ea. destruct (archive_inv _ _ _ _ _ _ _ _ _ _ Sa Rq H Ea) as (_ & _ & t & p & st & doc & lib1 & dot2 & L & lib2 & Sl & D & St & PL & P2 & (_ & P1) & En & _).
  rewrite Cd in P1. specialize (P1 eq_refl). exists t, p, st, doc, lib1, dot2, L. split; [exact Sl|]. split; [exact D|]. split; [exact St|]. intros n d I Mn Ln.
  change (slashed [name; B ".library"; n]) with (slashed ((name :: [DOT_LIBRARY]) ++ [n])). rewrite slashed_path.
  assert (AL : At (Folder L) ([DOT_LIBRARY] ++ [n]) (Reg d)).
  { destruct St as (_ & _ & _ & _ & _ & _ & ->). apply at_cons. eexists. split; [apply set_entry_new|]. apply at_cons. exists (Reg d). split; [exact I|constructor]. }
  apply P1; [|intros _; exact Mn]. destruct En as [(_ & tbl & tr & T & Gd)|(He' & ->)]; [|exact AL].
  destruct Gd as (G1 & _ & _ & _ & G5 & _). destruct (G5 _ _ _ AL) as [A'|(s & _ & _ & Es)]; [exact A'|exfalso]. apply Ln. rewrite Es. unfold last_byte. now rewrite rev_app_distr.
Qed.

(** The icon found is a file of the library. *)
Lemma icon_found w t p staging name lib doc lib1 dot2 L v icon : Sane w -> ExactCopies w -> w_disk w p = Some (Folder lib) -> Staged w t p staging name lib doc lib1 dot2 L ->
  ~ In SLASH name -> value_of t (B "icon") = Some v ->
  prepare_icon w t (staging ++ [SLASH] ++ name) (w_order w Searching (set_entry DOT_LIBRARY (Folder []) lib1)) = Ok (Some icon) ->
  exists q, IconFile lib v q /\ (exists n d, BaseName v n /\ At (Folder lib) [n] (Reg d)) /\
    (4 <= tmpdir_length w < staging_length -> icon = Some (slashed (name :: q))) /\
    (staging_length <= tmpdir_length w <= staging_length + length name -> icon = Some (slashed q)) /\
    tmpdir_length w <= staging_length + length name + 1 + length (slashed q).
Proof.
  intros Sa X D St Sn Ev H. pose proof St as (Es & Nn & _ & Cn & Ld & _). destruct Sa as (So & Sp & Ss & _). destruct (Ss _ Es) as (x & -> & Lx & Sx).
  assert (P0 : Proper (Folder (set_entry DOT_LIBRARY (Folder []) lib1))).
  { apply proper_set_entry; [|exact dot_filename|exact proper_empty]. apply (copy_proper w _ _ _ _ _ (Sp _ _ D)) in Cn; [exact Cn|]. intros z [= <-]. exact proper_empty. }
  pose proof (same_proper _ _ (So Searching _) P0) as P1. unfold prepare_icon in H. rewrite Ev in H.
  destruct (fit _ _) as [path| |] eqn:F; [|discriminate|discriminate]. apply fit_ok in F. destruct F as [-> _]. cbn [bind] in H.
  assert (Nm : name <> []). { intros ->. discriminate. }
  assert (NS : NoSlashEnd ((B "/tmp/TemporaryFolder" ++ x) ++ [SLASH] ++ name)).
  { split; [intros E; apply app_eq_nil in E; destruct E as [_ E]; discriminate|]. rewrite app_assoc, last_byte_app2 by exact Nm. intros E. apply Sn. now apply last_byte_in. }
  destruct (find_file w _ _ _ _) as [[b ic]| |] eqn:Ff; [|discriminate|discriminate]. cbn [bind] in H. destruct (find_inv _ _ _ _ _ _ _ P1 NS Ff) as [Fi Ft].
  destruct b; [|discriminate]. destruct ic as [i|]; [|discriminate]. destruct (Ft eq_refl) as [_ (es & d0 & Ees & I0)]. injection Ees as Ees.
  assert (Lib : forall q d, At (Folder (w_order w Searching (set_entry DOT_LIBRARY (Folder []) lib1))) q (Reg d) -> At (Folder lib) q (Reg d)).
  { intros q d A. apply (same_at _ _ _ _ (So Searching _)) in A. apply at_folder_reg in A. destruct A as (n & q' & y & -> & I & A).
    destruct (set_entry_in _ _ _ _ _ I) as [[-> ->]|I']; [apply at_folder_reg in A; destruct A as (? & ? & ? & _ & [] & _)|].
    destruct (copy_bound w X _ _ _ _ _ Cn (n :: q') d) as [(z & [= <-] & Az)|[A' _]]; [apply at_cons; eauto|apply at_folder_reg in Az; destruct Az as (? & ? & ? & _ & [] & _)|exact A']. }
  destruct Fi as [Fi|[_ (dir & d & A & Ei)]]; [discriminate|]. injection Ei as ->. exists (dir ++ [extract_filename v]). split; [|split].
  - exists dir, (extract_filename v), d. split; [reflexivity|]. split; [apply base_name|]. now apply Lib.
  - exists (extract_filename v), d0. split; [apply base_name|]. apply Lib. rewrite Ees. apply at_cons. exists (Reg d0). split; [exact I0|constructor].
  - rewrite slashed_path. assert (Nq : path_of dir (extract_filename v) <> []).
    { apply path_of_nonempty. destruct (proper_at _ _ _ P1 A) as [_ Fn]. apply Forall_app in Fn. destruct Fn as [_ Fn]. inversion Fn as [|? ? [N _] _]; subst. exact N. }
    pose proof (clean_up_spec w x name _ Lx Sx Sn Nq) as Cu. cbv zeta in Cu.
    match type of H with context [clean_up_icon_path w ?i] =>
      replace i with (B "/tmp/TemporaryFolder" ++ x ++ [SLASH] ++ name ++ [SLASH] ++ path_of dir (extract_filename v)) in H by (rewrite <- ?app_assoc; reflexivity) end.
    destruct Cu as (C1 & C2 & C3).
    assert (Sl : slashed (name :: dir ++ [extract_filename v]) = name ++ [SLASH] ++ path_of dir (extract_filename v)).
    { change (name :: dir ++ [extract_filename v]) with ((name :: dir) ++ [extract_filename v]). now rewrite slashed_path. }
    split; [|split].
    + intros L1. rewrite (C1 L1) in H. cbn [bind] in H. injection H as <-. now rewrite Sl.
    + intros L1. rewrite (C2 L1) in H. cbn [bind] in H. now injection H as <-.
    + destruct (le_lt_dec (tmpdir_length w) (staging_length + length name + 1 + length (path_of dir (extract_filename v)))) as [Le|Lt]; [exact Le|].
      rewrite (C3 Lt) in H. discriminate.
Qed.

Lemma slots_value w args o name p t key : Slots w args o name p t -> lookup_argument key = true -> key <> B "librarypath" -> key <> B "encrypt" -> value_of t key = option_of o key.
Proof. intros (V & C & _) Lk N1 N2. exact (kept_value _ _ _ _ _ _ V C (known _ Lk) N1 N2). Qed.

Lemma manifest_packed pr K w args o name lib r ver lang ns1 ns2 : Sane w -> CopiesAll w -> Request w args o name lib -> package pr K w args = Ok r -> k_code r = 0 ->
  In (B "version", ver) o -> In (B "language", lang) o -> Forall (fun kv => Writable (snd kv)) o -> (forall q d, At (Folder lib) q (Reg d) -> Writable (slashed q)) ->
  Named (read_of w) o (B "tools") ns1 -> Named (read_of w) o (B "dependencies") ns2 -> 4 <= tmpdir_length w <= staging_length + length name ->
  exists l doc root icon, k_archive r = Some (archive_name name, l) /\ In (slashed [name; B ".library"; B "manifest.xml"], doc) l /\ XmlText doc /\ read_xml doc = Some root /\
    Says root (manifest_shape (map attribute_char) name (option_of o) ver lang (if encrypted o then Some (beside w) else None) icon (ns1 ++ ns2)) /\
    (encrypted o = true -> forall f pf, In (f, pf) (beside w) -> exists d, In (slashed [name; B ".library"; f], d) l) /\
    match option_of o (B "icon") with
    | None => icon = None
    | Some v => exists q, IconFile lib v q /\ icon = Some (if tmpdir_length w <? staging_length then slashed (name :: q) else slashed q)
    end.
Proof.
  intros Sa W Rq H Cd Iv Il Fw Fl N1 N2 Tm. destruct (proj1 (code_archive _ _ _ _ _ _ _ _ Rq H) Cd) as (z & l & Ea).
  destruct (archive_inv _ _ _ _ _ _ _ _ _ _ Sa Rq H Ea) as (-> & _). exists l.
  destruct (dot_packed _ _ _ _ _ _ _ _ _ Sa Rq H Cd Ea) as (t & p & st & doc & lib1 & dot2 & L & Sl & D & St & Dp). exists doc.
  assert (X : ExactCopies w) by (intros f g d; destruct W as (Wc & _); rewrite Wc; now left).
  assert (Sn : ~ In SLASH name /\ Writable name).
  { split; [|exact (request_writable _ _ _ _ _ Rq Fw)]. destruct Rq as (_ & _ & _ & p0 & p1 & _ & _ & (pre & tl0 & _ & _ & Hs & _) & _). exact Hs. }
  destruct Sn as [Sn Wn]. pose proof St as (_ & _ & _ & _ & _ & (lves & dot1 & Cl & Ce & icon & Pi & Cm) & _).
  set (execs := if encrypted o then beside w else []).
  assert (Lv : encrypted o = true -> Executables lves (beside w) /\ forall f pf, In (f, pf) (beside w) -> exists d, In (f, Reg d) dot1).
  { intros He. unfold copy_lve in Cl. destruct Sl as (_ & _ & _ & _ & Eu). rewrite Eu, He in Cl. destruct (w_exe w) as [exe|] eqn:Ex; [|discriminate].
    destruct W as (Wc & _). destruct (copy_lves_list w exe _ Wc _ _ _ _ _ Cl) as (_ & El & _ & Hd). split.
    - rewrite <- (beside_list w exe Ex), El. apply present_executables. intros f I. apply in_map_iff in I. destruct I as (n & E & I). cbv beta in E. destruct (w_disk w (lve_path exe n)); [|discriminate].
      injection E as <-. now rewrite <- lve_shipped.
    - intros f pf I. apply in_beside in I. destruct I as (I & e & Ee & Hde). cbn [fst] in Hde. rewrite Ex in Ee. injection Ee as <-. apply Hd; [|exact Hde].
      rewrite lve_shipped. apply in_map_iff. now exists (f, pf). }
  assert (Dk : forall n d, lookup dot1 n = Some (Reg d) -> exists d', lookup dot2 n = Some (Reg d')).
  { intros n d Ln. unfold copy_extra in Ce. destruct (w_exe w) as [exe|]; [|discriminate]. destruct (w_disk w (exe ++ B "/.library")) eqn:De; [|injection Ce as <-; eauto].
    unfold stage_files in Ce. destruct (fit _ (exe ++ B "/.library")) as [f| |] eqn:F; [|discriminate|discriminate]. apply fit_ok in F. destruct F as [-> _]. cbn [bind] in Ce. rewrite De in Ce.
    destruct t0 as [e|fs|]; [discriminate| |discriminate]. destruct (w_opendir w Copying _) eqn:Op; [|discriminate].
    destruct (copy_node w _ _ _ _) as [y| |] eqn:C; [|discriminate|discriminate]. cbn [bind] in Ce. injection Ce as <-. rewrite copy_folder in C. cbn [target] in C. rewrite Op in C.
    destruct (copy_list _ _ _ _ _) as [l'| |] eqn:Cl2; [|discriminate|discriminate]. cbn [bind] in C. injection C as <-. exact (copy_keeps _ _ _ _ _ _ Cl2 n d Ln). }
  assert (Ic : match option_of o (B "icon") with
    | None => icon = None
    | Some v => exists q, IconFile lib v q /\ icon = Some (if tmpdir_length w <? staging_length then slashed (name :: q) else slashed q)
    end).
  { rewrite <- (slots_value w args o name p t (B "icon") Sl) by (reflexivity || discriminate). destruct (value_of t (B "icon")) as [v|] eqn:Evi.
    - destruct (icon_found _ _ _ _ _ _ _ _ _ _ _ _ Sa X D St Sn Evi Pi) as (q & Iq & _ & C1 & C2 & _). exists q. split; [exact Iq|].
      destruct (Nat.ltb_spec (tmpdir_length w) staging_length); [apply C1|apply C2]; lia.
    - unfold prepare_icon in Pi. rewrite Evi in Pi. now injection Pi as <-. }
  assert (Wi : option_of o (B "icon") <> None -> exists i, icon = Some i /\ Writable i).
  { intros No. destruct (option_of o (B "icon")) as [v|]; [|now contradiction No]. destruct Ic as (q & (dir & n & d & Eq & _ & A) & ->). eexists. split; [reflexivity|].
    pose proof (Fl q d A) as Wq. destruct (tmpdir_length w <? staging_length); [|exact Wq]. rewrite slashed_cons by (rewrite Eq; now destruct dir).
    apply writable_app; [exact Wn|]. apply writable_app; [now apply plain_writable|exact Wq]. }
  pose proof Sl as (V & C & Hn & _ & Eu).
  destruct (manifest_doc t name ver lang (read_of w) lves execs icon ns1 ns2) as (doc' & root & E & Wd & R & S0).
  - exact (kept_writable _ _ _ _ _ V C Fw).
  - exact Wn.
  - rewrite (slots_value w args o name p t _ Sl) by (reflexivity || discriminate). rewrite option_of_value. now apply (value_command _ _ _ _ _ C).
  - rewrite (slots_value w args o name p t _ Sl) by (reflexivity || discriminate). rewrite option_of_value. now apply (value_command _ _ _ _ _ C).
  - exact Hn.
  - rewrite Eu. intros He. unfold execs. rewrite He. now apply Lv.
  - unfold execs. destruct (encrypted o); [|constructor]. assert (Hb : forall f, In (Some f) (map (fun fp => Some (fst fp)) (beside w)) -> In f (map fst shipped)).
    { intros f I. apply in_map_iff in I. destruct I as ([f' pf] & [= <-] & I). apply in_beside in I. apply in_map_iff. exists (f', pf). split; [reflexivity|apply I]. }
    apply Forall_forall. intros [f pf] I. apply in_beside in I. destruct I as [I _]. destruct (shipped_platform f pf I) as (_ & Lf & Of & _). split; [exact Lf|apply Of].
  - rewrite (slots_value w args o name p t _ Sl) by (reflexivity || discriminate). exact Wi.
  - apply (named_value _ _ _ _ _ _ _ _ V C); [now apply known|discriminate|discriminate|exact N1].
  - apply (named_value _ _ _ _ _ _ _ _ V C); [now apply known|discriminate|discriminate|exact N2].
  - rewrite Cm in E. injection E as <-. exists root, icon. split; [exact Ea|]. split; [|split; [apply Wd|split; [exact R|split; [|split; [|exact Ic]]]]].
    + apply Dp; [apply set_entry_new|reflexivity|discriminate].
    + assert (Ei : match value_of t (B "icon") with Some _ => icon | None => None end = icon).
      { rewrite (slots_value w args o name p t _ Sl) by (reflexivity || discriminate). destruct (option_of o (B "icon")); [reflexivity|now rewrite Ic]. }
      rewrite Ei, Eu in S0. unfold execs in S0. replace (if encrypted o then Some (if encrypted o then beside w else []) else None) with (if encrypted o then Some (beside w) else None) in S0 by (now destruct (encrypted o)).
      unfold manifest_shape, given in *. repeat rewrite (slots_value w args o name p t _ Sl) in S0 by (reflexivity || discriminate). exact S0.
    + intros He f pf I. destruct (Lv He) as [_ Hd]. destruct (Hd f pf I) as (d & Id).
      assert (P1 : NoDup (map fst dot1)).
      { unfold copy_lve in Cl. rewrite Eu, He in Cl. destruct (w_exe w) as [exe|]; [|discriminate]. apply copy_lves_inv in Cl; [|tauto]. destruct Cl as [Cp _].
        apply (proper_folder _ (Cp proper_empty)). }
      destruct (Dk f d (in_lookup _ _ _ P1 Id)) as (d' & Ld). exists d'. apply in_beside in I. destruct I as [I _].
      assert (Hc : f <> B "manifest.xml" /\ is_modelica f = false /\ last_byte f <> Some (ch 99)).
      { unfold shipped in I. cbn [In] in I. repeat destruct I as [I|I]; try contradiction; injection I as <- _; (split; [discriminate|split; [reflexivity|discriminate]]). }
      apply Dp; [|apply Hc|apply Hc]. apply set_entry_old; [apply Hc|]. now apply lookup_in.
Qed.
