(** Proofs about archives of earlier runs. *)
From Verif Require Import Base BaseProofs WireModel ArgsModel ArgsSpec ManifestModel ManifestSpec CryptModel CryptSpec PackageModel PackageSpec TreeProofs CopyProofs EncProofs DecProofs ZipProofs PackageProofs RerunModel.

(** Files in an archive could be added to it. *)
Lemma zip_added w st enc : forall t path ok l, Proper t -> NoSlashEnd path -> zip_dir w st enc path t = Ok (ok, l) ->
  forall z d, In (z, d) l -> exists rest, w_zip_add w (path ++ [SLASH] ++ rest) = true /\ z = zip_name st (path ++ [SLASH] ++ rest) /\ length (path ++ [SLASH] ++ rest) <= MAX_PATH_LENGTH.
Proof.
  induction t as [e| |es IH] using tree_induction; intros path ok l P NS H.
  - cbn [zip_dir] in H. injection H as <- <-. intros z d [].
  - cbn [zip_dir] in H. injection H as <- <-. intros z d [].
  - rewrite zip_folder in H. destruct (w_opendir w Zipping path); [|injection H as <- <-; intros z d []].
    destruct (proper_folder es P) as [_ Fe]. clear P. revert l ok H. induction es as [|[m x] r IHr]; intros l ok H; [injection H as <- <-; intros z d []|].
    rewrite zip_list_cons in H. rewrite (join_noslash _ _ NS) in H. destruct (fit _ (path ++ [SLASH] ++ m)) as [p| |] eqn:Ff; [|discriminate|discriminate].
    apply fit_ok in Ff. destruct Ff as [-> Lp]. cbn [bind] in H. destruct (Fe m x (or_introl eq_refl)) as [Fm Px].
    specialize (IHr (fun n x I => IH n x (or_intror I)) (fun n y I => Fe n y (or_intror I))).
    match type of H with bind ?X _ = _ => destruct X as [[ok1 l1]| |] eqn:E1 end; [|discriminate|discriminate]. cbn [bind] in H.
    assert (G : forall z d, In (z, d) l1 -> exists rest, w_zip_add w (path ++ [SLASH] ++ rest) = true /\ z = zip_name st (path ++ [SLASH] ++ rest) /\ length (path ++ [SLASH] ++ rest) <= MAX_PATH_LENGTH).
    { destruct x as [d0|fs|].
      - destruct (negb enc || negb (is_modelica m)); [|injection E1 as <- <-; intros z d []].
        destruct (w_zip_add w (path ++ [SLASH] ++ m)) eqn:Ea; injection E1 as <- <-; intros z d I; [|destruct I].
        destruct I as [I|[]]. injection I as <- <-. exists m. split; [exact Ea|]. split; [reflexivity|]. clear - Lp. lia.
      - intros z d I. assert (N2 : NoSlashEnd (path ++ [SLASH] ++ m)) by (rewrite app_assoc; now apply filename_noslash).
        destruct (IH m (Folder fs) (or_introl eq_refl) _ _ _ Px N2 E1 z d I) as (rest & A & Z & L). exists (m ++ [SLASH] ++ rest). rewrite <- !app_assoc in *. now split.
      - injection E1 as <- <-. intros z d []. }
    destruct ok1; [|injection H as <- <-; exact G]. destruct (zip_list w st enc path r) as [[ok2 l2]| |] eqn:E2; [|discriminate|discriminate]. cbn [bind] in H. injection H as <- <-.
    intros z d I. apply in_app_or in I. destruct I as [I|I]; [exact (G z d I)|exact (IHr l2 ok2 eq_refl z d I)].
Qed.

(** The same for the staging folder: entries are paths below it that could be added. *)
Lemma zip_top_added w staging enc name lib2 ok l : (forall k es, Same (Folder es) (Folder (w_order w k es))) -> NoSlashEnd staging -> name <> [] -> ~ In SLASH name ->
  Proper (Folder lib2) -> zip_dir w staging enc staging (Folder (w_order w Zipping [(name, Folder lib2)])) = Ok (ok, l) ->
  forall e d, In (e, d) l -> w_zip_add w (staging ++ [SLASH] ++ e) = true.
Proof.
  intros Or NS Nn Sn P H. destruct (same_single _ _ _ (Or Zipping [(name, Folder lib2)])) as (y & Ey & Sy). rewrite Ey in H. clear Ey.
  destruct (same_folder_inv _ _ Sy) as (lib3 & ->). pose proof (same_proper _ _ Sy P) as P3.
  rewrite zip_folder in H. destruct (w_opendir w Zipping staging); [|injection H as <- <-; intros e d []].
  rewrite zip_list_cons, (join_noslash _ _ NS) in H. destruct (fit _ _) as [p| |] eqn:Ff; [|discriminate|discriminate]. apply fit_ok in Ff. destruct Ff as [-> _]. cbn [bind] in H.
  destruct (zip_dir w staging enc (staging ++ [SLASH] ++ name) (Folder lib3)) as [[ok1 l1]| |] eqn:Z; [|discriminate|discriminate]. cbn [bind zip_list] in H.
  assert (E : ok = ok1 /\ l = l1). { destruct ok1; [rewrite app_nil_r in H|]; injection H as <- <-; now split. } destruct E as [-> ->]. clear H.
  assert (NS2 : NoSlashEnd (staging ++ [SLASH] ++ name)).
  { split; [now destruct staging|]. rewrite app_assoc, last_byte_app2 by exact Nn. intros H. apply last_byte_in in H. contradiction. }
  intros e d I. destruct (zip_added _ _ _ _ _ _ _ P3 NS2 Z e d I) as (rest & A & -> & L). rewrite <- !app_assoc in *. rewrite zip_name_entry by exact L. exact A.
Qed.

Lemma archive_added pr K w args o name lib r z l : Sane w -> Request w args o name lib -> package pr K w args = Ok r -> k_archive r = Some (z, l) ->
  exists staging, w_staging w = Some staging /\ forall e d, In (e, d) l -> w_zip_add w (staging ++ [SLASH] ++ e) = true.
Proof.
  intros Sa Rq H Ea. destruct (request_run _ _ _ _ _ _ _ _ Rq H) as [->|(t & p & Sl & D & Hs)]; [discriminate|].
  destruct (stage_inv _ _ _ _ _ _ _ _ _ _ Sl D Hs) as [(N & _)|(staging & doc & lib1 & dot2 & L & St & He)]; [congruence|].
  pose proof (staged_proper _ _ _ _ _ _ _ _ _ _ Sa D St) as PL. pose proof Sa as (Or & Sp & Ss & Sr).
  pose proof Sl as (V & C & Hn & Ep & Ue). unfold encrypt_and_zip in He. rewrite Ue in He. pose proof St as (Es & _). exists staging. split; [exact Es|].
  assert (NSt : NoSlashEnd staging).
  { destruct (Ss _ Es) as (x & -> & Lx & Nx). split; [discriminate|].
    rewrite last_byte_app2 by (intros ->; discriminate). intros Hl. apply last_byte_in in Hl. contradiction. }
  assert (Nn : name <> [] /\ ~ In SLASH name).
  { destruct Rq as (_ & _ & _ & p0 & p' & _ & _ & (pre & tail & _ & N1 & N2 & _) & _). now split. }
  match type of He with bind ?X _ = _ => assert (Y : forall ok lib2, X = Ok (ok, lib2) -> exists l2, lib2 = Folder l2 /\ (ok = true -> Proper lib2)) end.
  { intros ok lib2 X. destruct (encrypted o).
    - destruct (encrypt_dir _ _ _ _ _ _ _) as [[[ok2 tbl] lib3]| |] eqn:E; [|discriminate|discriminate]. cbn [bind] in X. injection X as <- <-.
      destruct (encrypt_dir_folder _ _ _ _ _ _ _ _ _ _ E) as (l2 & ->). exists l2. split; [reflexivity|]. intros ->.
      pose proof (same_proper _ _ (Or Encrypting L) PL) as PL'. destruct (enc_trace _ _ _ _ _ [] _ _ _ PL' E) as (tr & T & G). apply G.
    - injection X as <- <-. now exists L. }
  match type of He with bind ?X _ = _ => destruct X as [[ok lib2]| |] end; [|discriminate|discriminate]. cbn [bind] in He.
  destruct (Y ok lib2 eq_refl) as (l2 & -> & P2). destruct ok; [|injection He as <-; discriminate]. specialize (P2 eq_refl).
  rewrite (the_name _ _ Hn) in He. cbn [bind] in He. unfold create_zip in He. rewrite Ue in He.
  destruct (w_zip_open w); [|cbn [bind] in He; injection He as <-; discriminate].
  destruct (zip_dir _ _ _ _ _) as [[ok2 l3]| |] eqn:Z; [|discriminate|discriminate]. cbn [bind] in He.
  destruct ok2; injection He as <-; cbn [k_archive] in Ea; injection Ea as <- <-; exact (zip_top_added _ _ _ _ _ _ _ Or NSt (proj1 Nn) (proj2 Nn) P2 Z).
Qed.

(** The archive could be opened if the code is 9 and opening works; what fails earlier has another code. *)
Lemma nine_archive pr K w args o name lib r : Request w args o name lib -> package pr K w args = Ok r -> k_code r = 9 -> w_zip_open w = true -> exists z l, k_archive r = Some (z, l).
Proof.
  intros Rq H C9 Wo. destruct (request_run _ _ _ _ _ _ _ _ Rq H) as [->|(t & p & Sl & D & Hs)]; [discriminate C9|].
  destruct (stage_inv _ _ _ _ _ _ _ _ _ _ Sl D Hs) as [(_ & _ & Cd)|(staging & doc & lib1 & dot2 & L & St & He)]; [clear - Cd C9; lia|].
  unfold encrypt_and_zip in He. destruct (if using_encryption t then _ else _) as [[ok lib2]| |]; [|discriminate|discriminate]. cbn [bind] in He.
  destruct ok; [|injection He as <-; discriminate C9]. destruct (the_library_name t) as [[n t1]| |]; [|discriminate|discriminate]. cbn [bind] in He.
  destruct (create_zip _ _ _ _ _) as [[ok2 ar]| |] eqn:Z; [|discriminate|discriminate]. cbn [bind] in He. destruct ok2; injection He as <-; [discriminate C9|]. cbn [k_archive].
  unfold create_zip in Z. rewrite Wo in Z. destruct (zip_dir _ _ _ _ _) as [[ok3 l]| |]; [|discriminate|discriminate]. cbn [bind] in Z. injection Z as _ <-. eauto.
Qed.
