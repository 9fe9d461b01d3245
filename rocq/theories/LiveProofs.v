(** Packaging succeeds. *)
From Coq Require Import Permutation.
From Verif Require Import Base BaseProofs ArgsModel ArgsSpec ArgsProofs ManifestModel ManifestSpec ManifestProofs WireModel CryptModel CryptSpec CbcProofs MaskProofs DemaskProofs CryptProofs
  PackageModel PackageSpec TreeProofs CopyProofs EncProofs ZipProofs PackageProofs IconProofs ShipProofs LiveSpec.

(** ** Lengths of paths *)

Definition plen (q : list bytes) : nat := list_sum (map (fun n => S (length n)) q).
Lemma plen_slashed q : q <> [] -> plen q = S (length (slashed q)).
Proof.
  induction q as [|n q IH]; intros N; [contradiction|]. destruct q as [|m q]; [cbn [plen map list_sum fold_right slashed]; lia|].
  change (plen (n :: m :: q)) with (S (length n) + plen (m :: q)). rewrite IH by discriminate.
  change (slashed (n :: m :: q)) with (n ++ [SLASH] ++ slashed (m :: q)). rewrite !app_length. cbn [length]. lia.
Qed.
Lemma plen_le q : plen q <= S (length (slashed q)).
Proof. destruct q as [|n q]; [cbn; lia|]. rewrite plen_slashed by discriminate. lia. Qed.
Definition Fits (b : nat) (t : tree) : Prop := forall q x, At t q x -> plen q <= b.
Lemma fits_child b es n x : Fits b (Folder es) -> In (n, x) es -> S (length n) <= b /\ Fits (b - S (length n)) x.
Proof.
  intros F I. assert (H : forall q y, At x q y -> S (length n) + plen q <= b).
  { intros q y A. apply (F (n :: q) y). econstructor; [exact I|exact A]. }
  split; [specialize (H [] x (At_here x)); cbn in H; lia|]. intros q y A. specialize (H q y A). lia.
Qed.
Lemma fits_le b c t : Fits b t -> b <= c -> Fits c t.
Proof. intros F L q x A. specialize (F q x A). lia. Qed.
Lemma join_le path n : length (join path n) <= length path + S (length n).
Proof. unfold join. destruct (last_byte path) as [c|]; [destruct (Ascii.eqb c SLASH)|]; rewrite !app_length; cbn [length]; lia. Qed.

(** ** Copying *)

Lemma copy_goes w : forall t from to dst b, Fits b t -> length from + b < MAX_PATH_LENGTH -> length to + b < MAX_PATH_LENGTH -> exists o, copy_node w from to t dst = Ok o.
Proof.
  induction t as [e| |es IH] using tree_induction; intros from to dst b F L1 L2; [|now exists dst|].
  - cbn [copy_node]. destruct dst as [[d|l|]|]; eauto.
  - rewrite copy_folder. destruct (target w to dst) as [l|]; [|eauto]. destruct (w_opendir w Copying from); [|eauto].
    assert (G : forall r, incl r es -> forall l, exists l', copy_list w from to r l = Ok l').
    { induction r as [|[n x] r IHr]; intros Inc k; [now exists k|]. rewrite copy_list_cons. assert (Inr : incl r es) by (intros y I; apply Inc; now right).
      destruct (beq n DOT_LIBRARY); [now apply IHr|]. destruct (fits_child b es n x F (Inc _ (or_introl eq_refl))) as [Ln Fx].
      pose proof (join_le from n) as J.
      rewrite fit_short by lia. cbn [bind]. rewrite fit_short by (rewrite !app_length; cbn [length]; lia). cbn [bind].
      destruct (IH n x (Inc _ (or_introl eq_refl)) (join from n) (to ++ [SLASH] ++ n) (lookup k n) _ Fx) as (o & ->); [lia|rewrite !app_length; cbn [length]; lia|].
      cbn [bind]. now apply IHr. }
    destruct (G es (incl_refl _) l) as (l' & ->). cbn [bind]. eauto.
Qed.
(** What is made by copying is of the kind of the source. *)
Definition kind (t : tree) : nat := match t with Reg _ => 0 | Folder _ => 1 | Other => 2 end.
Definition CopyKind (t : tree) (dst : option tree) (y : tree) : Prop :=
  forall p x, At y p x -> (exists z x', dst = Some z /\ At z p x' /\ kind x' = kind x) \/ (exists x', At t p x' /\ kind x' = kind x /\ kind x <> 2 /\ ~ In DOT_LIBRARY p).
Lemma at_nil t x : At t [] x -> x = t.
Proof. intros H. now inversion H. Qed.
Lemma at_cons_any es n p x : At (Folder es) (n :: p) x <-> exists y, In (n, y) es /\ At y p x.
Proof. split; [intros H; inversion H; subst; eauto|intros (y & I & A); econstructor; eauto]. Qed.
Lemma at_reg_any d p x : At (Reg d) p x -> p = [] /\ x = Reg d.
Proof. intros H. now inversion H. Qed.
Lemma copy_kind w : forall t from to dst y, copy_node w from to t dst = Ok (Some y) -> CopyKind t dst y.
Proof.
  induction t as [e| |es IH] using tree_induction; intros from to dst y H p x A.
  - cbn [copy_node] in H. assert (H' : (exists d, y = Reg d) \/ dst = Some y).
    { destruct dst as [[d|l|]|]; try (right; congruence); (destruct (fst (w_copy w from to e)) as [d'|]; [left; exists d'; congruence|right; congruence]). }
    destruct H' as [(d & ->)| ->]; [|left; eauto]. apply at_reg_any in A. destruct A as [-> ->]. right. exists (Reg e). split; [constructor|]. split; [reflexivity|]. split; [discriminate|intros []].
  - cbn [copy_node] in H. injection H as ->. left. eauto.
  - rewrite copy_folder in H. destruct (target w to dst) as [l|] eqn:T; [|injection H as ->; left; eauto].
    assert (Ld : forall n z, In (n, z) l -> exists zs, dst = Some (Folder zs) /\ In (n, z) zs).
    { intros n z I. unfold target in T. destruct dst as [[d|zs|]|]; try discriminate T; [injection T as <-; eauto|]. destruct (w_mkdir w to); [|discriminate]. injection T as <-. contradiction. }
    assert (Td : forall p x, At (Folder l) p x -> p <> [] -> exists z x', dst = Some z /\ At z p x' /\ kind x' = kind x).
    { intros p0 x0 A0 N0. destruct p0 as [|n p0]; [contradiction|]. apply at_cons_any in A0. destruct A0 as (z & I & A0). destruct (Ld n z I) as (zs & Ed & Iz).
      exists (Folder zs), x0. split; [exact Ed|]. split; [apply at_cons_any; eauto|reflexivity]. }
    destruct p as [|m p].
    { apply at_nil in A. subst x. assert (exists ys, y = Folder ys) as (ys & ->).
      { destruct (w_opendir w Copying from); [|injection H as <-; eauto]. destruct (copy_list w from to es l) as [l'| |]; [|discriminate|discriminate]. injection H as <-. eauto. }
      right. exists (Folder es). split; [constructor|]. split; [reflexivity|]. split; [discriminate|intros []]. }
    destruct (w_opendir w Copying from); [|injection H as <-; left; apply Td; [exact A|discriminate]].
    destruct (copy_list w from to es l) as [l'| |] eqn:Cl; [|discriminate|discriminate]. injection H as <-.
    assert (G : forall r k k', incl r es -> copy_list w from to r k = Ok k' -> forall n z, In (n, z) k' -> forall q x0, At z q x0 ->
      (exists z0 x', In (n, z0) k /\ At z0 q x' /\ kind x' = kind x0) \/ (exists x', At (Folder es) (n :: q) x' /\ kind x' = kind x0 /\ kind x0 <> 2 /\ ~ In DOT_LIBRARY (n :: q))).
    { clear Cl A T Ld Td. induction r as [|[n0 x1] r IHr]; intros k k' Inc Cl n z I q x0 A0; [injection Cl as <-; left; eauto|].
      rewrite copy_list_cons in Cl. assert (Inr : incl r es) by (intros e I0; apply Inc; now right). assert (Inx : In (n0, x1) es) by (apply Inc; now left).
      destruct (beq n0 DOT_LIBRARY) eqn:Bd; [exact (IHr _ _ Inr Cl n z I q x0 A0)|]. apply beq_false in Bd.
      destruct (fit _ (join from n0)) as [f| |]; [|discriminate|discriminate]. cbn [bind] in Cl. destruct (fit _ (to ++ [SLASH] ++ n0)) as [g| |]; [|discriminate|discriminate]. cbn [bind] in Cl.
      destruct (copy_node w f g x1 (lookup k n0)) as [o| |] eqn:Cn; [|discriminate|discriminate]. cbn [bind] in Cl.
      destruct (IHr _ _ Inr Cl n z I q x0 A0) as [(z0 & x' & Iz & Az & Ek)|R]; [|now right].
      destruct o as [y0|]; [|left; eauto]. destruct (set_entry_in _ _ _ _ _ Iz) as [[-> ->]|Iz']; [|left; eauto].
      destruct (IH n0 x1 Inx _ _ _ _ Cn q x' Az) as [(z1 & x2 & El & A1 & E1)|(x2 & A1 & E1 & E2 & Nd)].
      - left. exists z1, x2. apply lookup_in in El. split; [exact El|]. split; [exact A1|congruence].
      - right. exists x2. split; [apply at_cons_any; eauto|]. split; [congruence|]. split; [congruence|]. intros [->|I0]; [now apply Bd|contradiction]. }
    apply at_cons_any in A. destruct A as (z & I & A). destruct (G _ _ _ (incl_refl _) Cl m z I p x A) as [(z0 & x' & Iz & Az & Ek)|R]; [left|right; exact R].
    destruct (Td (m :: p) x') as (z1 & x2 & Ed & A2 & E2); [apply at_cons_any; eauto|discriminate|]. exists z1, x2. split; [exact Ed|]. split; [exact A2|congruence].
Qed.
Lemma stage_goes w from to dst es b : (forall p, w_opendir w Copying p = true) -> w_disk w from = Some (Folder es) -> Fits b (Folder es) -> length from + b < MAX_PATH_LENGTH -> length to + b < MAX_PATH_LENGTH ->
  exists l, copy_node w from to (Folder es) (Some (Folder dst)) = Ok (Some (Folder l)) /\ stage_files w from to dst = Ok (true, l).
Proof.
  intros Wo D F L1 L2. unfold stage_files. rewrite fit_short by lia. cbn [bind]. rewrite D, Wo. destruct (copy_goes w (Folder es) from to (Some (Folder dst)) b F L1 L2) as (o & E). rewrite E. cbn [bind].
  rewrite copy_folder in E. cbn [target] in E. rewrite Wo in E. destruct (copy_list w from to es dst) as [l| |]; [|discriminate|discriminate]. injection E as <-. exists l. now split.
Qed.

(** ** The icon *)

Lemma find_goes w fn : (forall p, w_opendir w Searching p = true) -> forall t path icon b, Fits b t -> length path + b < MAX_PATH_LENGTH ->
  exists f i, find_file w fn path t icon = Ok (f, i) /\ (forall es d, t = Folder es -> In (fn, Reg d) es -> f = true).
Proof.
  intros Wo. induction t as [e| |es IH] using tree_induction; intros path icon b F L; [exists false, icon; split; [reflexivity|discriminate]..|].
  rewrite find_folder, Wo. enough (G : forall r, incl r es -> forall icon, exists f i, find_list w fn path r icon = Ok (f, i) /\ (forall d, In (fn, Reg d) r -> f = true)).
  { destruct (G es (incl_refl _) icon) as (f & i & E & H). exists f, i. split; [exact E|]. intros es' d [= <-]. apply H. }
  induction r as [|[n x] r IHr]; intros Inc ic; [exists false, ic; split; [reflexivity|intros d []]|]. rewrite find_list_cons.
  assert (Inr : incl r es) by (intros e I; apply Inc; now right). destruct (fits_child b es n x F (Inc _ (or_introl eq_refl))) as [Ln Fx]. pose proof (join_le path n) as J.
  rewrite fit_short by lia. cbn [bind]. destruct x as [d|fs|].
  - destruct (beq n fn) eqn:Bn; [eexists _, _; split; [reflexivity|reflexivity]|]. destruct (IHr Inr ic) as (f & i & E & H). exists f, i. split; [exact E|].
    intros d' [E'|I]; [injection E' as -> ->; now rewrite beq_refl in Bn|exact (H d' I)].
  - destruct (IH n (Folder fs) (Inc _ (or_introl eq_refl)) (join path n) ic _ Fx) as (f1 & i1 & E1 & _); [lia|]. rewrite E1. cbn [bind].
    destruct (IHr Inr i1) as (f & i & E & H). exists f, i. split; [exact E|]. intros d' [E'|I]; [discriminate|exact (H d' I)].
  - destruct (IHr Inr ic) as (f & i & E & H). exists f, i. split; [exact E|]. intros d' [E'|I]; [discriminate|exact (H d' I)].
Qed.

(** ** The archive *)

Definition zip_list (w : world) (staging : bytes) (encrypted : bool) (path : bytes) : entries -> outcome (bool * list (bytes * bytes)) :=
  fix go (es : entries) : outcome (bool * list (bytes * bytes)) :=
    match es with
    | [] => Ok (true, [])
    | (n, x) :: r =>
        do p <- fit (MAX_PATH_LENGTH + 1) (join path n) ;
        do (ok, l1) <-
          match x with
          | Folder _ => zip_dir w staging encrypted p x
          | Reg d => if negb encrypted || negb (is_modelica n) then
                       if w_zip_add w p then Ok (true, [(zip_name staging p, d)]) else Ok (false, [])
                     else Ok (true, [])
          | Other => Ok (true, [])
          end ;
        if ok then do (ok2, l2) <- go r ; Ok (ok2, l1 ++ l2) else Ok (false, l1)
    end.
Lemma zip_goes w staging enc : (forall p, w_opendir w Zipping p = true) -> (forall p, w_zip_add w p = true) -> forall t path b, (exists es, t = Folder es) -> Fits b t ->
  length path + b < MAX_PATH_LENGTH + 1 -> exists l, zip_dir w staging enc path t = Ok (true, l).
Proof.
  intros Wo Wa. induction t as [e| |es IH] using tree_induction; intros path b (es0 & E0) F L; [discriminate|discriminate|]. clear es0 E0.
  change (exists l, (if w_opendir w Zipping path then zip_list w staging enc path es else Ok (false, [])) = Ok (true, l)). rewrite Wo.
  enough (G : forall r, incl r es -> exists l, zip_list w staging enc path r = Ok (true, l)) by exact (G es (incl_refl _)).
  induction r as [|[n x] r IHr]; intros Inc; [now exists []|]. destruct (IHr (fun e I => Inc e (or_intror I))) as (l2 & E2).
  destruct (fits_child b es n x F (Inc _ (or_introl eq_refl))) as [Ln Fx]. pose proof (join_le path n) as J.
  cbn [zip_list]. rewrite fit_short by lia. cbn [bind]. fold (zip_list w staging enc path). rewrite E2.
  assert (X : exists l1, match x with
          | Folder _ => zip_dir w staging enc (join path n) x
          | Reg d => if negb enc || negb (is_modelica n) then
                       if w_zip_add w (join path n) then Ok (true, [(zip_name staging (join path n), d)]) else Ok (false, [])
                     else Ok (true, [])
          | Other => Ok (true, [])
          end = Ok (true, l1)).
  { destruct x as [d|fs|]; [|apply (IH n (Folder fs) (Inc _ (or_introl eq_refl)) _ _ (ex_intro _ fs eq_refl) Fx); lia|eauto]. rewrite Wa. destruct (_ || _); eauto. }
  destruct X as (l1 & ->). cbn [bind]. eauto.
Qed.

(** ** Encryption *)

Lemma path_len rd n : length (path_of rd n) = plen rd + length n.
Proof. induction rd as [|c rd IH]; [reflexivity|]. cbn [path_of]. rewrite !app_length, IH. change (plen (c :: rd)) with (S (length c) + plen rd). cbn [length]. lia. Qed.
Lemma plen_snoc rd n : plen (rd ++ [n]) = plen rd + S (length n).
Proof. unfold plen. rewrite map_app, list_sum_app. cbn [map list_sum fold_right]. lia. Qed.
Definition Ready (t : tree) : Prop := NoModelicaFolders t /\ forall dir, ~ At t (dir ++ [PACKAGE_MO]) Other.
Lemma ready_child es n x : Ready (Folder es) -> In (n, x) es -> Ready x.
Proof.
  intros (R1 & R2) I. split.
  - intros dir m fs A. apply (R1 (n :: dir) m fs). cbn [app]. apply at_cons_any. eauto.
  - intros dir A. apply (R2 (n :: dir)). cbn [app]. apply at_cons_any. eauto.
Qed.
Definition Goes (pr : primitives) (K : bytes) (tbl : table) (l : list entry) : Prop := exists outs, encrypt_all pr K tbl (map source_of l) = Ok (Some outs).

Lemma file_goes pr K w top rd n d es tbl rest : (forall p, w_open w p = true) -> (forall p, w_encrypts w p = true) ->
  (forall fs, lookup es (n ++ B "c") <> Some (Folder fs)) -> length top + plen rd + length n + 3 < LONG_FILE_NAME_MAX ->
  Goes pr K tbl (entry_of pr w {| s_dir := rd; s_name := n; s_data := d; s_out := [] |} :: rest) ->
  exists tbl1 out, encrypt_file pr K w top (path_of rd n) n (Reg d) es tbl = Ok (true, tbl1, [(n ++ B "c", out)]) /\ Goes pr K tbl1 rest.
Proof.
  intros Wo We Nf L (outs & E). unfold encrypt_file. pose proof (path_len rd n) as Lp.
  assert (Lc : length (B "c") = 1) by reflexivity.
  rewrite fit_short by (rewrite !app_length; cbn [length]; lia). cbn [bind]. rewrite fit_short by (rewrite !app_length; cbn [length]; lia). cbn [bind]. rewrite !Wo, We.
  assert (Hm : match lookup es (n ++ B "c") with Some (Folder _) => false | _ => true end = true).
  { destruct (lookup es (n ++ B "c")) as [[e|fs|]|] eqn:E0; try reflexivity. exfalso. exact (Nf fs eq_refl). }
  rewrite Hm. cbn [andb].
  cbn [map encrypt_all source_of entry_of n_dir n_name n_data n_iv n_mask f_rel f_iv f_mask f_data s_dir s_name s_data] in E. unfold s_rel in E. cbn [s_dir s_name] in E.
  destruct (cr_encrypt pr K tbl (path_of rd n) _ _ d) as [[t1 o]| |]; [|discriminate|discriminate]. cbn [bind] in E |- *. destruct o as [out|]; [|discriminate].
  destruct (encrypt_all pr K t1 (map source_of rest)) as [[outs'|]| |] eqn:E2; [|discriminate|discriminate|discriminate]. exists t1, out. split; [reflexivity|]. now exists outs'.
Qed.

Lemma plan pr K w top : (forall p, w_open w p = true) -> (forall p, w_opendir w Encrypting p = true) -> (forall p, w_encrypts w p = true) ->
  forall t rd b, Proper t -> Ready t -> Fits b t -> (exists es, t = Folder es) -> length top + plen rd + b + 12 < MAX_PATH_LENGTH + 1 ->
  exists tr t0, Good w rd t t0 tr /\ forall tbl rest, Goes pr K tbl (map (entry_of pr w) tr ++ rest) ->
    exists tbl' t', encrypt_dir pr K w top (relstr rd) t tbl = Ok (true, tbl', t') /\ Goes pr K tbl' rest.
Proof.
  intros Wo Wd We. induction t as [e| |es IH] using tree_induction; intros rd b P R F (es0 & E0) Ln; [discriminate|discriminate|]. clear es0 E0.
  destruct (proper_folder es P) as [Nd Fe].
  assert (Nc : forall n d, In (n, Reg d) es -> is_modelica n = true -> forall fs, lookup es (n ++ B "c") <> Some (Folder fs)).
  { intros n d I M fs E. apply lookup_in in E. destruct R as (R1 & _). destruct (R1 [] (n ++ B "c") fs) as [_ H]; [cbn [app]; apply at_cons_any; exists (Folder fs); split; [exact E|constructor]|].
    apply (H n eq_refl). now apply is_modelica_spec. }
  assert (LPM : length PACKAGE_MO = 10) by reflexivity.
  assert (Lf : match relstr rd with Some r => length (top ++ [SLASH] ++ r) | None => length top end <= length top + plen rd).
  { destruct rd as [|c rd]; [cbn; lia|]. cbn [relstr]. rewrite plen_slashed by discriminate. rewrite !app_length. cbn [length]. lia. }
  (* the package file *)
  assert (HP : exists trp newp, (trp = [] /\ newp = [] /\ ((forall p, w_open w p = true) -> lookup es PACKAGE_MO = None) \/
   exists d out, lookup es PACKAGE_MO = Some (Reg d) /\ (forall fs, lookup es (PACKAGE_MO ++ B "c") <> Some (Folder fs)) /\
     trp = [{| s_dir := rd; s_name := PACKAGE_MO; s_data := d; s_out := out |}] /\ newp = [(PACKAGE_MO ++ B "c", out)]) /\
   forall tbl rest, Goes pr K tbl (map (entry_of pr w) trp ++ rest) -> exists tbl1 new1,
     match lookup es PACKAGE_MO with
     | Some x => encrypt_file pr K w top (path_of rd PACKAGE_MO) PACKAGE_MO x es tbl
     | None => Ok (true, tbl, [])
     end = Ok (true, tbl1, new1) /\ Goes pr K tbl1 rest).
  { destruct (lookup es PACKAGE_MO) as [x|] eqn:Lk.
    - pose proof (lookup_in _ _ _ Lk) as Ix. assert (exists d, x = Reg d) as (d & ->).
      { destruct R as (R1 & R2). destruct x as [d|fs|]; [eauto|exfalso..].
        - destruct (R1 [] PACKAGE_MO fs) as [H _]; [cbn [app]; apply at_cons_any; exists (Folder fs); split; [exact Ix|constructor]|]. now apply H.
        - apply (R2 []). cbn [app]. apply at_cons_any. exists Other. split; [exact Ix|constructor]. }
      pose proof (Nc _ _ Ix eq_refl) as Nf. exists [{| s_dir := rd; s_name := PACKAGE_MO; s_data := d; s_out := [] |}], [(PACKAGE_MO ++ B "c", [])]. split.
      + right. exists d, []. now repeat split.
      + intros tbl rest Gs. cbn [map app] in Gs. destruct (file_goes pr K w top rd PACKAGE_MO d es tbl rest Wo We Nf) as (t1 & out & E & G1); [unfold LONG_FILE_NAME_MAX, MAX_PATH_LENGTH in *; lia|exact Gs|]. eauto.
    - exists [], []. split; [left; now repeat split|]. intros tbl rest Gs. cbn [map app] in Gs. eauto. }
  destruct HP as (trp & newp & HP & Gp).
  (* the loop *)
  assert (HL : exists tr es2 new2, LoopOk w rd es es es2 tr new2 /\ forall tbl rest, Goes pr K tbl (map (entry_of pr w) tr ++ rest) ->
    exists tbl1 r2 new, enc_list pr K w top (relstr rd) es es tbl = Ok (true, tbl1, r2, new) /\ Goes pr K tbl1 rest).
  { enough (Gen : forall l, incl l es -> exists tr es2 new2, LoopOk w rd es l es2 tr new2 /\ forall tbl rest, Goes pr K tbl (map (entry_of pr w) tr ++ rest) ->
      exists tbl1 r2 new, enc_list pr K w top (relstr rd) es l tbl = Ok (true, tbl1, r2, new) /\ Goes pr K tbl1 rest) by exact (Gen es (incl_refl _)).
    induction l as [|[n x] r IHr]; intros Inc.
    - exists [], [], []. split; [constructor|]. intros tbl rest Gs. cbn [map app] in Gs. eexists _, _, _. split; [reflexivity|exact Gs].
    - destruct (IHr (fun z I => Inc z (or_intror I))) as (tr2 & r2 & new2 & L2 & G2). assert (Inx : In (n, x) es) by (apply Inc; now left).
      destruct (fits_child b es n x F Inx) as [Lx Fx].
      assert (H1 : exists tr1 x1 new1, EntryOk w rd es n x x1 tr1 new1 /\ forall tbl rest, Goes pr K tbl (map (entry_of pr w) tr1 ++ rest) ->
        exists tbl1 x2 new, enc_one pr K w top (relstr rd) es n x tbl = Ok (true, tbl1, x2, new) /\ Goes pr K tbl1 rest).
      { unfold enc_one. destruct (caseeq n PACKAGE_MO) eqn:C.
        - exists [], x, []. split; [constructor; now left|]. intros tbl rest Gs. cbn [map app] in Gs. eexists _, _, _. split; [reflexivity|exact Gs].
        - rewrite rel_join_path. pose proof (path_len rd n) as Lp.
          destruct x as [d|fs|].
          + destruct (is_modelica n) eqn:M.
            * exists [{| s_dir := rd; s_name := n; s_data := d; s_out := [] |}], (Reg d), [(n ++ B "c", [])]. pose proof (Nc _ _ Inx M) as Nf. split; [now constructor|].
              intros tbl rest Gs. cbn [map app] in Gs. rewrite fit_short by lia. cbn [bind].
              destruct (file_goes pr K w top rd n d es tbl rest Wo We Nf) as (t1 & out & E & G1); [unfold LONG_FILE_NAME_MAX, MAX_PATH_LENGTH in *; lia|exact Gs|].
              rewrite E. cbn [bind]. eexists _, _, _. split; [reflexivity|exact G1].
            * exists [], (Reg d), []. split; [constructor; right; left; eauto|]. intros tbl rest Gs. cbn [map app] in Gs. rewrite fit_short by lia. cbn [bind]. eexists _, _, _. split; [reflexivity|exact Gs].
          + destruct (IH n (Folder fs) Inx (rd ++ [n]) _ (proj2 (Fe n _ Inx)) (ready_child _ _ _ R Inx) Fx (ex_intro _ fs eq_refl)) as (tr1 & t0 & Gd & Gg); [rewrite plen_snoc; lia|].
            exists tr1, t0, []. split; [now constructor|]. intros tbl rest Gs. rewrite fit_short by lia. cbn [bind]. destruct (Gg tbl rest Gs) as (tbl' & t' & E & G1). rewrite relstr_snoc in E. rewrite E.
            cbn [bind]. eexists _, _, _. split; [reflexivity|exact G1].
          + exists [], Other, []. split; [constructor; right; now right|]. intros tbl rest Gs. cbn [map app] in Gs. rewrite fit_short by lia. cbn [bind]. eexists _, _, _. split; [reflexivity|exact Gs]. }
      destruct H1 as (tr1 & x1 & new1 & En & G1). exists (tr1 ++ tr2), ((n, x1) :: r2), (new1 ++ new2). split; [now constructor|].
      intros tbl rest Gs. rewrite map_app, <- app_assoc in Gs. rewrite enc_list_cons. destruct (G1 tbl _ Gs) as (t1 & x2 & nw & E1 & Gs1). rewrite E1. cbn [bind].
      destruct (G2 t1 rest Gs1) as (t2 & r3 & nw2 & E2 & Gs2). rewrite E2. cbn [bind]. eexists _, _, _. split; [reflexivity|exact Gs2]. }
  destruct HL as (tr & es2 & new2 & Lo & Gl). exists (trp ++ tr). eexists. split; [apply good_folder; [exact P|exact Lo|exact HP]|].
  intros tbl rest Gs. rewrite map_app, <- app_assoc in Gs. rewrite encrypt_folder.
  set (full := match relstr rd with Some r => top ++ [SLASH] ++ r | None => top end) in *.
  assert (Lfull : length full <= length top + plen rd) by (subst full; destruct (relstr rd); exact Lf).
  rewrite fit_short by lia. cbn [bind]. rewrite fit_short by (rewrite app_length; cbn [length B]; change (length (B "/package.mo")) with 11; lia). cbn [bind].
  rewrite rel_join_path, fit_short by (rewrite path_len; lia). cbn [bind].
  destruct (Gp tbl _ Gs) as (t1 & nw1 & E1 & Gs1).
  replace (match lookup es PACKAGE_MO with Some x => if w_open w (full ++ B "/package.mo") then encrypt_file pr K w top (path_of rd PACKAGE_MO) PACKAGE_MO x es tbl else Ok (true, tbl, []) | None => Ok (true, tbl, []) end)
    with (Ok (true, t1, nw1)) by (rewrite Wo; symmetry; exact E1). cbn [bind]. rewrite Wd. cbn [andb].
  destruct (Gl t1 rest Gs1) as (t2 & r2 & nw & E2 & Gs2). rewrite E2. cbn [bind]. eexists _, _. split; [reflexivity|exact Gs2].
Qed.

Lemma set_files_in l : forall es m x, In (m, x) (set_files l es) -> In (m, x) es \/ exists d, In (m, d) l /\ x = Reg d.
Proof.
  induction l as [|[n d] l IH]; intros es m x I; [now left|]. cbn [set_files fold_left fst snd] in I. apply IH in I. destruct I as [I|(d' & I & ->)]; [|right; exists d'; split; [now right|reflexivity]].
  destruct (set_entry_in _ _ _ _ _ I) as [[-> ->]|I']; [right; exists d; split; [now left|reflexivity]|now left].
Qed.
Lemma enc_file_new pr K w top rel n x es tbl ok tbl1 new : encrypt_file pr K w top rel n x es tbl = Ok (ok, tbl1, new) -> forall m out, In (m, out) new -> m = n ++ B "c".
Proof.
  unfold encrypt_file. intros H m out I. destruct (fit _ (top ++ _)) as [f| |]; [|discriminate|discriminate]. cbn [bind] in H. destruct (fit _ (f ++ _)) as [g| |]; [|discriminate|discriminate]. cbn [bind] in H.
  destruct (_ && _); [|discriminate]. destruct x as [d|fs|]; [|injection H as <- <- <-; contradiction|injection H as <- <- <-; contradiction].
  destruct (w_encrypts w rel); [|injection H as <- <- <-; contradiction]. destruct (cr_encrypt _ _ _ _ _ _ _) as [[t1 o]| |]; [|discriminate|discriminate]. cbn [bind] in H.
  destruct o as [out0|]; injection H as <- <- <-; [|contradiction]. destruct I as [I|[]]. now injection I as <- _.
Qed.
Lemma fits_reg d b : Fits b (Reg d).
Proof. intros q x A. apply at_reg_any in A. destruct A as [-> _]. cbn. lia. Qed.
Lemma enc_fits pr K w top : forall t rel tbl ok tbl' t' b, encrypt_dir pr K w top rel t tbl = Ok (ok, tbl', t') -> Fits b t -> Fits (S b) t'.
Proof.
  induction t as [e| |es IH] using tree_induction; intros rel tbl ok tbl' t' b H F; [injection H as <- <- <-; now apply (fits_le b); [|lia]..|].
  rewrite encrypt_folder in H.
  destruct (fit _ (match rel with Some r => _ | None => _ end)) as [full| |]; [|discriminate|discriminate]. cbn [bind] in H.
  destruct (fit _ (full ++ _)) as [pkg| |]; [|discriminate|discriminate]. cbn [bind] in H. destruct (fit _ (rel_join rel PACKAGE_MO)) as [prel| |]; [|discriminate|discriminate]. cbn [bind] in H.
  match type of H with bind ?X _ = _ => destruct X as [[[ok1 tbl1] newp]| |] eqn:E1 end; [|discriminate|discriminate]. cbn [bind] in H.
  assert (Np : forall m out, In (m, out) newp -> exists n x, m = n ++ B "c" /\ In (n, x) es).
  { intros m out I. destruct (lookup es PACKAGE_MO) as [x|] eqn:Lk; [|injection E1 as <- <- <-; contradiction]. destruct (w_open w pkg); [|injection E1 as <- <- <-; contradiction].
    exists PACKAGE_MO, x. split; [exact (enc_file_new _ _ _ _ _ _ _ _ _ _ _ _ E1 _ _ I)|now apply lookup_in]. }
  assert (Fin : forall new es2, (forall m out, In (m, out) new -> exists n x, m = n ++ B "c" /\ In (n, x) es) ->
    (forall n x, In (n, x) es2 -> exists x0, In (n, x0) es /\ forall c, Fits c x0 -> Fits (S c) x) -> Fits (S b) (Folder (set_files new es2))).
  { intros new es2 Hn He q x A. destruct q as [|m q]; [cbn; lia|]. apply at_cons_any in A. destruct A as (y & I & A). change (plen (m :: q)) with (S (length m) + plen q).
    destruct (set_files_in _ _ _ _ I) as [I'|(d & I' & ->)].
    - destruct (He m y I') as (x0 & Ix & Hf). destruct (fits_child b es m x0 F Ix) as [Lm Fx]. specialize (Hf _ Fx q x A). lia.
    - apply at_reg_any in A. destruct A as [-> _]. destruct (Hn m d I') as (n & x0 & -> & Ix). destruct (fits_child b es n x0 F Ix) as [Lm _]. rewrite app_length. change (length (B "c")) with 1. cbn [plen map list_sum fold_right]. lia. }
  destruct (ok1 && w_opendir w Encrypting full).
  2:{ injection H as <- <- <-. apply Fin; [exact Np|]. intros n x I. exists x. split; [exact I|]. intros c Fc. now apply (fits_le c); [|lia]. }
  destruct (enc_list pr K w top rel es es tbl1) as [[[[ok2 tbl2] es2] new2]| |] eqn:E2; [|discriminate|discriminate]. cbn [bind] in H. injection H as <- <- <-.
  enough (G : forall l, incl l es -> forall tbl1 ok2 tbl2 es2 new2, enc_list pr K w top rel es l tbl1 = Ok (ok2, tbl2, es2, new2) ->
    (forall m out, In (m, out) new2 -> exists n x, m = n ++ B "c" /\ In (n, x) es) /\ (forall n x, In (n, x) es2 -> exists x0, In (n, x0) es /\ forall c, Fits c x0 -> Fits (S c) x)).
  { destruct (G es (incl_refl _) _ _ _ _ _ E2) as [G1 G2]. apply Fin; [|exact G2]. intros m out I. apply in_app_or in I. destruct I as [I|I]; eauto. }
  clear - IH. induction l as [|[n x] r IHr]; intros Inc tbl1 ok2 tbl2 es2 new2 E2; [injection E2 as <- <- <- <-; split; [intros m out []|intros n x []]|].
  rewrite enc_list_cons in E2. destruct (enc_one pr K w top rel es n x tbl1) as [[[[ok t1] x1] new1]| |] eqn:E1; [|discriminate|discriminate]. cbn [bind] in E2.
  assert (Inx : In (n, x) es) by (apply Inc; now left). assert (Inr : incl r es) by (intros e I; apply Inc; now right).
  assert (Id : forall c, Fits c x -> Fits (S c) x) by (intros c Fc; now apply (fits_le c); [|lia]).
  assert (One : (forall m out, In (m, out) new1 -> m = n ++ B "c") /\ forall c, Fits c x -> Fits (S c) x1).
  { unfold enc_one in E1. destruct (caseeq n PACKAGE_MO); [injection E1 as <- <- <- <-; split; [intros m out []|exact Id]|]. destruct (fit _ _) as [p| |]; [|discriminate|discriminate]. cbn [bind] in E1.
    destruct x as [d|fs|].
    - destruct (is_modelica n); [|injection E1 as <- <- <- <-; split; [intros m out []|exact Id]]. destruct (encrypt_file pr K w top p n (Reg d) es tbl1) as [[[ok' t'] nw]| |] eqn:Ef; [|discriminate|discriminate].
      cbn [bind] in E1. injection E1 as <- <- <- <-. split; [exact (enc_file_new _ _ _ _ _ _ _ _ _ _ _ _ Ef)|exact Id].
    - destruct (encrypt_dir pr K w top (Some p) (Folder fs) tbl1) as [[[ok' t'] x']| |] eqn:Ed; [|discriminate|discriminate]. cbn [bind] in E1. injection E1 as <- <- <- <-.
      split; [intros m out []|]. intros c Fc. exact (IH n (Folder fs) Inx _ _ _ _ _ c Ed Fc).
    - injection E1 as <- <- <- <-. split; [intros m out []|exact Id]. }
  destruct One as [O1 O2]. destruct ok.
  - destruct (enc_list pr K w top rel es r t1) as [[[[ok3 t3] r3] new3]| |] eqn:E3; [|discriminate|discriminate]. cbn [bind] in E2. injection E2 as <- <- <- <-.
    destruct (IHr Inr _ _ _ _ _ E3) as [G1 G2]. split.
    + intros m out I. apply in_app_or in I. destruct I as [I|I]; [exists n, x; split; [exact (O1 m out I)|exact Inx]|exact (G1 m out I)].
    + intros m y [E|I]; [injection E as <- <-; eauto|exact (G2 m y I)].
  - injection E2 as <- <- <- <-. split; [intros m out I; exists n, x; split; [exact (O1 m out I)|exact Inx]|].
    intros m y [E|I]; [injection E as <- <-; eauto|]. exists y. split; [now apply Inr|]. intros c Fc. now apply (fits_le c); [|lia].
Qed.

(** ** The .library folder and the manifest *)

Lemma lves_go w exe to : (forall f t d, w_copy w f t d = (Some d, true)) -> forall names dot, exists l dot', copy_lves w exe to names dot = (true, l, dot') /\
  (forall n, In (Some n) l -> In n names) /\ (forall m x, In (m, x) dot' -> In (m, x) dot \/ (In m names /\ kind x = 0)).
Proof.
  intros Wc. induction names as [|n r IH]; intros dot; [exists [], dot; split; [reflexivity|]; split; [intros n []|tauto]|]. cbn [copy_lves].
  destruct (w_disk w (lve_path exe n)) as [x|].
  - rewrite Wc. destruct (IH (set_entry n (Reg match x with Reg d => d | _ => [] end) dot)) as (l & dot' & -> & H1 & H2). eexists _, _. split; [reflexivity|]. split.
    + intros m [E|I]; [injection E as <-; now left|right; now apply H1].
    + intros m y I. destruct (H2 m y I) as [I'|[I' Ky]]; [|right; split; [now right|exact Ky]]. destruct (set_entry_in _ _ _ _ _ I') as [[-> ->]|I'']; [right; split; [now left|reflexivity]|now left].
  - destruct (IH dot) as (l & dot' & -> & H1 & H2). eexists _, _. split; [reflexivity|]. split.
    + intros m [E|I]; [discriminate|right; now apply H1].
    + intros m y I. destruct (H2 m y I) as [I'|[I' Ky]]; [now left|right; split; [now right|exact Ky]].
Qed.
Lemma platform_goes n : In n lve_names -> exists p, extract_platform n = Ok p.
Proof. intros I. cbn [lve_names In] in I. repeat destruct I as [<-|I]; try (eexists; reflexivity). contradiction. Qed.
Lemma executables_go : forall l x, (forall n, In (Some n) l -> In n lve_names) -> exists y, add_executables l x = Ok y.
Proof.
  induction l as [|[n|] r IH]; intros x H; [eexists; reflexivity| |]; cbn [add_executables].
  - destruct (platform_goes n (H n (or_introl eq_refl))) as (p & ->). cbn [bind]. apply IH. intros m I. apply H. now right.
  - apply IH. intros m I. apply H. now right.
Qed.
Lemma lines_go : forall f a line first x, ~ In LF line -> ShortLines (a ++ line ++ f) -> exists y, copy_lines f line first x = Ok y.
Proof.
  induction f as [|c r IH]; intros a line first x N Sl; [eexists; reflexivity|]. cbn [copy_lines]. destruct (Ascii.eqb c (ch 255)); [eauto|].
  pose proof (Sl a line (c :: r) eq_refl N) as Ll. destruct (Ascii.eqb_spec c LF) as [->|Nc].
  - assert (Sr : ShortLines ((a ++ line ++ [LF]) ++ [] ++ r)) by (cbn [app]; rewrite <- !app_assoc; exact Sl).
    destruct first; [exact (IH _ [] _ _ (fun H => H) Sr)|].
    replace (length line <? LINE_BUFFER) with true by (symmetry; apply Nat.ltb_lt; exact Ll). rewrite orb_true_r. exact (IH _ [] _ _ (fun H => H) Sr).
  - replace (length line <? LINE_BUFFER) with true by (symmetry; apply Nat.ltb_lt; exact Ll). apply (IH a).
    + rewrite in_app_iff. intros [H|[H|[]]]; [exact (N H)|now apply Nc].
    + rewrite <- app_assoc. exact Sl.
Qed.
Lemma contains_value t k : contains_key t k = match value_of t k with Some _ => true | None => false end.
Proof. induction t as [|[k' v] r IH]; [reflexivity|]. cbn [contains_key value_of]. destruct (beq k' k); [reflexivity|exact IH]. Qed.
Lemma add_file_goes w t k x : (forall v, value_of t k = Some v -> exists d, read_of w v = Some d /\ ShortLines d) -> exists y, add_file (read_of w) t k x = Ok y.
Proof.
  intros H. unfold add_file. destruct (value_of t k) as [v|]; [|eauto]. destruct (H v eq_refl) as (d & -> & Sd). unfold copy_file_information.
  destruct (lines_go d [] [] true x (fun H => H) Sd) as (y & ->). cbn [bind]. eauto.
Qed.
Lemma manifest_goes w lves icon t name : library_name t = Ok (Some name, t) -> (forall n, In (Some n) lves -> In n lve_names) -> (value_of t (B "icon") <> None -> icon <> None) ->
  (forall k v, In k [B "tools"; B "dependencies"] -> value_of t k = Some v -> exists d, read_of w v = Some d /\ ShortLines d) ->
  exists doc, create_manifest true (read_of w) lves icon t = Ok (t, doc).
Proof.
  intros Ln Hl Hi Hf. unfold create_manifest. rewrite Ln. cbn [bind].
  assert (H1 : forall x, exists y, add_encryption t lves x = Ok y).
  { intros x. unfold add_encryption. destruct (using_encryption t); [|eauto]. destruct (executables_go lves (xml_open (B "encryption") x) Hl) as (y & ->). cbn [bind]. eauto. }
  destruct (H1 (add_library_header t name (add_header xml_init))) as (x1 & ->). cbn [bind].
  assert (H2 : exists y, add_icon t icon x1 = Ok y).
  { unfold add_icon. rewrite contains_value. destruct (value_of t (B "icon")); [|eauto]. destruct icon; [eauto|]. exfalso. now apply Hi. }
  destruct H2 as (x2 & ->). cbn [bind].
  destruct (add_file_goes w t (B "tools") x2) as (x3 & ->); [intros v; apply Hf; now left|]. cbn [bind].
  destruct (add_file_goes w t (B "dependencies") x3) as (x4 & ->); [intros v; apply Hf; right; now left|]. cbn [bind]. eauto.
Qed.

(** ** Reading directories in another order *)

Lemma same_kind t : forall t' q x, Same t t' -> At t' q x -> exists x', At t q x' /\ kind x' = kind x.
Proof.
  induction t as [e| |es IH] using tree_induction; intros t' q x Sm A.
  - inversion Sm; subst. eauto.
  - inversion Sm; subst. eauto.
  - destruct (same_folder_inv _ _ Sm) as (l2 & ->). destruct q as [|n q].
    + apply at_nil in A. subst x. exists (Folder es). split; [constructor|reflexivity].
    + apply at_cons_any in A. destruct A as (y & I & A). destruct (same_in_r _ _ Sm _ _ I) as (z & Iz & Sz). destruct (IH n z Iz y q x Sz A) as (x' & A' & E).
      exists x'. split; [|exact E]. apply at_cons_any. eauto.
Qed.
Lemma kind_folder x fs : kind x = kind (Folder fs) -> exists gs, x = Folder gs.
Proof. destruct x as [d|gs|]; try discriminate. eauto. Qed.
Lemma kind_other x : kind x = 2 -> x = Other.
Proof. now destruct x. Qed.
Lemma same_fits b t t' : Same t t' -> Fits b t -> Fits b t'.
Proof. intros Sm F q x A. destruct (same_kind _ _ _ _ Sm A) as (x' & A' & _). exact (F q x' A'). Qed.
Lemma same_ready t t' : Same t t' -> Ready t -> Ready t'.
Proof.
  intros Sm (R1 & R2). split.
  - intros dir n es A. destruct (same_kind _ _ _ _ Sm A) as (x' & A' & E). apply kind_folder in E. destruct E as (gs & ->). exact (R1 dir n gs A').
  - intros dir A. destruct (same_kind _ _ _ _ Sm A) as (x' & A' & E). apply kind_other in E. subst x'. exact (R2 dir A').
Qed.

(** ** The staged library *)

Definition StagedKind (w : world) (lib : entries) (q : list bytes) (x : tree) : Prop :=
  q = [] \/ (q = [DOT_LIBRARY] /\ kind x = 1) \/ (q = [DOT_LIBRARY; B "manifest.xml"] /\ kind x = 0) \/ (exists n, In n lve_names /\ q = [DOT_LIBRARY; n] /\ kind x = 0) \/
  (exists x', At (Folder lib) q x' /\ kind x' = kind x /\ kind x <> 2) \/
  (exists exe t q' x', w_exe w = Some exe /\ w_disk w (exe ++ B "/.library") = Some t /\ q = DOT_LIBRARY :: q' /\ q' <> [] /\ At t q' x' /\ kind x' = kind x /\ kind x <> 2).
Lemma staged_kind w from to lib lib1 dot1 dot2 doc : copy_node w from to (Folder lib) (Some (Folder [])) = Ok (Some (Folder lib1)) ->
  (forall m x, In (m, x) dot1 -> In m lve_names /\ kind x = 0) ->
  (dot2 = dot1 \/ exists exe t f g, w_exe w = Some exe /\ w_disk w (exe ++ B "/.library") = Some t /\ copy_node w f g t (Some (Folder dot1)) = Ok (Some (Folder dot2))) ->
  forall q x, At (Folder (set_entry DOT_LIBRARY (Folder (set_entry (B "manifest.xml") (Reg doc) dot2)) lib1)) q x -> StagedKind w lib q x.
Proof.
  intros C1 D1 D2 q x A. destruct q as [|n q]; [now left|]. apply at_cons_any in A. destruct A as (y & I & A). unfold StagedKind. destruct (set_entry_in _ _ _ _ _ I) as [[-> ->]|I'].
  2:{ destruct (copy_kind _ _ _ _ _ _ C1 (n :: q) x) as [(z & x' & [= <-] & Az & _)|(x' & Ax & Ek & Nk & _)]; [apply at_cons_any; eauto| |right; right; right; right; left; eauto].
      apply at_cons_any in Az. destruct Az as (z & [] & _). }
  destruct q as [|m q]; [apply at_nil in A; subst x; right; left; now split|]. apply at_cons_any in A. destruct A as (z & Iz & A).
  destruct (set_entry_in _ _ _ _ _ Iz) as [[-> ->]|Iz']; [apply at_reg_any in A; destruct A as [-> ->]; right; right; left; now split|].
  assert (Hd : forall z q0 x0, In (m, z) dot1 -> At z q0 x0 -> q0 = [] /\ In m lve_names /\ kind x0 = 0).
  { intros z0 q0 x0 I0 A0. destruct (D1 m z0 I0) as [Im Kz]. destruct z0 as [d|gs|]; try discriminate. apply at_reg_any in A0. destruct A0 as [-> ->]. now repeat split. }
  destruct D2 as [->|(exe & t & f & g & We & Wt & C2)].
  - destruct (Hd z q x Iz' A) as (-> & Im & Kx). right; right; right; left. exists m. now repeat split.
  - destruct (copy_kind _ _ _ _ _ _ C2 (m :: q) x) as [(z0 & x' & [= <-] & Az & Ek)|(x' & Ax & Ek & Nk & _)]; [apply at_cons_any; eauto| |].
    + apply at_cons_any in Az. destruct Az as (z1 & I1 & A1). destruct (Hd z1 q x' I1 A1) as (-> & Im & Kx). right; right; right; left. exists m. split; [exact Im|]. split; [reflexivity|congruence].
    + right; right; right; right; right. exists exe, t, (m :: q), x'. repeat (split; [first [assumption|reflexivity|discriminate]|]). exact Nk.
Qed.
Lemma staged_fits w lib L b c : (forall q x, At (Folder L) q x -> StagedKind w lib q x) -> Fits b (Folder lib) ->
  (forall exe t, w_exe w = Some exe -> w_disk w (exe ++ B "/.library") = Some t -> Fits b t) -> 9 + b <= c -> 23 <= c -> Fits c (Folder L).
Proof.
  intros H Fb Fe L1 L2 q x A. destruct (H q x A) as [->|[(-> & _)|[(-> & _)|[(n & I & -> & _)|[(x' & A' & _)|(exe & t & q' & x' & We & Wt & -> & _ & A' & _)]]]]].
  - cbn. lia.
  - change (plen [DOT_LIBRARY]) with 9. lia.
  - change (plen [DOT_LIBRARY; B "manifest.xml"]) with 22. lia.
  - assert (plen [DOT_LIBRARY; n] <= 23); [|lia]. cbn [lve_names In] in I. repeat destruct I as [<-|I]; try (apply Nat.leb_le; reflexivity). contradiction.
  - specialize (Fb q x' A'). lia.
  - specialize (Fe exe t We Wt q' x' A'). change (plen (DOT_LIBRARY :: q')) with (9 + plen q'). lia.
Qed.
Lemma dot_not_c m : DOT_LIBRARY <> m ++ B "c".
Proof. intros E. apply (f_equal (@rev _)) in E. rewrite rev_app_distr in E. discriminate. Qed.
Lemma staged_ready w lib L : (forall q x, At (Folder L) q x -> StagedKind w lib q x) -> NoModelicaFolders (Folder lib) ->
  (forall exe t, w_exe w = Some exe -> w_disk w (exe ++ B "/.library") = Some t -> NoModelicaFolders t) -> Ready (Folder L).
Proof.
  intros H Nl Ne. split.
  - intros dir n es A. destruct (H _ _ A) as [E|[(E & _)|[(_ & E)|[(m & _ & _ & E)|[(x' & A' & E & _)|(exe & t & q' & x' & We & Wt & E & Nq & A' & Ek & _)]]]]].
    + destruct dir; discriminate.
    + change [DOT_LIBRARY] with ([] ++ [DOT_LIBRARY]) in E. apply app_inj_tail in E. destruct E as [_ ->]. split; [discriminate|]. intros m E. now apply dot_not_c in E.
    + discriminate.
    + discriminate.
    + apply kind_folder in E. destruct E as (gs & ->). exact (Nl dir n gs A').
    + apply kind_folder in Ek. destruct Ek as (gs & ->). destruct dir as [|c dir]; cbn [app] in E; injection E as -> E; [now subst|]. subst q'. exact (Ne exe t We Wt dir n gs A').
  - intros dir A. destruct (H _ _ A) as [E|[(_ & E)|[(_ & E)|[(m & _ & _ & E)|[(x' & _ & _ & E)|(exe & t & q' & x' & _ & _ & _ & _ & _ & _ & E)]]]]]; try discriminate; try (now apply E).
    destruct dir; discriminate.
Qed.

(** ** Encrypting what was staged *)

Lemma encryption_goes pr K w lib t0 L top b : GoodPrimitives pr -> length K = 32 -> (forall r, length (w_iv w r) = 16 /\ length (w_mask w r) = 32) ->
  (forall p, w_open w p = true) -> (forall p, w_opendir w Encrypting p = true) -> (forall p, w_encrypts w p = true) ->
  Same (Folder L) t0 -> Proper (Folder L) -> Ready (Folder L) -> Fits b (Folder L) -> length top + b + 12 < MAX_PATH_LENGTH + 1 ->
  Tidy w lib 0 -> (forall q d, At (Folder L) q (Reg d) -> Origin w lib q d) ->
  exists tbl l, encrypt_dir pr K w top None t0 [] = Ok (true, tbl, Folder l).
Proof.
  intros G LK Sr Wo Wd We Sm P R F Lt Td Or. destruct (same_folder_inv _ _ Sm) as (es & ->).
  destruct (plan pr K w top Wo Wd We (Folder es) [] b (same_proper _ _ Sm P) (same_ready _ _ Sm R) (same_fits _ _ _ Sm F) (ex_intro _ es eq_refl)) as (tr & t1 & Gd & Go); [change (plen []) with 0; lia|].
  apply (good_same _ _ _ _ _ _ Sm) in Gd. destruct Gd as (G1 & G2 & G3 & _).
  assert (Tr : forall s, In s tr -> Forall Name (s_dir s ++ [s_name s]) /\ Forall (fun c => caseeq c (B "package.mo") = false /\ caseeq c (B "package.moc") = false) (s_dir s) /\
       (caseeq (s_name s) (B "package.mo") = true -> s_name s = B "package.mo") /\ (zlen (s_data s) < 2^31 - 256)%Z /\ 0 + length (slashed (s_dir s ++ [s_name s])) <= 4000).
  { intros s Is. destruct (G1 s Is) as (dir & Ed & A1 & _ & Ms & _). cbn [app] in Ed. subst dir. apply is_modelica_spec in Ms. exact (proj2 (Td _ _ _ (Or _ _ A1)) Ms). }
  assert (GL : GoodLibrary pr (map (entry_of pr w) tr)).
  { split.
    - apply Forall_forall. intros f If. apply in_map_iff in If. destruct If as (s & <- & Is). destruct (Tr s Is) as (N & C & S0 & Z & Len).
      apply Forall_app in N. destruct N as [N1 N2]. inversion N2; subst. rewrite slashed_path in Len. destruct (Sr (s_rel s)) as [S1 S2].
      unfold GoodEntry. cbn [entry_of n_dir n_name n_iv n_mask n_data]. split; [exact N1|]. split; [assumption|]. split; [exact C|]. split; [exact S0|]. split; [lia|]. split; [exact S1|]. split; [rewrite firstn_length, S2; apply Nat.min_l; exact (proj2 (proj2 G))|exact Z].
    - rewrite map_map. exact G2. }
  assert (PF : PackageFirst (map (entry_of pr w) tr)).
  { intros pre f post E Pf g Ig Ab. apply map_eq_app in E. destruct E as (tr1 & tr2 & -> & <- & E2). apply map_eq_cons in E2. destruct E2 as (s & tr3 & -> & <- & <-).
    apply in_map_iff in Ig. destruct Ig as (s' & <- & Is'). exact (G3 tr1 s tr3 eq_refl Pf s' Is' Ab). }
  destruct (round_trip pr K _ G LK GL PF) as (outs & E & _). destruct (Go [] []) as (tbl & t' & H & _); [exists outs; now rewrite app_nil_r|].
  cbn [relstr] in H. destruct (encrypt_dir_folder _ _ _ _ _ _ _ _ _ _ H) as (l & ->). eauto.
Qed.

(** ** The whole program *)

Lemma copies_exact w : CopiesAll w -> ExactCopies w.
Proof. intros (W & _) f t d. left. now rewrite W. Qed.
Lemma tidy_zero w lib n : Tidy w lib n -> Tidy w lib 0.
Proof.
  intros T dir m d O. destruct (T dir m d O) as [T1 T2]. split; [exact T1|]. intros M. destruct (T2 M) as (A1 & A2 & A3 & A4 & A5). repeat (split; [assumption|]). lia.
Qed.
Lemma trimmed_length p p' : ArgsSpec.Trimmed p p' -> length p' <= length p.
Proof. intros (tail & -> & _). rewrite app_length. lia. Qed.
Lemma request_slots w args o name lib : Request w args o name lib -> Packable w o name lib -> (encrypted o = true -> beside w <> []) ->
  exists t p, Slots w args o name p t /\ w_disk w p = Some (Folder lib) /\ (exists p0, In (B "librarypath", p0) o /\ length p <= length p0) /\ help_requested args = false /\ args <> [].
Proof.
  intros (C & H1 & H2 & p & p' & Ip & T & LC & D) (Av & Al & N1 & N2 & Af & Ai & _) Hb.
  assert (exists t, validate (stats_of w) (count_lve w) args = Ok (Some t)) as (t & V).
  { apply validate_accepts. exists o. split; [exact C|]. split; [exact Av|]. split; [exact Al|]. split; [|split].
    - exists p, p'. split; [exact Ip|]. split; [exact T|]. unfold stats_of. now rewrite D.
    - intros v Iv Ev. assert (En : encrypted o = true).
      { unfold encrypted. rewrite option_of_value. apply (value_command _ _ _ _ _ C) in Iv. rewrite Iv, Ev. apply beq_refl. }
      specialize (Hb En). unfold count_lve, beside in *. destruct (w_exe w) as [exe|]; [|exfalso; apply Hb; reflexivity]. intros E0. apply Hb.
      apply length_zero_iff_nil in E0. unfold file_exists, stats_of, lve_path in E0. change lve_names with (map fst shipped) in E0. clear - E0. induction shipped as [|[n q] r IH]; [reflexivity|].
      cbn [map filter fst] in *. destruct (w_disk w (exe ++ B "/LVE/" ++ n)) as [[]|]; try discriminate. now apply IH.
    - intros k v Iv [<-|[<-|[<-|[]]]]; unfold stats_of.
      + destruct (Af _ _ Iv) as (d & -> & _); [now left|discriminate].
      + destruct (Af _ _ Iv) as (d & -> & _); [right; now left|discriminate].
      + destruct (Ai _ Iv) as (Nv & _). destruct (w_disk w v) as [[]|]; congruence. }
  exists t, p'. split; [|split; [exact D|split; [|split]]].
  - pose proof (validate_keeps _ _ _ _ _ C V (B "librarypath") known_lib) as Kp.
    destruct (value_of t (B "librarypath")) as [v|] eqn:Ev; [|exfalso; apply Kp; exact (in_map fst _ _ Ip)].
    destruct Kp as (v0 & Iv & [(_ & Tv)|[(E & _)|(E & _)]]); [|discriminate|congruence].
    assert (v0 = p). { apply (value_command _ _ _ _ _ C) in Iv. apply (value_command _ _ _ _ _ C) in Ip. congruence. } subst v0.
    rewrite (trimmed_fun _ _ _ Tv T) in *. clear Tv.
    split; [exact V|]. split; [exact C|]. split; [|split; [exact Ev|exact (encrypted_using _ _ _ _ _ V C)]].
    apply (last_component_name t p'); [exact Ev| |exact LC]. destruct (trimmed_last _ _ T) as [L| ->]; [exact L|]. now apply component_not_root in LC.
  - exists p. split; [exact Ip|exact (trimmed_length _ _ T)].
  - now apply help_none.
  - intros ->. inversion C; subst. contradiction.
Qed.

Lemma known_in k : lookup_argument k = true -> KnownOption k.
Proof. intros H. apply lookup_in_In in H. unfold KnownOption. cbn [valid_arguments In] in *. tauto. Qed.
Lemma icon_goes w t o name p from lib lib1 args staging b : Sane w -> Works w -> Slots w args o name p t -> w_disk w from = Some (Folder lib) -> w_staging w = Some staging -> name <> [] -> ~ In SLASH name ->
  copy_node w from (staging ++ [SLASH] ++ name) (Folder lib) (Some (Folder [])) = Ok (Some (Folder lib1)) -> Fits b (Folder lib) -> 9 <= b -> length (staging ++ [SLASH] ++ name) + b < MAX_PATH_LENGTH ->
  (forall v, In (B "icon", v) o -> w_disk w v <> None /\ 4 <= tmpdir_length w <= staging_length + length name /\ exists n d, BaseName v n /\ n <> B ".library" /\ In (n, Reg d) lib) ->
  exists icon, prepare_icon w t (staging ++ [SLASH] ++ name) (w_order w Searching (set_entry DOT_LIBRARY (Folder []) lib1)) = Ok (Some icon) /\ (value_of t (B "icon") <> None -> icon <> None).
Proof.
  intros (So & Sp & Ss & _) (W & Wd & _) (V & C & _) D Es Nm Sn Cn F L9 Lb Hi.
  assert (P0 : Proper (Folder (set_entry DOT_LIBRARY (Folder []) lib1))).
  { apply proper_set_entry; [|exact dot_filename|exact proper_empty]. apply (copy_proper w _ _ _ _ _ (Sp _ _ D)) in Cn; [exact Cn|]. intros z [= <-]. exact proper_empty. }
  pose proof (same_proper _ _ (So Searching _) P0) as P1.
  assert (F1 : Fits b (Folder (set_entry DOT_LIBRARY (Folder []) lib1))).
  { intros q x A. destruct q as [|n q]; [cbn; lia|]. apply at_cons_any in A. destruct A as (y & I & A). destruct (set_entry_in _ _ _ _ _ I) as [[-> ->]|I'].
    - destruct q as [|m q]; [change (plen [DOT_LIBRARY]) with 9; lia|]. apply at_cons_any in A. destruct A as (z & [] & _).
    - destruct (copy_kind _ _ _ _ _ _ Cn (n :: q) x) as [(z & x' & [= <-] & Az & _)|(x' & Ax & _)]; [apply at_cons_any; eauto| |exact (F _ _ Ax)]. apply at_cons_any in Az. destruct Az as (z & [] & _). }
  unfold prepare_icon. pose proof (validate_keeps _ _ _ _ _ C V (B "icon") (known_in (B "icon") eq_refl)) as Kp. destruct (value_of t (B "icon")) as [v|]; [|exists None; split; [reflexivity|congruence]].
  destruct Kp as (v0 & Iv & [(E & _)|[(E & _)|(_ & _ & ->)]]); [discriminate|discriminate|]. destruct (Hi v0 Iv) as (_ & Lt & n & d & Bn & Nn & In_).
  rewrite fit_short by lia. cbn [bind].
  destruct (find_goes w (extract_filename v0) (Wd Searching) (Folder (w_order w Searching (set_entry DOT_LIBRARY (Folder []) lib1))) (staging ++ [SLASH] ++ name) None b (same_fits _ _ _ (So Searching _) F1)) as (f & i & Ef & Hf); [exact Lb|].
  rewrite Ef. cbn [bind].
  assert (NS : NoSlashEnd (staging ++ [SLASH] ++ name)).
  { split; [intros E; apply app_eq_nil in E; destruct E as [_ E]; discriminate|]. rewrite app_assoc, last_byte_app2 by exact Nm. intros E. apply Sn. now apply last_byte_in. }
  assert (f = true) as ->.
  { assert (I1 : In (n, Reg d) (set_entry DOT_LIBRARY (Folder []) lib1)).
    { apply set_entry_old; [exact Nn|]. apply (stage_all w _ _ _ _ W (Sp _ _ D)) in Cn. subst lib1. apply clean_list_in. split; [exact Nn|]. exists (Reg d). now split. }
    destruct (same_in _ _ (So Searching _) _ _ I1) as (y & Iy & Sy). inversion Sy; subst. rewrite (base_name_fun _ _ _ (base_name v0) Bn) in Hf. exact (Hf _ _ eq_refl Iy). }
  destruct (find_inv _ _ _ _ _ _ _ P1 NS Ef) as [Fi Ft]. destruct (Ft eq_refl) as [Ni _]. destruct i as [i|]; [|congruence]. destruct Fi as [Fi|[_ (dir & d' & A & Ei)]]; [discriminate|]. injection Ei as ->.
  destruct (Ss _ Es) as (x & -> & Lx & Sx).
  assert (Nq : path_of dir (extract_filename v0) <> []).
  { apply path_of_nonempty. destruct (proper_at _ _ _ P1 A) as [_ Fn]. apply Forall_app in Fn. destruct Fn as [_ Fn]. inversion Fn as [|? ? [N _] _]; subst. exact N. }
  destruct (clean_up_spec w x name _ Lx Sx Sn Nq) as (C1 & C2 & _).
  match goal with |- context [clean_up_icon_path w ?i] =>
    replace i with (B "/tmp/TemporaryFolder" ++ x ++ [SLASH] ++ name ++ [SLASH] ++ path_of dir (extract_filename v0)) by (rewrite <- ?app_assoc; reflexivity) end.
  destruct (le_lt_dec staging_length (tmpdir_length w)) as [Le|Le].
  - rewrite C2 by lia. cbn [bind]. eexists. split; [reflexivity|discriminate].
  - rewrite C1 by lia. cbn [bind]. eexists. split; [reflexivity|discriminate].
Qed.

Lemma succeeds pr K w args o name lib : GoodPrimitives pr -> length K = 32 -> Sane w -> Works w -> Request w args o name lib -> Packable w o name lib ->
  (encrypted o = true -> Encryptable w name lib) -> exists r, package pr K w args = Ok r /\ k_code r = 0.
Proof.
  intros G LK Sa Wk Rq Pk En. destruct (request_slots _ _ _ _ _ Rq Pk (fun e => proj1 (En e))) as (t & p & Sl & D & (p0 & Ip0 & Lp0) & Hh & Na).
  destruct Pk as (_ & _ & N1 & N2 & Af & Ai & Px & Sh1 & Sh2). pose proof Wk as (W & Wd & Wr & We & Ws & Wm & Wen & Wz & Wa & Wu & Wrm). pose proof W as (Wc & Wmk & _ & Wop).
  pose proof Sl as (V & C & Hn & Ep & Eu). pose proof Sa as (So & Sp & Ss & Sr).
  assert (LCn : name <> [] /\ ~ In SLASH name). { destruct Rq as (_ & _ & _ & q0 & q1 & _ & _ & (pre & tail & _ & X1 & X2 & _) & _). now split. } destruct LCn as [Nm Sn].
  unfold package. destruct args as [|a args]; [contradiction|]. rewrite Hh, V. cbn [bind]. unfold stage_and_pack, copied_source_path.
  destruct (w_staging w) as [staging|] eqn:Es; [|contradiction]. rewrite (the_name _ _ Hn). cbn [bind]. rewrite (the_name _ _ Hn). cbn [bind].
  assert (Nn : new_name name = true).
  { unfold new_name. destruct (beq name []) eqn:E1; [apply beq_true in E1; contradiction|]. destruct (beq name (B ".")) eqn:E2; [apply beq_true in E2; contradiction|].
    destruct (beq name (B "..")) eqn:E3; [apply beq_true in E3; contradiction|reflexivity]. }
  rewrite Nn, Wmk, Ep. cbn [andb]. destruct (Ss _ eq_refl) as (x & Ex & Lx & Sx).
  assert (Lst : length staging = 26). { rewrite Ex, app_length, Lx. reflexivity. }
  destruct (Sh1 p0 [] _ Ip0 (At_here _)) as [B1 B2]. cbn [slashed length] in B1, B2.
  remember (1980 - Nat.max (length name) (length p)) as b eqn:Eb.
  assert (Fl : Fits b (Folder lib)).
  { intros q y A. destruct (Sh1 p0 q y Ip0 A) as [X1 X2]. pose proof (plen_le q). lia. }
  set (path := staging ++ [SLASH] ++ name). assert (Lpath : length path = 27 + length name) by (subst path; rewrite !app_length, Lst; cbn [length]; lia).
  destruct (stage_goes w p path [] lib b (Wd Copying) D Fl) as (lib1 & Cn & Est); [unfold MAX_PATH_LENGTH; lia|unfold MAX_PATH_LENGTH; lia|].
  rewrite Est. cbn [bind]. unfold complete.
  assert (Ld : lookup lib1 DOT_LIBRARY = None).
  { apply lookup_none. intros I. apply in_map_iff in I. destruct I as ([m y] & Em & I). cbn [fst] in Em. subst m. rewrite (stage_all w _ _ _ _ W (Sp _ _ D) Cn) in I. apply clean_list_in in I. now destruct I as [X _]. }
  rewrite Ld, Wmk.
  destruct (icon_goes w t o name p p lib lib1 (a :: args) staging (Nat.max b 9) Sa Wk Sl D Es Nm Sn Cn) as (icon & Ei & Hic); [now apply (fits_le b); [|lia]|lia|unfold MAX_PATH_LENGTH; fold path; lia|exact Ai|].
  fold path in Ei. rewrite Ei. cbn [bind].
  assert (exists exe, w_exe w = Some exe) as (exe & Exe) by (destruct (w_exe w); [eauto|contradiction]).
  assert (Hl : exists lves dot1, copy_lve w t (path ++ B "/.library") [] = (true, lves, dot1) /\ (forall n, In (Some n) lves -> In n lve_names) /\ (forall m x, In (m, x) dot1 -> In m lve_names /\ kind x = 0)).
  { unfold copy_lve. destruct (using_encryption t).
    - rewrite Exe. destruct (lves_go w exe (path ++ B "/.library") Wc lve_names []) as (l & dot' & E & X1 & X2). exists l, dot'. split; [exact E|]. split; [exact X1|]. intros m y I. destruct (X2 m y I) as [[]|X]. exact X.
    - exists [], []. split; [reflexivity|]. split; [intros n []|intros m y []]. }
  destruct Hl as (lves & dot1 & El & Hlv & Hd1). rewrite El.
  assert (Ldot : length (path ++ B "/.library") = 36 + length name) by (rewrite app_length, Lpath; change (length (B "/.library")) with 9; lia).
  assert (He : exists dot2, copy_extra w (path ++ B "/.library") dot1 = Ok (true, dot2) /\
    (dot2 = dot1 \/ exists exe t f g, w_exe w = Some exe /\ w_disk w (exe ++ B "/.library") = Some t /\ copy_node w f g t (Some (Folder dot1)) = Ok (Some (Folder dot2)))).
  { unfold copy_extra. rewrite Exe. destruct (w_disk w (exe ++ B "/.library")) as [te|] eqn:De; [|exists dot1; split; [reflexivity|now left]].
    destruct (Px exe te Exe De) as (es & -> & _). destruct (Sh2 exe _ [] _ Exe De (At_here _)) as [B3 B4]. cbn [slashed length] in B3, B4.
    assert (Le : length (exe ++ B "/.library") = 9 + length exe) by (rewrite app_length; change (length (B "/.library")) with 9; lia).
    destruct (stage_goes w (exe ++ B "/.library") (path ++ B "/.library") dot1 es (1980 - Nat.max (length name) (length exe)) (Wd Copying) De) as (l & Cl & Es2).
    - intros q y A. destruct (Sh2 exe _ q y Exe De A) as [X1 X2]. pose proof (plen_le q). lia.
    - unfold MAX_PATH_LENGTH. lia.
    - unfold MAX_PATH_LENGTH. lia.
    - exists l. split; [exact Es2|]. right. exists exe, (Folder es). eauto. }
  destruct He as (dot2 & Ee & Hd2). rewrite Ee. cbn [bind].
  rewrite fit_short by (rewrite app_length, Ldot; change (length (B "/manifest.xml")) with 13; unfold MAX_PATH_LENGTH; lia). cbn [bind].
  assert (Nf : forall fs, lookup dot2 (B "manifest.xml") <> Some (Folder fs)).
  { intros fs Lk. apply lookup_in in Lk. destruct Hd2 as [->|(exe' & te & f & g & We' & Wt & Ck)].
    - destruct (Hd1 _ _ Lk) as [_ Kx]. discriminate.
    - destruct (copy_kind _ _ _ _ _ _ Ck [B "manifest.xml"] (Folder fs)) as [(z & x' & [= <-] & Az & Ek)|(x' & Ax & Ek & _)]; [apply at_cons_any; exists (Folder fs); split; [exact Lk|constructor]| |].
      + apply at_cons_any in Az. destruct Az as (z & Iz & Az). apply at_nil in Az. subst x'. destruct (Hd1 _ _ Iz) as [_ Kx]. rewrite Kx in Ek. discriminate.
      + apply kind_folder in Ek. destruct Ek as (gs & ->). destruct (Px exe' te We' Wt) as (es & -> & Nx). apply at_cons_any in Ax. destruct Ax as (z & Iz & Az). apply at_nil in Az. subst z. exact (Nx gs Iz). }
  replace (w_manifest w && match lookup dot2 (B "manifest.xml") with Some (Folder _) => false | _ => true end) with true
    by (rewrite Wm; destruct (lookup dot2 (B "manifest.xml")) as [[y|fs|]|]; try reflexivity; exfalso; exact (Nf fs eq_refl)).
  destruct (manifest_goes w lves icon t name Hn Hlv Hic) as (doc & Em).
  { intros k v Ik Ev. assert (Kk : KnownOption k) by (destruct Ik as [<-|[<-|[]]]; now apply known_in). pose proof (validate_keeps _ _ _ _ _ C V k Kk) as Kp. rewrite Ev in Kp.
    destruct Kp as (v0 & Iv & [(E & _)|[(E & _)|(_ & _ & ->)]]); [subst k; destruct Ik as [Ik|[Ik|[]]]; discriminate Ik..|]. destruct (Af k v0 Iv Ik) as (d & Dv & Sd). exists d. split; [|exact Sd]. unfold read_of. now rewrite Wr, Dv. }
  rewrite Em. cbn [bind]. set (L := set_entry DOT_LIBRARY (Folder (set_entry (B "manifest.xml") (Reg doc) dot2)) lib1).
  pose proof (staged_kind w p path lib lib1 dot1 dot2 doc Cn Hd1 Hd2) as Sk. fold L in Sk.
  assert (Fe : forall exe0 t0, w_exe w = Some exe0 -> w_disk w (exe0 ++ B "/.library") = Some t0 -> Fits (1980 - length name) t0).
  { intros e0 t0 X1 X2 q y A. assert (e0 = exe) by congruence. subst e0. destruct (Sh2 exe t0 q y Exe X2 A) as [X3 X4]. pose proof (plen_le q). lia. }
  remember (Nat.max (1989 - length name) 23) as c eqn:Ec.
  assert (FL : Fits c (Folder L)). { apply (staged_fits w lib L (1980 - length name)); [exact Sk|apply (fits_le b); [exact Fl|lia]|exact Fe|lia|lia]. }
  assert (St : Staged w t p staging name lib doc lib1 dot2 L).
  { split; [exact Es|]. split; [exact Nn|]. split; [apply Wd|]. split; [exact Cn|]. split; [exact Ld|]. split; [|reflexivity]. exists lves, dot1. subst path. rewrite <- !app_assoc in El, Ee. split; [exact El|]. split; [exact Ee|]. exists icon. now split. }
  pose proof (staged_proper _ _ _ _ _ _ _ _ _ _ Sa D St) as PL. unfold encrypt_and_zip. rewrite Eu.
  assert (Henc : exists l2, (if encrypted o then do (ok, _, lib2) <- encrypt_dir pr K w path None (Folder (w_order w Encrypting L)) [] ; Ok (ok, lib2) else Ok (true, Folder L)) = Ok (true, Folder l2) /\ Fits (S c) (Folder l2)).
  { destruct (encrypted o) eqn:Eo; [|exists L; split; [reflexivity|apply (fits_le c); [exact FL|lia]]]. destruct (En eq_refl) as (_ & Pl & Td & Nl & Ne).
    destruct (encryption_goes pr K w lib (Folder (w_order w Encrypting L)) L path c G LK Sr Wop (Wd Encrypting) Wen (So Encrypting L) PL (staged_ready w lib L Sk Nl Ne) FL) as (tbl & l2 & E2).
    - unfold MAX_PATH_LENGTH. lia.
    - exact (tidy_zero _ _ _ Td).
    - exact (staged_origin _ _ _ _ _ _ _ _ _ _ (copies_exact _ W) Pl D St).
    - exists l2. rewrite E2. cbn [bind]. split; [reflexivity|]. exact (enc_fits _ _ _ _ _ _ _ _ _ _ _ E2 (same_fits _ _ _ (So Encrypting L) FL)). }
  destruct Henc as (l2 & E2 & F2). rewrite E2. cbn [bind]. rewrite (the_name _ _ Hn). cbn [bind]. unfold create_zip. rewrite Wz.
  destruct (zip_goes w staging (using_encryption t) (Wd Zipping) Wa (Folder (w_order w Zipping [(name, Folder l2)])) staging (S (length name) + S c)) as (l & Ez).
  - eauto.
  - apply (same_fits _ _ _ (So Zipping _)). intros q y A. destruct q as [|m q]; [apply Nat.le_0_l|]. apply at_cons_any in A. destruct A as (z & [I|[]] & A). injection I as <- <-. specialize (F2 q y A). change (plen (name :: q)) with (S (length name) + plen q). lia.
  - rewrite Lst. unfold MAX_PATH_LENGTH. lia.
  - rewrite Ez. cbn [bind]. eexists. split; [reflexivity|reflexivity].
Qed.

(** ** Libraries that cannot be encrypted *)

Lemma enc_list_all pr K w top rel es : forall l tbl tbl' es2 new, enc_list pr K w top rel es l tbl = Ok (true, tbl', es2, new) ->
  forall n x, In (n, x) l -> exists tbl1 tbl2 x1 new1, enc_one pr K w top rel es n x tbl1 = Ok (true, tbl2, x1, new1).
Proof.
  induction l as [|[m y] r IH]; intros tbl tbl' es2 new H n x I; [contradiction|]. rewrite enc_list_cons in H.
  destruct (enc_one pr K w top rel es m y tbl) as [[[[ok t1] x1] new1]| |] eqn:E1; [|discriminate|discriminate]. cbn [bind] in H. destruct ok; [|discriminate].
  destruct I as [E|I]; [injection E as -> ->; eauto|]. destruct (enc_list pr K w top rel es r t1) as [[[[ok3 t3] r3] new3]| |] eqn:E3; [|discriminate|discriminate]. cbn [bind] in H.
  injection H as -> <- <- <-. exact (IH _ _ _ _ E3 n x I).
Qed.
Lemma enc_file_needs pr K w top rel n x es tbl tbl' new : encrypt_file pr K w top rel n x es tbl = Ok (true, tbl', new) ->
  (exists d, x = Reg d) /\ forall fs, lookup es (n ++ B "c") <> Some (Folder fs).
Proof.
  unfold encrypt_file. intros H. destruct (fit _ (top ++ _)) as [f| |]; [|discriminate|discriminate]. cbn [bind] in H. destruct (fit _ (f ++ _)) as [g| |]; [|discriminate|discriminate]. cbn [bind] in H.
  destruct (_ && _) eqn:A; [|discriminate]. apply andb_true_iff in A. destruct A as [_ A]. split.
  - destruct x as [d|fs|]; [eauto|discriminate|discriminate].
  - intros fs E. rewrite E in A. discriminate.
Qed.
Lemma proper_lookup es n x : Proper (Folder es) -> In (n, x) es -> lookup es n = Some x.
Proof.
  intros P I. destruct (lookup es n) as [y|] eqn:E.
  - apply lookup_in in E. f_equal. assert (A : forall z, In (n, z) es -> At (Folder es) [n] z) by (intros z Iz; apply at_cons_any; exists z; split; [exact Iz|constructor]).
    exact (at_unique (Folder es) [n] y P (A y E) x (A x I)).
  - apply lookup_none in E. exfalso. apply E. exact (in_map fst _ _ I).
Qed.
Lemma enc_needs pr K w top : (forall p, w_open w p = true) -> forall t rel tbl tbl' t', Proper t -> encrypt_dir pr K w top rel t tbl = Ok (true, tbl', t') ->
  forall dir, Forall (fun c => caseeq c PACKAGE_MO = false) dir ->
  (forall x, At t (dir ++ [PACKAGE_MO]) x -> exists d, x = Reg d) /\
  (forall n d fs, At t (dir ++ [n]) (Reg d) -> is_modelica n = true -> (caseeq n PACKAGE_MO = true -> n = PACKAGE_MO) -> ~ At t (dir ++ [n ++ B "c"]) (Folder fs)).
Proof.
  intros Wo. induction t as [e| |es IH] using tree_induction; intros rel tbl tbl' t' P H dir Fd; [discriminate|discriminate|].
  rewrite encrypt_folder in H.
  destruct (fit _ (match rel with Some r => _ | None => _ end)) as [full| |]; [|discriminate|discriminate]. cbn [bind] in H.
  destruct (fit _ (full ++ _)) as [pkg| |]; [|discriminate|discriminate]. cbn [bind] in H. destruct (fit _ (rel_join rel PACKAGE_MO)) as [prel| |]; [|discriminate|discriminate]. cbn [bind] in H.
  match type of H with bind ?X _ = _ => destruct X as [[[ok1 tbl1] newp]| |] eqn:E1 end; [|discriminate|discriminate]. cbn [bind] in H.
  destruct ok1; [|discriminate]. destruct (true && w_opendir w Encrypting full); [|discriminate].
  destruct (enc_list pr K w top rel es es tbl1) as [[[[ok2 tbl2] es2] new2]| |] eqn:E2; [|discriminate|discriminate]. cbn [bind] in H. injection H as -> <- <-.
  assert (Np : forall x, In (PACKAGE_MO, x) es -> (exists d, x = Reg d) /\ forall fs, lookup es (PACKAGE_MO ++ B "c") <> Some (Folder fs)).
  { intros x I. rewrite (proper_lookup _ _ _ P I), Wo in E1. exact (enc_file_needs _ _ _ _ _ _ _ _ _ _ _ E1). }
  destruct (proper_folder es P) as [_ Fe]. destruct dir as [|c dir]; cbn [app].
  - split.
    + intros x A. apply at_cons_any in A. destruct A as (y & I & A). apply at_nil in A. subst y. exact (proj1 (Np x I)).
    + intros n d fs A M Cn A2. apply at_cons_any in A. destruct A as (y & I & A). apply at_nil in A. subst y. apply at_cons_any in A2. destruct A2 as (z & Iz & A2). apply at_nil in A2. subst z.
      apply (proper_lookup _ _ _ P) in Iz. destruct (caseeq n PACKAGE_MO) eqn:C; [rewrite (Cn eq_refl) in *; exact (proj2 (Np _ I) fs Iz)|].
      destruct (enc_list_all _ _ _ _ _ _ _ _ _ _ _ E2 n (Reg d) I) as (t1 & t2 & x1 & nw & Eo). unfold enc_one in Eo. rewrite C in Eo. destruct (fit _ _) as [p| |]; [|discriminate|discriminate]. cbn [bind] in Eo. rewrite M in Eo.
      destruct (encrypt_file pr K w top p n (Reg d) es t1) as [[[ok' t''] nw']| |] eqn:Ef; [|discriminate|discriminate]. cbn [bind] in Eo. injection Eo as -> _ _ _. exact (proj2 (enc_file_needs _ _ _ _ _ _ _ _ _ _ _ Ef) fs Iz).
  - inversion Fd as [|? ? Cc Fd']; subst.
    assert (Sub : forall q x, At (Folder es) (c :: q) x -> q <> [] -> exists gs r t1 t2 t3, In (c, Folder gs) es /\ encrypt_dir pr K w top r (Folder gs) t1 = Ok (true, t2, t3)).
    { intros q x A Nq. apply at_cons_any in A. destruct A as (y & I & A). destruct q as [|m q]; [contradiction|]. assert (exists gs, y = Folder gs) as (gs & ->) by (inversion A; subst; eauto).
      destruct (enc_list_all _ _ _ _ _ _ _ _ _ _ _ E2 c _ I) as (t1 & t2 & x1 & nw & Eo). unfold enc_one in Eo. rewrite Cc in Eo. destruct (fit _ _) as [p| |]; [|discriminate|discriminate]. cbn [bind] in Eo.
      destruct (encrypt_dir pr K w top (Some p) (Folder gs) t1) as [[[ok' t''] x']| |] eqn:Ed; [|discriminate|discriminate]. cbn [bind] in Eo. injection Eo as -> _ _ _. exists gs, (Some p), t1, t'', x'. now split. }
    assert (Down : forall gs q x, In (c, Folder gs) es -> At (Folder es) (c :: q) x -> At (Folder gs) q x).
    { intros gs q x I A. apply at_cons_any in A. destruct A as (y & Iy & A). apply (proper_lookup _ _ _ P) in I. apply (proper_lookup _ _ _ P) in Iy. rewrite I in Iy. now injection Iy as <-. }
    assert (Nn : forall n : bytes, dir ++ [n] <> []) by (intros n E; apply app_eq_nil in E; now destruct E).
    split.
    + intros x A. destruct (Sub _ _ A (Nn _)) as (gs & r & t1 & t2 & t3 & I & Ed). exact (proj1 (IH c _ I _ _ _ _ (proj2 (Fe _ _ I)) Ed dir Fd') x (Down _ _ _ I A)).
    + intros n d fs A M Cn A2. destruct (Sub _ _ A (Nn _)) as (gs & r & t1 & t2 & t3 & I & Ed). exact (proj2 (IH c _ I _ _ _ _ (proj2 (Fe _ _ I)) Ed dir Fd') n d fs (Down _ _ _ I A) M Cn (Down _ _ _ I A2)).
Qed.
Lemma same_kind_l t : forall t' q x, Same t t' -> At t q x -> exists x', At t' q x' /\ kind x' = kind x.
Proof.
  induction t as [e| |es IH] using tree_induction; intros t' q x Sm A.
  - inversion Sm; subst. eauto.
  - inversion Sm; subst. eauto.
  - destruct (same_folder_inv _ _ Sm) as (l2 & ->). destruct q as [|n q].
    + apply at_nil in A. subst x. exists (Folder l2). split; [constructor|reflexivity].
    + apply at_cons_any in A. destruct A as (y & I & A). destruct (same_in _ _ Sm _ _ I) as (z & Iz & Sz). destruct (IH n y I z q x Sz A) as (x' & A' & E).
      exists x'. split; [|exact E]. apply at_cons_any. eauto.
Qed.
Lemma clean_kind t : forall p x, At t p x -> kind x <> 2 -> ~ In DOT_LIBRARY p -> exists y x', clean t = Some y /\ At y p x' /\ kind x' = kind x.
Proof.
  induction t as [e| |es IH] using tree_induction; intros p x A Nk Nd.
  - apply at_reg_any in A. destruct A as [-> ->]. exists (Reg e), (Reg e). split; [reflexivity|]. split; [constructor|reflexivity].
  - inversion A; subst. now contradiction Nk.
  - exists (Folder (clean_list es)). destruct p as [|n p]; [apply at_nil in A; subst x; exists (Folder (clean_list es)); split; [reflexivity|]; split; [constructor|reflexivity]|].
    apply at_cons_any in A. destruct A as (z & I & A). destruct (IH n z I p x A Nk) as (y & x' & C & A' & E); [intros H; apply Nd; now right|]. exists x'. split; [reflexivity|]. split; [|exact E].
    apply at_cons_any. exists y. split; [|exact A']. apply clean_list_in. split; [intros ->; apply Nd; now left|eauto].
Qed.

(** A folder in the way of the encryption: called like a package file, or like the encrypted form of a file next to it. *)
Lemma blocked pr K w args o name lib r : Sane w -> CopiesAll w -> Request w args o name lib -> encrypted o = true -> package pr K w args = Ok r -> k_code r = 0 ->
  forall dir fs, Forall (fun c => caseeq c PACKAGE_MO = false) dir -> ~ In DOT_LIBRARY dir ->
  ~ At (Folder lib) (dir ++ [PACKAGE_MO]) (Folder fs) /\
  forall n d, At (Folder lib) (dir ++ [n]) (Reg d) -> is_modelica n = true -> (caseeq n PACKAGE_MO = true -> n = PACKAGE_MO) -> ~ At (Folder lib) (dir ++ [n ++ B "c"]) (Folder fs).
Proof.
  intros Sa W Rq En H Cd dir fs Fd Nd. destruct (request_run _ _ _ _ _ _ _ _ Rq H) as [->|(t & p & Sl & D & Hs)]; [discriminate|].
  destruct (stage_inv _ _ _ _ _ _ _ _ _ _ Sl D Hs) as [(_ & _ & X)|(staging & doc & lib1 & dot2 & L & St & He)]; [lia|].
  unfold encrypt_and_zip in He. assert (Eu : using_encryption t = true) by (destruct Sl as (_ & _ & _ & _ & E); now rewrite E). rewrite Eu in He.
  destruct (encrypt_dir pr K w _ None _ []) as [[[ok tbl] lib2]| |] eqn:Ed; [|discriminate|discriminate]. cbn [bind] in He. destruct ok; [|injection He as <-; discriminate].
  pose proof (staged_proper _ _ _ _ _ _ _ _ _ _ Sa D St) as PL. pose proof Sa as (So & Sp & _). pose proof (So Encrypting L) as Sm.
  destruct (enc_needs pr K w _ (proj2 (proj2 (proj2 W))) _ _ _ _ _ (same_proper _ _ Sm PL) Ed dir Fd) as [X1 X2].
  assert (Up : forall n x, At (Folder lib) (dir ++ [n]) x -> kind x <> 2 -> n <> DOT_LIBRARY -> exists x', At (Folder (w_order w Encrypting L)) (dir ++ [n]) x' /\ kind x' = kind x).
  { intros n x A Nk Nn. assert (Ndn : ~ In DOT_LIBRARY (dir ++ [n])) by (rewrite in_app_iff; intros [I|[I|[]]]; [exact (Nd I)|exact (Nn I)]).
    destruct (clean_kind (Folder lib) _ _ A Nk Ndn) as (y & x' & C & A' & E). rewrite clean_folder in C. injection C as <-.
    destruct St as (_ & _ & _ & Cn & _ & _ & EL). rewrite <- (stage_all w _ _ _ _ W (Sp _ _ D) Cn) in A'.
    assert (A2 : At (Folder L) (dir ++ [n]) x').
    { rewrite EL. destruct dir as [|c dir0]; cbn [app] in *; apply at_cons_any in A'; destruct A' as (z & Iz & A'); apply at_cons_any; exists z; (split; [apply set_entry_old; [|exact Iz]|exact A']); [exact Nn|intros ->; apply Nd; now left]. }
    destruct (same_kind_l _ _ _ _ Sm A2) as (x2 & A3 & E3). exists x2. split; [exact A3|congruence]. }
  assert (Ncd : forall n, n ++ B "c" <> DOT_LIBRARY) by (intros n E; symmetry in E; now apply dot_not_c in E).
  split.
  - intros A. destruct (Up _ _ A) as (x' & A' & E); [discriminate|discriminate|]. destruct (X1 x' A') as (d & ->). discriminate.
  - intros n d A M Cn A2. destruct (Up _ _ A) as (x' & A' & E); [discriminate|intros ->; discriminate|]. destruct x' as [d'|gs|]; try discriminate.
    destruct (Up _ _ A2) as (x2 & A2' & E2); [discriminate|apply Ncd|]. apply kind_folder in E2. destruct E2 as (gs & ->). exact (X2 n d' gs A' M Cn A2').
Qed.
