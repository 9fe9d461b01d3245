(** The archive and the removal of the staging folder. *)
From Coq Require Import Permutation.
From Verif Require Import Base BaseProofs ArgsModel ArgsSpec ManifestModel ManifestSpec CryptModel CryptSpec PackageModel PackageSpec TreeProofs CopyProofs.

Definition NoSlashEnd (p : bytes) : Prop := p <> [] /\ last_byte p <> Some SLASH.
Lemma last_byte_in p c : last_byte p = Some c -> In c p.
Proof. unfold last_byte. destruct (rev p) as [|x r] eqn:E; [discriminate|]. intros [= <-]. apply in_rev. rewrite E. now left. Qed.
Lemma last_byte_app2 (p n : bytes) : n <> [] -> last_byte (p ++ n) = last_byte n.
Proof. intros N. unfold last_byte. rewrite rev_app_distr. destruct (rev n) as [|x r] eqn:E; [|reflexivity]. apply (f_equal (@rev _)) in E. rewrite rev_involutive in E. contradiction. Qed.
Lemma join_noslash p n : NoSlashEnd p -> join p n = p ++ [SLASH] ++ n.
Proof.
  intros [N L]. unfold join. destruct (last_byte p) as [c|]; [|reflexivity]. destruct (Ascii.eqb c SLASH) eqn:E; [|reflexivity].
  apply Ascii.eqb_eq in E. subst. contradiction.
Qed.
Lemma filename_noslash n : FileName n -> forall p, NoSlashEnd (p ++ n).
Proof.
  intros (N & S & _) p. split.
  - intros H. apply app_eq_nil in H. tauto.
  - rewrite last_byte_app2 by exact N. intros H. apply last_byte_in in H. contradiction.
Qed.

Definition zip_list (w : world) (staging : bytes) (encrypted : bool) (path : bytes) : entries -> outcome (bool * list (bytes * bytes)) :=
  fix go (es : entries) : outcome (bool * list (bytes * bytes)) :=
    match es with
    | [] => Ok (true, [])
    | (n, x) :: r =>
        do p <- fit (MAX_PATH_LENGTH + 1) (join path n) ;
        do (ok, l1) <-
          match x with
          | Folder _ => zip_dir w staging encrypted p x
          | Reg d => if negb encrypted || negb (is_modelica n) then
                       if w_zip_add w p then Ok (true, [(zip_name staging p, d)]) else Ok (false, [])
                     else Ok (true, [])
          | Other => Ok (true, [])
          end ;
        if ok then do (ok2, l2) <- go r ; Ok (ok2, l1 ++ l2) else Ok (false, l1)
    end.
Lemma zip_list_cons w staging encrypted path n x r : zip_list w staging encrypted path ((n, x) :: r) =
  do p <- fit (MAX_PATH_LENGTH + 1) (join path n) ;
  do (ok, l1) <-
    match x with
    | Folder _ => zip_dir w staging encrypted p x
    | Reg d => if negb encrypted || negb (is_modelica n) then
                 if w_zip_add w p then Ok (true, [(zip_name staging p, d)]) else Ok (false, [])
               else Ok (true, [])
    | Other => Ok (true, [])
    end ;
  if ok then do (ok2, l2) <- zip_list w staging encrypted path r ; Ok (ok2, l1 ++ l2) else Ok (false, l1).
Proof. reflexivity. Qed.
Lemma zip_folder w staging encrypted path es : zip_dir w staging encrypted path (Folder es) =
  if w_opendir w Zipping path then zip_list w staging encrypted path es else Ok (false, []).
Proof. reflexivity. Qed.

(** An archive holds the files of the folder, except Modelica files if these are encrypted. *)
Lemma zip_spec w st enc : forall t path ok l, Proper t -> NoSlashEnd path -> zip_dir w st enc path t = Ok (ok, l) ->
  (forall z d, In (z, d) l -> exists dir n, At t (dir ++ [n]) (Reg d) /\ (enc = true -> is_modelica n = false) /\
     z = zip_name st (path ++ [SLASH] ++ path_of dir n) /\ length (path ++ [SLASH] ++ path_of dir n) <= MAX_PATH_LENGTH) /\
  (ok = true -> forall dir n d, At t (dir ++ [n]) (Reg d) -> (enc = true -> is_modelica n = false) ->
     In (zip_name st (path ++ [SLASH] ++ path_of dir n), d) l /\ length (path ++ [SLASH] ++ path_of dir n) <= MAX_PATH_LENGTH).
Proof.
  induction t as [e| |es IH] using tree_induction; intros path ok l P NS H.
  - cbn [zip_dir] in H. injection H as <- <-. split; [intros z d []|discriminate].
  - cbn [zip_dir] in H. injection H as <- <-. split; [intros z d []|discriminate].
  - rewrite zip_folder in H. destruct (w_opendir w Zipping path); [|injection H as <- <-; split; [intros z d []|discriminate]].
    destruct (proper_folder es P) as [_ Fe]. clear P.
    enough (G : (forall z d, In (z, d) l -> exists m x q, In (m, x) es /\ At x q (Reg d) /\
        (enc = true -> is_modelica (last (m :: q) []) = false) /\ z = zip_name st (path ++ [SLASH] ++ slashed (m :: q)) /\ length (path ++ [SLASH] ++ slashed (m :: q)) <= MAX_PATH_LENGTH) /\
      (ok = true -> forall m x q d, In (m, x) es -> At x q (Reg d) -> (enc = true -> is_modelica (last (m :: q) []) = false) ->
        In (zip_name st (path ++ [SLASH] ++ slashed (m :: q)), d) l /\ length (path ++ [SLASH] ++ slashed (m :: q)) <= MAX_PATH_LENGTH)).
    { destruct G as [G1 G2]. split.
      - intros z d I. destruct (G1 z d I) as (m & x & q & Im & A & E & Z & L).
        destruct (@exists_last _ (m :: q)) as (dir & n & Eq); [discriminate|]. exists dir, n. rewrite <- slashed_path, <- Eq.
        split; [apply at_cons; eauto|]. split; [|now split]. intros He. specialize (E He). now rewrite Eq, last_last in E.
      - intros Hok dir n d A E. destruct (dir ++ [n]) as [|m q] eqn:Eq; [now destruct dir|].
        apply at_cons in A. destruct A as (x & I & A). rewrite <- slashed_path, Eq. apply (G2 Hok m x q d I A).
        intros He. rewrite <- Eq, last_last. now apply E. }
    revert l ok H. induction es as [|[m x] r IHr]; intros l ok H.
    + injection H as <- <-. split; [intros z d []|intros _ m x q d []].
    + rewrite zip_list_cons in H. rewrite (join_noslash _ _ NS) in H. destruct (fit _ (path ++ [SLASH] ++ m)) as [p| |] eqn:Ff; [|discriminate|discriminate].
      apply fit_ok in Ff. destruct Ff as [-> Lp]. cbn [bind] in H.
      destruct (Fe m x (or_introl eq_refl)) as [Fm Px].
      assert (Fr : forall n x, In (n, x) r -> FileName n /\ Proper x) by (intros n y I; apply Fe; now right).
      specialize (IHr (fun n x I => IH n x (or_intror I)) Fr).
      match type of H with bind ?X _ = _ => destruct X as [[ok1 l1]| |] eqn:E1 end; [|discriminate|discriminate]. cbn [bind] in H.
      (* the entry itself *)
      assert (G1 : (forall z d, In (z, d) l1 -> exists q, At x q (Reg d) /\
          (enc = true -> is_modelica (last (m :: q) []) = false) /\ z = zip_name st (path ++ [SLASH] ++ slashed (m :: q)) /\ length (path ++ [SLASH] ++ slashed (m :: q)) <= MAX_PATH_LENGTH) /\
        (ok1 = true -> forall q d, At x q (Reg d) -> (enc = true -> is_modelica (last (m :: q) []) = false) ->
          In (zip_name st (path ++ [SLASH] ++ slashed (m :: q)), d) l1 /\ length (path ++ [SLASH] ++ slashed (m :: q)) <= MAX_PATH_LENGTH)).
      { destruct x as [d0|fs|].
        - destruct (negb enc || negb (is_modelica m)) eqn:Em.
          + destruct (w_zip_add w (path ++ [SLASH] ++ m)).
            * injection E1 as <- <-. split.
              -- intros z d [[= <- <-]|[]]. exists []. split; [constructor|]. split; [|split; [reflexivity|cbn [slashed]; lia]]. cbn [last].
                 intros ->. cbn [negb orb] in Em. now apply negb_true_iff in Em.
              -- intros _ q d A _. apply at_reg in A. destruct A as [-> [= ->]]. split; [left; reflexivity|cbn [slashed]; lia].
            * injection E1 as <- <-. split; [intros z d []|discriminate].
          + injection E1 as <- <-. split; [intros z d []|]. intros _ q d A E. exfalso. apply at_reg in A. destruct A as [-> _]. cbn [last] in E.
            apply orb_false_iff in Em. destruct Em as [Ee Em]. apply negb_false_iff in Ee. apply negb_false_iff in Em. rewrite (E Ee) in Em. discriminate.
        - apply (IH m (Folder fs) (or_introl eq_refl)) in E1; [|exact Px|].
          2: { change (path ++ [SLASH] ++ m) with (path ++ ([SLASH] ++ m)). rewrite app_assoc. now apply filename_noslash. }
          destruct E1 as [G1 G2]. split.
          + intros z d I. destruct (G1 z d I) as (dir & n & A & E & Z & L). exists (dir ++ [n]).
            rewrite slashed_cons by (destruct dir; discriminate). rewrite slashed_path. rewrite <- !app_assoc in Z. rewrite <- !app_assoc in L.
            split; [exact A|]. split; [|now split]. change (m :: dir ++ [n]) with ((m :: dir) ++ [n]). now rewrite last_last.
          + intros Hok q d A E. destruct (at_folder_reg _ _ _ A) as (n0 & q0 & _ & -> & _). destruct (@exists_last _ (n0 :: q0)) as (dir & n & Eq); [discriminate|].
            rewrite Eq in *. specialize (G2 Hok dir n d A). rewrite slashed_cons by (destruct dir; discriminate). rewrite slashed_path.
            rewrite <- !app_assoc in G2. apply G2. change (m :: dir ++ [n]) with ((m :: dir) ++ [n]) in E. now rewrite last_last in E.
        - injection E1 as <- <-. split; [intros z d []|]. intros _ q d A. apply at_other in A. destruct A as [_ A]. discriminate. }
      destruct G1 as [G1 G2]. destruct ok1.
      * destruct (zip_list w st enc path r) as [[ok2 l2]| |] eqn:E2; [|discriminate|discriminate]. cbn [bind] in H. injection H as <- <-.
        destruct (IHr l2 ok2 eq_refl) as [R1 R2]. split.
        -- intros z d I. apply in_app_or in I. destruct I as [I|I].
           ++ destruct (G1 z d I) as (q & A & E & Z & L). exists m, x, q. split; [now left|]. now split.
           ++ destruct (R1 z d I) as (m' & x' & q & I' & A). exists m', x', q. split; [now right|exact A].
        -- intros Hok m' x' q d I A E. destruct I as [[= <- <-]|I]; [destruct (G2 eq_refl q d A E) as [J1 J2]|destruct (R2 Hok m' x' q d I A E) as [J1 J2]]; (split; [|exact J2]); apply in_or_app; [now left|now right].
      * injection H as <- <-. split; [|discriminate]. intros z d I. destruct (G1 z d I) as (q & A & E & Z & L). exists m, x, q. split; [now left|]. now split.
Qed.
