(** Copying directories. *)
From Coq Require Import Permutation.
From Verif Require Import Base BaseProofs ArgsModel ArgsSpec ManifestModel ManifestSpec CryptModel CryptSpec PackageModel PackageSpec TreeProofs.

(** The loop of [copy_node]. *)
Definition copy_list (w : world) (from to : bytes) : entries -> entries -> outcome entries :=
  fix go (es : entries) (l : entries) : outcome entries :=
    match es with
    | [] => Ok l
    | (n, x) :: r =>
        if beq n DOT_LIBRARY then go r l
        else
          do f <- fit MAX_PATH_LENGTH (join from n) ;
          do g <- fit MAX_PATH_LENGTH (to ++ [SLASH] ++ n) ;
          do y <- copy_node w f g x (lookup l n) ;
          go r (match y with Some y' => set_entry n y' l | None => l end)
    end.
Lemma copy_list_cons w from to n x r l : copy_list w from to ((n, x) :: r) l =
  if beq n DOT_LIBRARY then copy_list w from to r l
  else
    do f <- fit MAX_PATH_LENGTH (join from n) ;
    do g <- fit MAX_PATH_LENGTH (to ++ [SLASH] ++ n) ;
    do y <- copy_node w f g x (lookup l n) ;
    copy_list w from to r (match y with Some y' => set_entry n y' l | None => l end).
Proof. reflexivity. Qed.
Definition target (w : world) (to : bytes) (dst : option tree) : option entries :=
  match dst with
  | None => if w_mkdir w to then Some [] else None
  | Some (Folder l) => Some l
  | Some _ => None
  end.
Lemma copy_folder w from to es dst : copy_node w from to (Folder es) dst =
  match target w to dst with
  | None => Ok dst
  | Some l => if w_opendir w Copying from then do l' <- copy_list w from to es l ; Ok (Some (Folder l')) else Ok (Some (Folder l))
  end.
Proof. reflexivity. Qed.
Lemma fit_ok size p q : fit size p = Ok q -> q = p /\ length p < size.
Proof. unfold fit. destruct (length p <? size) eqn:E; [|discriminate]. intros [= <-]. apply Nat.ltb_lt in E. now split. Qed.
Lemma fit_short size p : length p < size -> fit size p = Ok p.
Proof. intros H. unfold fit. apply Nat.ltb_lt in H. now rewrite H. Qed.

(** What is copied comes from the source. *)
Definition CopyBound (t : tree) (dst : option tree) (y : tree) : Prop :=
  forall p d, At y p (Reg d) -> (exists z, dst = Some z /\ At z p (Reg d)) \/ (At t p (Reg d) /\ ~ In DOT_LIBRARY p).
Lemma copy_bound w : ExactCopies w -> forall t from to dst y, copy_node w from to t dst = Ok (Some y) -> CopyBound t dst y.
Proof.
  intros X. induction t as [e| |es IH] using tree_induction; intros from to dst y H.
  - cbn [copy_node] in H. assert (H' : y = Reg e \/ dst = Some y).
    { destruct dst as [[e'|l|]|].
      2: { right. congruence. }
      all: destruct (X from to e) as [E|E]; rewrite E in H; [left; congruence|]; first [discriminate H|right; congruence]. }
    intros p d A. destruct H' as [->| ->]; [|left; eauto]. right. apply at_reg in A. destruct A as [-> A]. injection A as ->. split; [constructor|tauto].
  - cbn [copy_node] in H. injection H as ->. intros p d A. left. eauto.
  - rewrite copy_folder in H. destruct (target w to dst) as [l|] eqn:T; [|injection H as ->; intros p d A; left; eauto].
    assert (Tl : forall p d, At (Folder l) p (Reg d) -> exists z, dst = Some z /\ At z p (Reg d)).
    { intros p d A. destruct dst as [[e|l0|]|]; cbn [target] in T; try discriminate.
      - injection T as ->. eauto.
      - destruct (w_mkdir w to); [|discriminate]. injection T as <-. apply at_folder_reg in A. destruct A as (n & q & x & _ & [] & _). }
    destruct (w_opendir w Copying from); [|injection H as <-; intros p d A; left; now apply Tl].
    destruct (copy_list w from to es l) as [l'| |] eqn:C; [|discriminate|discriminate]. cbn [bind] in H. injection H as <-.
    assert (G : forall n x q d, In (n, x) l' -> At x q (Reg d) ->
      (exists x0, In (n, x0) l /\ At x0 q (Reg d)) \/ (n <> DOT_LIBRARY /\ exists x0, In (n, x0) es /\ At x0 q (Reg d) /\ ~ In DOT_LIBRARY q)).
    { clear Tl T. revert l C. induction es as [|[m z] r IHr]; intros l C n x q d I A.
      - injection C as ->. left. eauto.
      - rewrite copy_list_cons in C. destruct (beq m DOT_LIBRARY) eqn:E.
        + destruct (IHr (fun n x I => IH n x (or_intror I)) l C n x q d I A) as [Hl|(N & x0 & I0 & A0)]; [now left|].
          right. split; [exact N|]. exists x0. split; [now right|exact A0].
        + destruct (fit _ (join from m)) as [f| |] eqn:Ff; [|discriminate|discriminate]. cbn [bind] in C.
          destruct (fit _ (to ++ [SLASH] ++ m)) as [g| |] eqn:Fg; [|discriminate|discriminate]. cbn [bind] in C.
          destruct (copy_node w f g z (lookup l m)) as [y| |] eqn:Cz; [|discriminate|discriminate]. cbn [bind] in C.
          destruct (IHr (fun n x I => IH n x (or_intror I)) _ C n x q d I A) as [(x0 & I0 & A0)|(N & x0 & I0 & A0)].
          * destruct y as [y'|]; [|left; eauto]. destruct (set_entry_in _ _ _ _ _ I0) as [[-> ->]|I1]; [|left; eauto].
            destruct (IH m z (or_introl eq_refl) _ _ _ _ Cz q d A0) as [(z0 & L0 & A1)|[A1 N1]].
            -- left. exists z0. split; [now apply lookup_in|exact A1].
            -- right. apply beq_false in E. split; [exact E|]. exists z. split; [now left|now split].
          * right. split; [exact N|]. exists x0. split; [now right|exact A0]. }
    intros p d A. apply at_folder_reg in A. destruct A as (n & q & x & -> & I & A).
    destruct (G n x q d I A) as [(x0 & I0 & A0)|(N & x0 & I0 & A0 & N0)].
    + left. apply Tl. apply at_cons. eauto.
    + right. split; [apply at_cons; eauto|]. intros [Hn|Hn]; [now apply N|contradiction].
Qed.

(** Copying makes directories. *)
Lemma copy_proper w : forall t from to dst y, Proper t -> (forall z, dst = Some z -> Proper z) ->
  copy_node w from to t dst = Ok (Some y) -> Proper y.
Proof.
  induction t as [e| |es IH] using tree_induction; intros from to dst y P Pd H.
  - cbn [copy_node] in H. destruct dst as [[e'|l|]|].
    2: { apply Pd. congruence. }
    all: destruct (fst (w_copy w from to e)) as [e2|]; [assert (y = Reg e2) as -> by congruence; constructor|]; first [discriminate H|apply Pd; congruence].
  - cbn [copy_node] in H. injection H as ->. now apply Pd.
  - rewrite copy_folder in H. destruct (target w to dst) as [l|] eqn:T; [|injection H as ->; now apply Pd].
    assert (Pl : Proper (Folder l)).
    { destruct dst as [[e|l0|]|]; cbn [target] in T; try discriminate.
      - injection T as ->. now apply Pd.
      - destruct (w_mkdir w to); [|discriminate]. injection T as <-. constructor; [constructor|intros n x []]. }
    destruct (w_opendir w Copying from); [|now injection H as <-].
    destruct (copy_list w from to es l) as [l'| |] eqn:C; [|discriminate|discriminate]. cbn [bind] in H. injection H as <-.
    destruct (proper_folder es P) as [_ Fe]. clear T P. revert l Pl C.
    induction es as [|[m z] r IHr]; intros l Pl C.
    + now injection C as ->.
    + rewrite copy_list_cons in C. assert (Fr : forall n x, In (n, x) r -> FileName n /\ Proper x) by (intros n x I; apply Fe; now right).
      destruct (beq m DOT_LIBRARY) eqn:E; [exact (IHr (fun n x I => IH n x (or_intror I)) Fr l Pl C)|].
      destruct (fit _ (join from m)) as [f| |] eqn:Ff; [|discriminate|discriminate]. cbn [bind] in C.
      destruct (fit _ (to ++ [SLASH] ++ m)) as [g| |] eqn:Fg; [|discriminate|discriminate]. cbn [bind] in C.
      destruct (copy_node w f g z (lookup l m)) as [y| |] eqn:Cz; [|discriminate|discriminate]. cbn [bind] in C.
      apply (IHr (fun n x I => IH n x (or_intror I)) Fr) in C; [exact C|]. destruct y as [y'|]; [|exact Pl].
      destruct (Fe m z (or_introl eq_refl)) as [Fm Pz]. apply proper_set_entry; [exact Pl|exact Fm|].
      apply (IH m z (or_introl eq_refl) _ _ _ _ Pz) in Cz; [exact Cz|]. intros z0 L0. apply lookup_in in L0.
      now apply (proper_folder l Pl) in L0.
Qed.

(** ** Copies without failures *)

(** The part of a directory that is copied. *)
Fixpoint clean (t : tree) : option tree :=
  match t with
  | Reg d => Some (Reg d)
  | Other => None
  | Folder es =>
      Some (Folder ((fix go (es : entries) : entries :=
                       match es with
                       | [] => []
                       | (n, x) :: r => if beq n DOT_LIBRARY then go r
                                        else match clean x with Some y => (n, y) :: go r | None => go r end
                       end) es))
  end.
Definition clean_list : entries -> entries :=
  fix go (es : entries) : entries :=
    match es with
    | [] => []
    | (n, x) :: r => if beq n DOT_LIBRARY then go r
                     else match clean x with Some y => (n, y) :: go r | None => go r end
    end.
Lemma clean_folder es : clean (Folder es) = Some (Folder (clean_list es)).
Proof. reflexivity. Qed.
Lemma clean_list_in es n y : In (n, y) (clean_list es) <-> n <> DOT_LIBRARY /\ exists x, In (n, x) es /\ clean x = Some y.
Proof.
  induction es as [|[m x] r IH]; cbn [clean_list].
  - split; [intros []|intros (_ & x & [] & _)].
  - destruct (beq m DOT_LIBRARY) eqn:E.
    + rewrite IH. apply beq_true in E. split; intros (N & x0 & I & C); (split; [exact N|]); exists x0; (split; [|exact C]).
      * now right.
      * destruct I as [[= -> ->]|I]; [contradiction|exact I].
    + apply beq_false in E. destruct (clean x) as [y0|] eqn:C0; cbn [In]; rewrite IH; split.
      * intros [[= <- <-]|(N & x0 & I & C)]; [split; [exact E|exists x; split; [now left|exact C0]]|split; [exact N|exists x0; split; [now right|exact C]]].
      * intros (N & x0 & [[= <- <-]|I] & C); [left; congruence|right; split; [exact N|eauto]].
      * intros (N & x0 & I & C); split; [exact N|exists x0; split; [now right|exact C]].
      * intros (N & x0 & [[= <- <-]|I] & C); [congruence|split; [exact N|eauto]].
Qed.
Lemma clean_list_names es n : In n (map fst (clean_list es)) -> In n (map fst es).
Proof.
  intros H. apply in_map_iff in H. destruct H as ([m y] & <- & I). apply clean_list_in in I. destruct I as (_ & x & I & _). exact (in_map fst es (m, x) I).
Qed.
Lemma clean_at t : forall p d, (exists y, clean t = Some y /\ At y p (Reg d)) <-> At t p (Reg d) /\ ~ In DOT_LIBRARY p.
Proof.
  induction t as [e| |es IH] using tree_induction; intros p d.
  - cbn [clean]. split.
    + intros (y & [= <-] & A). split; [exact A|]. apply at_reg in A. destruct A as [-> _]. tauto.
    + intros [A _]. eauto.
  - cbn [clean]. split; [intros (y & H & _); discriminate|]. intros [A _]. apply at_other in A. destruct A as [_ A]. discriminate.
  - rewrite clean_folder. split.
    + intros (y & [= <-] & A). apply at_folder_reg in A. destruct A as (n & q & x & -> & I & A).
      apply clean_list_in in I. destruct I as (N & x0 & I & C). destruct (proj1 (IH n x0 I q d)) as [A0 N0]; [eauto|].
      split; [apply at_cons; eauto|]. intros [H|H]; [now apply N|contradiction].
    + intros [A N]. apply at_folder_reg in A. destruct A as (n & q & x & -> & I & A).
      destruct (proj2 (IH n x I q d)) as (y & C & A0); [split; [exact A|]; intros H; apply N; now right|].
      eexists. split; [reflexivity|]. apply at_cons. exists y. split; [|exact A0]. apply clean_list_in. split; [|eauto].
      intros ->. apply N. now left.
Qed.
Lemma copy_all w : CopiesAll w -> forall t from to o, Proper t -> copy_node w from to t None = Ok o -> o = clean t.
Proof.
  intros (Wc & Wm & Wo & _). induction t as [e| |es IH] using tree_induction; intros from to o P H.
  - cbn [copy_node] in H. rewrite Wc in H. now injection H as <-.
  - now injection H as <-.
  - rewrite copy_folder in H. cbn [target] in H. rewrite Wm, Wo in H.
    destruct (copy_list w from to es []) as [l'| |] eqn:C; [|discriminate|discriminate]. cbn [bind] in H. injection H as <-.
    rewrite clean_folder. do 2 f_equal. destruct (proper_folder es P) as [ND Fe].
    change (clean_list es) with ([] ++ clean_list es).
    assert (Nl : forall n, In n (map fst es) -> ~ In n (map (@fst bytes tree) [])) by (intros n _ []). revert Nl C. generalize (@nil (bytes * tree)) as l.
    clear P. induction es as [|[m z] r IHr]; intros l Nl C.
    + injection C as ->. now rewrite app_nil_r.
    + cbn [map fst] in ND. inversion ND as [|? ? Nm ND']; subst.
      assert (Fr : forall n x, In (n, x) r -> FileName n /\ Proper x) by (intros n x I; apply Fe; now right).
      rewrite copy_list_cons in C. cbn [clean_list]. destruct (beq m DOT_LIBRARY) eqn:E.
      * apply (IHr (fun n x I => IH n x (or_intror I)) ND' Fr l) in C; [exact C|]. intros n I. apply Nl. now right.
      * destruct (fit _ (join from m)) as [f| |] eqn:Ff; [|discriminate|discriminate]. cbn [bind] in C.
        destruct (fit _ (to ++ [SLASH] ++ m)) as [g| |] eqn:Fg; [|discriminate|discriminate]. cbn [bind] in C.
        assert (Lm : lookup l m = None) by (apply lookup_none, Nl; now left). rewrite Lm in C.
        destruct (copy_node w f g z None) as [y| |] eqn:Cz; [|discriminate|discriminate]. cbn [bind] in C.
        apply (IH m z (or_introl eq_refl)) in Cz; [|now apply (Fe m z (or_introl eq_refl))]. subst y.
        destruct (clean z) as [y|].
        -- apply (IHr (fun n x I => IH n x (or_intror I)) ND' Fr) in C.
           ++ rewrite C. rewrite set_entry_absent by (apply Nl; now left). now rewrite <- app_assoc.
           ++ intros n I. rewrite set_entry_absent by (apply Nl; now left). rewrite map_app, in_app_iff. cbn [map fst In].
              intros [H|[H|[]]]; [apply (Nl n); [now right|exact H]|]. subst. contradiction.
        -- apply (IHr (fun n x I => IH n x (or_intror I)) ND' Fr) in C; [exact C|]. intros n I. apply Nl. now right.
Qed.
