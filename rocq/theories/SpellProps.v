(** C90: other spellings of the same path. *)
From Verif Require Import Base BaseProofs WireModel CryptModel CryptSpec CbcProofs MaskProofs DemaskProofs CryptProofs CryptProps SpellSpec SpellProofs.

(** A disk that does not distinguish spellings, with the files of a library. *)
Definition folding_disk (base : bytes) (fs : list entry) (outs : list bytes) (p : bytes) : option bytes :=
  match find (fun '(f, _) => beq (folded (base ++ [SLASH] ++ moc_path f)) (folded p)) (combine fs outs) with
  | Some (_, o) => Some o
  | None => None
  end.
Lemma folding_insensitive base fs outs : Insensitive (folding_disk base fs outs).
Proof. intros p q E. unfold folding_disk. now rewrite E. Qed.

(** ** C90 *)

(** On a disk that distinguishes neither separators nor the case of letters, every file of an encrypted library is found and
    decrypted whatever the spelling of its path, in any order and mixture of spellings. *)
Theorem C90_spelling_partial : forall pr K fs basedir disk moc,
  GoodPrimitives pr -> length K = 32 -> GoodLibrary pr fs -> Installed_folded pr K fs basedir disk moc -> Insensitive disk -> Distinct fs ->
  forall reqs, (forall s f, In (s, f) reqs -> In f fs /\ Readable fs f /\ folded s = folded (moc_path f)) ->
  (forall s f, In (s, f) reqs -> disk (basedir ++ [SLASH] ++ s) = Some (moc f)) /\
  decrypt_all pr K disk basedir [] (map (fun '(s, f) => (s, moc f)) reqs) = Ok (map (fun '(_, f) => Some (n_data f)) reqs).
Proof.
  intros pr K fs basedir disk moc G LK GL Ins In_ Di reqs R. split.
  - intros s f I. destruct (R s f I) as (If & _ & E). rewrite (In_ _ (basedir ++ [SLASH] ++ moc_path f)) by now rewrite !folded_app, E.
    apply (proj1 (proj2 Ins) f If).
  - apply (spelled_session pr K fs basedir disk moc G LK GL Ins In_ Di reqs [] R). intros s m X. discriminate.
Qed.
Print Assumptions C90_spelling_partial.

Lemma toy_folded : exists moc, Installed_folded toy toy_key toy_library (B "C:/lib") (folding_disk (B "C:/lib") toy_library toy_outs) moc /\
  forall f out, In (f, out) (combine toy_library toy_outs) -> moc f = out.
Proof.
  destruct (encrypt_library toy toy_key toy_library toy_good eq_refl toy_library_good toy_library_order) as (outs & E & F2).
  assert (outs = toy_outs) as -> by (unfold toy_outs; now rewrite E).
  exists (fun f => match folding_disk (B "C:/lib") toy_library toy_outs (B "C:/lib" ++ [SLASH] ++ moc_path f) with Some o => o | None => [] end).
  assert (Look : forall f out, In (f, out) (combine toy_library toy_outs) ->
            folding_disk (B "C:/lib") toy_library toy_outs (B "C:/lib" ++ [SLASH] ++ moc_path f) = Some out).
  { intros f out I. assert (L : length toy_outs = 6) by (vm_compute; reflexivity).
    destruct toy_outs as [|o1 [|o2 [|o3 [|o4 [|o5 [|o6 [|]]]]]]]; try discriminate L.
    cbn [toy_library combine In] in I. destruct I as [I|[I|[I|[I|[I|[I|[]]]]]]]; injection I as <- <-; reflexivity. }
  split; [|intros f out I; now rewrite (Look f out I)].
  split; [|split].
  - intros f I. cbn [toy_library In] in I. destruct I as [<-|[<-|[<-|[<-|[<-|[<-|[]]]]]]]; apply Nat.leb_le; reflexivity.
  - intros f If. destruct (forall2_in _ _ _ F2 f If) as (out & Io). rewrite (Look f out Io).
    split; [exact (forall2_combine _ _ _ F2 f out Io)|reflexivity].
  - intros d Nd Np. unfold folding_disk. destruct (find _ _) as [[f o]|] eqn:F; [exfalso|reflexivity].
    apply find_some in F. destruct F as [I E0]. apply beq_true in E0. rewrite !folded_app in E0. apply app_inv_head, app_inv_head in E0.
    apply in_combine_l in I. assert (P : IsPackage f).
    { pose proof (caseeq_folded (B "package.moc") noslash_package) as Cf.
      destruct toy_library_good as [GF _]. rewrite Forall_forall in GF. destruct (GF f I) as (Fd & Fn & _ & Cs & _).
      assert (Eb : folded (n_name f ++ B "c") = folded (B "package.moc")).
      { destruct (split_same _ _ E0) as [_ A].
        cbn [toy_library In] in I.
        destruct (split_path (path_of d (B "package.moc"))) as [x b] eqn:Sd.
        assert (Ld : length (path_of d (B "package.moc")) <= 4096).
        { rewrite <- (folded_same_length _ _ E0). destruct I as [<-|[<-|[<-|[<-|[<-|[<-|[]]]]]]]; apply Nat.leb_le; reflexivity. }
        pose proof (split_dir d (B "package.moc") Nd noslash_package Ld) as Sp. rewrite Sd in Sp. injection Sp as _ ->.
        cbn [snd] in A. transitivity (folded (snd (split_path (moc_path f)))); [|exact A].
        destruct I as [<-|[<-|[<-|[<-|[<-|[<-|[]]]]]]]; reflexivity. }
      specialize (Cf (n_name f ++ B "c")). rewrite Eb, beq_refl in Cf. apply Cs. exact (eq_trans (eq_sym (caseeq_moc (n_name f))) Cf). }
    apply (Np f I P). rewrite <- E0. unfold moc_path. now rewrite P.
Qed.
Lemma toy_distinct : Distinct toy_library.
Proof.
  intros f g a b If Ig (x & Ea) (y & Eb) E.
  assert (H : forall f, In f toy_library -> forall a x, n_dir f = a ++ x -> In a [[]; [B "Sub"]; [B "Sub"; B "Deep"]]).
  { clear. intros f If a x E. cbn [toy_library In] in If.
    destruct If as [<-|[<-|[<-|[<-|[<-|[<-|[]]]]]]]; cbn [n_dir file top_package top_model sub_package sub_model deep_package deep_model] in E;
      (destruct a as [|p [|q [|r a]]]; cbn [app] in E; try discriminate E; injection E as <-; try (injection E as <-); cbn [In]; tauto) ||
      (destruct a as [|p [|q [|r a]]]; cbn [app] in E; try discriminate E; try (injection E; intros; subst); cbn [In]; tauto). }
  pose proof (H f If a x Ea) as Ia. pose proof (H g Ig b y Eb) as Ib. cbn [In] in Ia, Ib.
  destruct Ia as [<-|[<-|[<-|[]]]], Ib as [<-|[<-|[<-|[]]]]; try reflexivity; discriminate E.
Qed.

Example C90_ex :
  (exists moc, Installed_folded toy toy_key toy_library (B "C:/lib") (folding_disk (B "C:/lib") toy_library toy_outs) moc) /\
  Distinct toy_library /\
  decrypt_all toy toy_key (folding_disk (B "C:/lib") toy_library toy_outs) (B "C:/lib") []
    [(B "SUB\deep/o.MOC", nth 5 toy_outs []); (B "Sub/Deep\O.moc", nth 5 toy_outs []); (B "sub/PACKAGE.moc", nth 2 toy_outs [])]
  = Ok [Some (n_data deep_model); Some (n_data deep_model); Some (n_data sub_package)].
Proof.
  split; [destruct toy_folded as (moc & H & _); now exists moc|]. split; [exact toy_distinct|]. vm_compute. reflexivity.
Qed.

(** Spellings with "." or doubled separators, which file systems take for the same path as well, are not decrypted. *)
Fixpoint undotted (p : bytes) : bytes :=
  match p with
  | c :: r =>
      if Ascii.eqb c SLASH then
        match undotted r with
        | a :: q => if Ascii.eqb a SLASH then a :: q
                    else match q with
                         | b :: q' => if Ascii.eqb a DOT && Ascii.eqb b SLASH then b :: q' else c :: a :: q
                         | [] => c :: a :: q
                         end
        | [] => [c]
        end
      else c :: undotted r
  | [] => []
  end.
Theorem C90_other_names_refuted :
  let disk := fun p => disk_of (B "/lib") toy_library toy_outs (undotted p) in
  disk (B "/lib/./M.moc") = Some (nth 1 toy_outs []) /\ disk (B "/lib/Sub//N.moc") = Some (nth 3 toy_outs []) /\
  decrypt_all toy toy_key disk (B "/lib") [] [(B "M.moc", nth 1 toy_outs [])] = Ok [Some (n_data top_model)] /\
  decrypt_all toy toy_key disk (B "/lib") [] [(B "./M.moc", nth 1 toy_outs [])] = Ok [None] /\
  decrypt_all toy toy_key disk (B "/lib") [] [(B "Sub/N.moc", nth 3 toy_outs [])] = Ok [Some (n_data sub_model)] /\
  decrypt_all toy toy_key disk (B "/lib") [] [(B "Sub//N.moc", nth 3 toy_outs [])] = Ok [None].
Proof. vm_compute. repeat split. Qed.
Print Assumptions C90_other_names_refuted.
