(** C93: theorems about encryption when calls fail. *)
From Verif Require Import Base BaseProofs WireModel CryptModel CryptSpec CbcProofs MaskProofs CryptProofs CryptProps MemModel MemSpec FailModel FailProofs FailProps
  NestSpec NestProofs FailEncModel FailEncProofs.

(** The files of a library in the order in which they are encrypted; [old f] is what was in the memory for the IV and for the mask
    of [f] before random bytes were asked for. *)
Definition raws (old : entry -> bytes * bytes) (fs : list entry) : list raw :=
  map (fun f => {| w_source := source_of f; w_iv := fst (old f); w_mask := snd (old f) |}) fs.
(** The same file, with its random bytes, or, if a call failed, what was in memory instead of them. *)
Definition Chosen (ok : oracle) (old : entry -> bytes * bytes) (f f' : entry) : Prop :=
  n_dir f' = n_dir f /\ n_name f' = n_name f /\ n_data f' = n_data f /\
  (n_iv f' = n_iv f \/ (n_iv f' = fst (old f) /\ exists n, ok n = false)) /\ (n_mask f' = n_mask f \/ (n_mask f' = snd (old f) /\ exists n, ok n = false)).

(** ** Memory *)

(** Whatever is encrypted and whichever calls fail: up to the end (or to the crash of C93_crash_refuted) nothing is freed twice,
    used after it was freed, or freed without having been obtained. *)
Theorem C93_proper : forall ok pr K ws, Proper (trace (f_encrypt_run ok pr K ws)).
Proof. intros ok pr K ws. apply (run_memory ok pr K ws 0). Qed.
Print Assumptions C93_proper.

(** What is not given back, whatever fails: for each file at most one block for each directory down to it.  Not covered: that nothing
    remains (refuted below). *)
Theorem C93_kept_partial : forall ok pr K fs old r, GoodLibrary pr fs ->
  value (f_encrypt_run ok pr K (raws old fs)) 0 = Ok r ->
  length (held (trace (f_encrypt_run ok pr K (raws old fs)))) <= fold_right (fun f n => S (length (n_dir f)) + n) 0 fs.
Proof.
  intros ok pr K fs old r [GF _] V. destruct (run_memory ok pr K (raws old fs) 0) as [_ H]. unfold value, trace in *.
  destruct (f_encrypt_run _ _ _ _ 0) as [[tr v] n]. cbn [fst snd] in *. subst v. replace (fold_right _ 0 fs) with (room (raws old fs)); [exact H|].
  clear - GF. induction GF as [|f fs (Fd & Nn & _) _ IH]; [reflexivity|]. cbn [raws map room fold_right w_source]. fold (raws old fs). fold (room (raws old fs)).
  rewrite IH. f_equal. f_equal. unfold source_of. cbn [f_rel]. now apply sep_path.
Qed.
Print Assumptions C93_kept_partial.

(** ** Results *)
Lemma picked_chosen ok old fs : forall ss, Forall2 (Picked ok) (raws old fs) ss -> exists fs', Forall2 (Chosen ok old) fs fs' /\ ss = map source_of fs'.
Proof.
  induction fs as [|f fs IH]; intros ss H; inversion H; subst; [exists []; split; [constructor|reflexivity]|].
  destruct (IH _ H4) as (fs' & C & ->). destruct H2 as (E1 & E2 & E3 & E4). destruct y as [rel data iv mask]. cbn [w_source w_iv w_mask f_rel f_data f_iv f_mask source_of] in *.
  exists ({| n_dir := n_dir f; n_name := n_name f; n_data := n_data f; n_iv := iv; n_mask := mask |} :: fs'). split.
  - constructor; [|exact C]. repeat split; assumption.
  - cbn [map]. unfold source_of at 1. cbn [n_dir n_name n_data n_iv n_mask]. now subst.
Qed.
Lemma chosen_names ok old fs fs' : Forall2 (Chosen ok old) fs fs' -> map (fun f => (n_dir f, n_name f)) fs' = map (fun f => (n_dir f, n_name f)) fs.
Proof. induction 1 as [|f f' fs fs' (E1 & E2 & _) _ IH]; [reflexivity|]. cbn [map]. now rewrite IH, E1, E2. Qed.
Lemma chosen_good ok old pr fs fs' : (forall f, In f fs -> length (fst (old f)) = 16 /\ length (snd (old f)) = p_len pr) ->
  Forall2 (Chosen ok old) fs fs' -> GoodLibrary pr fs -> GoodLibrary pr fs'.
Proof.
  intros L C [GF ND]. split; [|now rewrite (chosen_names _ _ _ _ C)]. clear ND. revert L GF.
  induction C as [|f f' fs fs' (E1 & E2 & E3 & E4 & E5) _ IH]; intros L GF; [constructor|]. inversion GF as [|x y G1 G2]; subst. constructor; [|apply IH; [intros g I; apply L; now right|exact G2]].
  destruct (L f (or_introl eq_refl)) as [L1 L2]. unfold GoodEntry in *. rewrite E1, E2, E3.
  destruct G1 as (A1 & A2 & A3 & A4 & A5 & A6 & A7 & A8). repeat (split; [try assumption|]); try assumption.
  - unfold IsPackage in *. now rewrite E2.
  - destruct E4 as [-> |[-> _]]; assumption.
  - destruct E5 as [-> |[-> _]]; assumption.
Qed.
Lemma chosen_first ok old fs fs' : Forall2 (Chosen ok old) fs fs' -> PackageFirst fs -> PackageFirst fs'.
Proof.
  intros C PF pre f post E P g Ig. subst fs'. apply Forall2_app_inv_r in C. destruct C as (pre0 & rest & Cp & Cr & ->). inversion Cr as [|f0 f1 post0 post1 Cf Cq]; subst.
  destruct Cf as (E1 & E2 & _). rewrite E1.
  assert (exists g0, In g0 pre0 /\ n_dir g = n_dir g0) as (g0 & I0 & ->).
  { clear - Cp Ig. induction Cp as [|a b l l' (X & _) _ IH]; [contradiction|]. destruct Ig as [<-|I]; [exists a; split; [now left|exact X]|].
    destruct (IH I) as (g0 & I0 & Y). exists g0. split; [now right|exact Y]. }
  apply (PF pre0 f0 post0 eq_refl); [|exact I0]. unfold IsPackage in *. now rewrite <- E2.
Qed.

(** Whichever calls fail: if encryption reports success, every file has been encrypted completely and correctly, with random bytes that may
    be old memory instead; if it reports failure or crashes, a call failed, and crashes are uses of a null pointer. *)
Theorem C93_right_or_nothing_partial : forall ok pr K fs old,
  GoodPrimitives pr -> length K = 32 -> GoodLibrary pr fs -> PackageFirst fs ->
  (forall f, In f fs -> length (fst (old f)) = 16 /\ length (snd (old f)) = p_len pr) ->
  match value (f_encrypt_run ok pr K (raws old fs)) 0 with
  | Ok (_, Some outs) => exists fs', Forall2 (Chosen ok old) fs fs' /\ Forall2 (EncryptedAs pr K fs') fs' outs
  | Ok (_, None) => exists n, ok n = false
  | UB k => k = NullDeref /\ exists n, ok n = false
  | Blocked => False
  end.
Proof.
  intros ok pr K fs old G LK GL PF L.
  pose proof (run_v ok pr K (raws old fs) _ (encrypt_all_v ok pr K (raws old fs) []) 0) as H. cbn beta in H. unfold value.
  destruct (f_encrypt_run _ _ _ _ 0) as [[tr v] n]. cbn [fst snd] in *. destruct H as (ss & P & D).
  destruct (picked_chosen ok old fs ss P) as (fs' & C & ->).
  destruct (encrypt_library pr K fs' G LK (chosen_good _ _ _ _ _ L C GL) (chosen_first _ _ _ _ C PF)) as (outs & E & A).
  destruct D as [(Fl & [(t' & ->)| ->])|D]; [exact Fl|now split|]. cbn [plain map] in D. rewrite E in D.
  destruct v as [[t' [o|]]|k|]; cbn [rmap snd] in D; [|discriminate|discriminate|discriminate]. injection D as ->. now exists fs'.
Qed.
Print Assumptions C93_right_or_nothing_partial.

(** If no call fails, the result is that of the model without memory (C25-C33). *)
Theorem C93_no_failures : forall pr K old fs,
  match value (f_encrypt_run (fun _ => true) pr K (raws old fs)) 0 with
  | Ok (_, o) => encrypt_all pr K [] (map source_of fs) = Ok o
  | UB k => encrypt_all pr K [] (map source_of fs) = UB k
  | Blocked => encrypt_all pr K [] (map source_of fs) = Blocked
  end.
Proof.
  intros pr K old fs. pose proof (run_v (fun _ => true) pr K (raws old fs) _ (encrypt_all_v (fun _ => true) pr K (raws old fs) []) 0) as H. cbn beta in H. unfold value.
  destruct (f_encrypt_run _ _ _ _ 0) as [[tr v] n]. cbn [fst snd] in *. destruct H as (ss & P & D).
  assert (ss = map source_of fs) as ->.
  { clear - P. revert ss P. induction fs as [|f fs IH]; intros ss P; inversion P; subst; [reflexivity|]. cbn [map]. f_equal; [|now apply IH].
    destruct H1 as (E1 & E2 & [E3|[_ (k1 & X1)]] & [E4|[_ (k2 & X2)]]); try discriminate. destruct y as [ya yb yc yd]. cbn [w_source f_rel f_data f_iv f_mask source_of] in *. now subst. }
  destruct D as [((k & X) & _)|D]; [discriminate|]. cbn [plain map] in D. destruct v as [[t' o]|k|]; cbn [rmap snd] in D; now symmetry.
Qed.
Print Assumptions C93_no_failures.

(** ** Examples and findings *)
Definition used (f : entry) : bytes * bytes := (repeat (ch 9) 16, repeat (ch 9) (p_len toy)).
Definition toy_run (ok : oracle) := f_encrypt_run ok toy toy_key (raws used toy_library).

(** The hypotheses hold; without failures the toy library is encrypted; with call 7 (the block for the mask) failing, nothing is. *)
Example C93_ex : GoodPrimitives toy /\ length toy_key = 32 /\ GoodLibrary toy toy_library /\ PackageFirst toy_library /\
  (forall f, In f toy_library -> length (fst (used f)) = 16 /\ length (snd (used f)) = p_len toy) /\
  (exists t, value (toy_run (fun _ => true)) 0 = Ok (t, Some toy_files)) /\ (exists t, value (toy_run (but 7)) 0 = Ok (t, None)).
Proof.
  split; [exact toy_good|]. split; [reflexivity|]. split; [exact toy_library_good|]. split; [exact toy_library_order|]. split; [intros f _; split; reflexivity|].
  split; eexists; vm_compute; reflexivity.
Qed.
(** A library of one file: one block is kept, and at most one may be. *)
Example C93_kept_ex : length (held (trace (f_encrypt_run (fun _ => true) toy toy_key (raws used [top_package])))) = 1 /\
  fold_right (fun f n => S (length (n_dir f)) + n) 0 [top_package] = 1.
Proof. split; vm_compute; reflexivity. Qed.

(** The result of RAND_bytes is not looked at: success is reported although the IV of a file and the mask for the whole library are what
    was in memory. *)
Theorem C93_random_refuted : exists ok pr K f f' fs old t outs,
  GoodPrimitives pr /\ GoodLibrary pr (f :: fs) /\ PackageFirst (f :: fs) /\ n_iv f <> fst (old f) /\ n_mask f <> snd (old f) /\
  value (f_encrypt_run ok pr K (raws old (f :: fs))) 0 = Ok (t, Some outs) /\
  n_dir f' = [] /\ n_name f' = B "package.mo" /\ n_data f' = n_data f /\ n_iv f' = fst (old f) /\ n_mask f' = snd (old f) /\
  Forall2 (EncryptedAs pr K (f' :: fs)) (f' :: fs) outs.
Proof.
  pose (f' := {| n_dir := []; n_name := B "package.mo"; n_data := n_data top_package; n_iv := fst (used top_package); n_mask := snd (used top_package) |}).
  assert (C : Forall2 (Chosen (but 4) used) toy_library (f' :: tl toy_library)).
  { unfold toy_library. cbn [tl]. constructor; [repeat split; right; (split; [reflexivity|exists 4; reflexivity])|].
    repeat (constructor; [repeat split; now left|]). constructor. }
  destruct (encrypt_library toy toy_key (f' :: tl toy_library) toy_good eq_refl
    (chosen_good (but 4) used toy toy_library _ (fun f _ => conj eq_refl eq_refl) C toy_library_good) (chosen_first _ _ _ _ C toy_library_order)) as (outs & E & A).
  destruct (value (f_encrypt_run (fun n => negb ((n =? 4) || (n =? 6))) toy toy_key (raws used toy_library)) 0) as [[t [o|]]|k|] eqn:R; [|vm_compute in R; discriminate R..].
  exists (fun n => negb ((n =? 4) || (n =? 6))), toy, toy_key, top_package, f', (tl toy_library), used, t, outs.
  split; [exact toy_good|]. split; [exact toy_library_good|]. split; [exact toy_library_order|]. split; [vm_compute; discriminate|]. split; [vm_compute; discriminate|].
  split; [|repeat (split; [reflexivity|]); exact A].
  change (top_package :: tl toy_library) with toy_library. rewrite R. vm_compute in R. vm_compute in E. injection R as <- <-. injection E as <-. reflexivity.
Qed.
Print Assumptions C93_random_refuted.

(** EVP_CIPHER_CTX_new, HMAC_CTX_new and malloc for the IV: their results are used without a check. *)
Theorem C93_crash_refuted : exists pr K fs old,
  GoodPrimitives pr /\ GoodLibrary pr fs /\ PackageFirst fs /\
  forall k, In k [1; 2; 3] -> value (f_encrypt_run (but k) pr K (raws old fs)) 0 = UB NullDeref.
Proof.
  exists toy, toy_key, toy_library, used. split; [exact toy_good|]. split; [exact toy_library_good|]. split; [exact toy_library_order|].
  intros k [<-|[<-|[<-|[]]]]; vm_compute; reflexivity.
Qed.
Print Assumptions C93_crash_refuted.

(** If the package file fails after its mask was made, it cannot be encrypted in the same context any more, although all calls succeed
    again. *)
Theorem C93_retry_refuted : exists ok pr K f old t,
  GoodPrimitives pr /\ GoodLibrary pr [f] /\ PackageFirst [f] /\
  value (f_encrypt_all ok pr K [] (raws old [f])) 0 = Ok (t, None) /\
  forall n, exists t', value (f_encrypt_all (fun _ => true) pr K t (raws old [f])) n = Ok (t', None).
Proof.
  destruct (value (f_encrypt_all (but 9) toy toy_key [] (raws used [top_package])) 0) as [[t [o|]]|k|] eqn:R; [vm_compute in R; discriminate R| |vm_compute in R; discriminate R..].
  exists (but 9), toy, toy_key, top_package, used, t. split; [exact toy_good|].
  split; [|split].
  - destruct toy_library_good as [F N]. split; [inversion F; subst; now constructor|constructor; [intros []|constructor]].
  - intros [|g pre] f post E P g0 I; [destruct I|]. destruct pre; discriminate E.
  - split; [exact R|]. vm_compute in R. injection R as <-. intros n. eexists. cbn. reflexivity.
Qed.
Print Assumptions C93_retry_refuted.

(** The masks are never given back. *)
Theorem C93_given_back_refuted : exists pr K fs old t outs,
  GoodPrimitives pr /\ GoodLibrary pr fs /\ PackageFirst fs /\ value (f_encrypt_run (fun _ => true) pr K (raws old fs)) 0 = Ok (t, Some outs) /\
  length (blocks (held (trace (f_encrypt_run (fun _ => true) pr K (raws old fs))))) = length (package_files fs) /\ package_files fs <> [].
Proof.
  destruct (value (toy_run (fun _ => true)) 0) as [[t [o|]]|k|] eqn:R; [|vm_compute in R; discriminate R..].
  exists toy, toy_key, toy_library, used, t, o. split; [exact toy_good|]. split; [exact toy_library_good|]. split; [exact toy_library_order|].
  split; [exact R|]. split; [vm_compute; reflexivity|vm_compute; discriminate].
Qed.
Print Assumptions C93_given_back_refuted.
