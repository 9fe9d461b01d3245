(** C92: theorems about decryption when calls fail. *)
From Verif Require Import Base BaseProofs WireModel CryptModel CryptSpec CbcProofs DemaskProofs CryptProofs CryptProps MemModel MemSpec FailModel FailSpec FailProofs.

(** Requests for files of a library. *)
Definition asks (moc : entry -> bytes) (reqs : list entry) : list (bytes * bytes) := map (fun f => (moc_path f, moc f)) reqs.
(** What a function delivers. *)
Definition value {A} (m : F A) (n : nat) : outcome A := snd (fst (m n)).
(** The calls that get, use and give back memory and streams. *)
Definition trace {A} (m : F A) : list mem := fst (fst (m 0)).
Definition package_files (fs : list entry) : list entry := filter (fun f => beq (n_name f) (B "package.mo")) fs.

(** ** Memory and streams *)

(** Whatever is asked for, whatever is on the disk, and whichever calls fail: up to the end of the session (or to the crash of
    C92_crash_refuted) nothing is freed twice, used after it was freed, or freed without having been obtained. *)
Theorem C92_proper : forall ok pr K disk basedir reqs, Proper (trace (f_session ok pr K disk basedir reqs)).
Proof. exact session_proper. Qed.
Print Assumptions C92_proper.

(** What is not given back, whatever fails: at most one block for each package file, and no stream if nothing failed.  Not covered:
    that nothing remains (refuted below). *)
Theorem C92_kept_partial : forall ok pr K fs basedir disk moc reqs t answers,
  GoodPrimitives pr -> length K = 32 -> GoodLibrary pr fs -> Installed pr K fs basedir disk moc -> WrongKeysDetected pr K fs moc ->
  (forall f, In f reqs -> In f fs /\ InPackage fs f) ->
  value (f_session ok pr K disk basedir (asks moc reqs)) 0 = Ok (t, answers) ->
  length (blocks (held (trace (f_session ok pr K disk basedir (asks moc reqs))))) <= length (package_files fs) /\
  ((forall i, ok i = true) -> streams (held (trace (f_session ok pr K disk basedir (asks moc reqs)))) = []).
Proof.
  intros ok pr K fs basedir disk moc reqs t answers G LK GL Ins W R V. pose proof (session_held ok pr K fs basedir disk moc reqs 0 G LK GL Ins W R) as H.
  unfold value, trace, asks in *. destruct (f_session ok pr K disk basedir _ 0) as [[tr v] n]. cbn [fst snd] in *. rewrite V in H. exact H.
Qed.
Print Assumptions C92_kept_partial.

(** ** Answers *)

(** Whichever calls fail, a file of the library is answered with its contents or not at all; if the process crashes, it is because a
    call failed, and by using a null pointer. *)
Theorem C92_right_or_nothing_partial : forall ok pr K fs basedir disk moc reqs,
  GoodPrimitives pr -> length K = 32 -> GoodLibrary pr fs -> Installed pr K fs basedir disk moc -> WrongKeysDetected pr K fs moc ->
  (forall f, In f reqs -> In f fs /\ InPackage fs f) ->
  match value (f_session ok pr K disk basedir (asks moc reqs)) 0 with
  | Ok (_, answers) => Forall2 (fun f a => a = None \/ a = Some (n_data f)) reqs answers
  | UB k => k = NullDeref /\ exists n, ok n = false
  | Blocked => False
  end.
Proof.
  intros ok pr K fs basedir disk moc reqs G LK GL Ins W R.
  pose proof (session_v _ _ _ _ _ _ _ (fail_requests ok pr K fs basedir disk moc G LK GL Ins W reqs [] R (empty_ok fs)) 0) as H.
  unfold value, asks. destruct (f_session _ _ _ _ _ _ 0) as [[tr [[t a]|k|]] n]; [apply H|exact H|exact H].
Qed.
Print Assumptions C92_right_or_nothing_partial.

(** Failures leave nothing wrong behind: requests in the same context, once calls succeed again, are all answered with the contents. *)
Theorem C92_recovers : forall ok pr K fs basedir disk moc reqs t answers later n,
  GoodPrimitives pr -> length K = 32 -> GoodLibrary pr fs -> Installed pr K fs basedir disk moc -> WrongKeysDetected pr K fs moc ->
  (forall f, In f reqs -> In f fs /\ InPackage fs f) -> (forall f, In f later -> In f fs /\ Readable fs f) ->
  value (f_requests ok pr K disk basedir [] (asks moc reqs)) 0 = Ok (t, answers) ->
  exists t', value (f_requests (fun _ => true) pr K disk basedir t (asks moc later)) n = Ok (t', map (fun f => Some (n_data f)) later).
Proof.
  intros ok pr K fs basedir disk moc reqs t answers later n G LK GL Ins W R Rl V.
  pose proof (fail_requests ok pr K fs basedir disk moc G LK GL Ins W reqs [] R (empty_ok fs) 0) as H.
  unfold value, asks in V. rewrite V in H. destruct H as [C _].
  pose proof (later_requests pr K fs basedir disk moc t later G LK GL Ins Rl C n) as E. unfold value, asks. change never with (fun _ : nat => true) in E.
  destruct (f_requests _ _ _ _ _ _ _ n) as [[tr [[t' a]|k|]] n']; cbn [fst snd rmap] in *; [|discriminate|discriminate].
  injection E as ->. now exists t'.
Qed.
Print Assumptions C92_recovers.

(** If no call fails, the answers are those of the model without memory (C25-C33). *)
Theorem C92_no_failures : forall pr K disk basedir reqs,
  match value (f_session (fun _ => true) pr K disk basedir reqs) 0 with
  | Ok (_, answers) => decrypt_all pr K disk basedir [] reqs = Ok answers
  | UB k => decrypt_all pr K disk basedir [] reqs = UB k
  | Blocked => decrypt_all pr K disk basedir [] reqs = Blocked
  end.
Proof.
  intros pr K disk basedir reqs. pose proof (session_v _ _ _ _ _ _ _ (requests_value pr K disk basedir reqs []) 0) as H.
  unfold value. change never with (fun _ : nat => true) in H. destruct (f_session _ _ _ _ _ _ 0) as [[tr [[t a]|k|]] n]; cbn [fst snd rmap] in H; exact (eq_sym H).
Qed.
Print Assumptions C92_no_failures.

(** ** A library for the examples *)
Definition toy_files : list bytes := Eval vm_compute in toy_outs.
Definition toy_disk := disk_of (B "/lib") toy_library toy_files.
Lemma toy_at : exists moc, Installed toy toy_key toy_library (B "/lib") toy_disk moc /\ forall f out, In (f, out) (combine toy_library toy_files) -> moc f = out.
Proof.
  apply (disk_of_installed toy toy_key (B "/lib") toy_library toy_files toy_good eq_refl toy_library_good toy_library_order); [vm_compute; reflexivity|].
  intros f I. cbn [toy_library In] in I. destruct I as [<-|[<-|[<-|[<-|[<-|[<-|[]]]]]]]; apply Nat.leb_le; vm_compute; reflexivity.
Qed.
Lemma toy_has d m : HasMask toy_library d m ->
  (d = [] /\ m = n_mask top_package) \/ (d = [B "Sub"] /\ m = n_mask sub_package) \/ (d = [B "Sub"; B "Deep"] /\ m = n_mask deep_package).
Proof. intros (p & I & P & <- & <-). cbn [toy_library In] in I. destruct I as [<-|[<-|[<-|[<-|[<-|[<-|[]]]]]]]; first [discriminate P|auto]. Qed.
Lemma toy_package f : In f toy_library -> IsPackage f -> NearestDir toy_library (n_dir f) (Some (n_dir f)).
Proof. intros I P. apply (Dir_here toy_library _ (n_mask f)). now apply has_mask. Qed.
Lemma toy_detected moc : (forall f out, In (f, out) (combine toy_library toy_files) -> moc f = out) -> WrongKeysDetected toy toy_key toy_library moc.
Proof.
  intros M f s key data I KF O. apply (opens_checked toy _ _ _ toy_good) in O.
  pose proof (toy_package top_package ltac:(cbn; tauto) eq_refl) as N0. pose proof (toy_package sub_package ltac:(cbn; tauto) eq_refl) as N1.
  pose proof (toy_package deep_package ltac:(cbn; tauto) eq_refl) as N2.
  assert (KF' : (s = None /\ key = toy_key) \/ (s = Some [] /\ key = xor toy_key (n_mask top_package)) \/
    (s = Some [B "Sub"] /\ key = xor toy_key (n_mask sub_package)) \/ (s = Some [B "Sub"; B "Deep"] /\ key = xor toy_key (n_mask deep_package))).
  { destruct KF as [|d m H]; [now left|]. destruct (toy_has d m H) as [[-> ->]|[[-> ->]|[-> ->]]]; auto 6. }
  assert (forall i, In (f, nth i toy_files []) (combine toy_library toy_files) -> moc f = nth i toy_files []) as Mi by (intros i; apply M).
  cbn [toy_library In] in I.
  destruct I as [<-|[<-|[<-|[<-|[<-|[<-|[]]]]]]];
    [rewrite (Mi 0) in O by (left; reflexivity) | rewrite (Mi 1) in O by (right; left; reflexivity) | rewrite (Mi 2) in O by (do 2 right; left; reflexivity)
    |rewrite (Mi 3) in O by (do 3 right; left; reflexivity) | rewrite (Mi 4) in O by (do 4 right; left; reflexivity) | rewrite (Mi 5) in O by (do 5 right; left; reflexivity)];
    destruct KF' as [[-> ->]|[[-> ->]|[[-> ->]|[-> ->]]]]; first [vm_compute in O; discriminate O|clear O].
  - now apply By_none.
  - now apply By_nearest.
  - now apply (By_above _ _ [] (B "Sub")).
  - now apply By_nearest.
  - now apply (By_above _ _ [B "Sub"] (B "Deep")).
  - now apply By_nearest.
Qed.
Lemma toy_readable f : In f toy_library -> Readable toy_library f.
Proof.
  intros I. cbn [toy_library In] in I. split.
  - destruct I as [<-|[<-|[<-|[<-|[<-|[<-|[]]]]]]];
      [exists (n_mask top_package); apply (has_mask _ top_package)|exists (n_mask top_package); apply (has_mask _ top_package)
      |exists (n_mask sub_package); apply (has_mask _ sub_package)|exists (n_mask sub_package); apply (has_mask _ sub_package)
      |exists (n_mask deep_package); apply (has_mask _ deep_package)|exists (n_mask deep_package); apply (has_mask _ deep_package)]; (reflexivity || (cbn; tauto)).
  - intros p Ip P _. cbn [toy_library In] in Ip. destruct Ip as [<-|[<-|[<-|[<-|[<-|[<-|[]]]]]]]; first [discriminate P|right; discriminate].
Qed.

(** Only the [k]-th call fails. *)
Definition but (k : nat) : oracle := fun n => negb (n =? k).
Definition all_files : list (bytes * bytes) := map (fun '(f, out) => (moc_path f, out)) (rev (combine toy_library toy_files)).
Definition toy_session (ok : oracle) := f_session ok toy toy_key toy_disk (B "/lib") all_files.

(** The hypotheses hold; with call 5 (fopen of Sub/Deep/package.moc) failing, the first answer is a failure and the others are right. *)
Example C92_ex : exists moc, Installed toy toy_key toy_library (B "/lib") toy_disk moc /\ WrongKeysDetected toy toy_key toy_library moc /\
  (forall f, In f toy_library -> InPackage toy_library f /\ Readable toy_library f) /\ asks moc (rev toy_library) = all_files /\
  exists t, value (toy_session (but 5)) 0 = Ok (t, [None; Some (n_data deep_package); Some []; Some (n_data sub_package); Some (n_data top_model); Some (n_data top_package)]).
Proof.
  destruct toy_at as (moc & Ins & M). exists moc. split; [exact Ins|]. split; [now apply toy_detected|].
  split; [intros f I; split; [apply (toy_readable f I)|now apply toy_readable]|]. split.
  - unfold asks, all_files. cbn [toy_library rev app map].
    rewrite (M top_package (nth 0 toy_files [])), (M top_model (nth 1 toy_files [])), (M sub_package (nth 2 toy_files [])), (M sub_model (nth 3 toy_files [])),
      (M deep_package (nth 4 toy_files [])), (M deep_model (nth 5 toy_files [])); [reflexivity|cbn; tauto..].
  - eexists. vm_compute. reflexivity.
Qed.

(** ** Findings *)

(** EVP_CIPHER_CTX_new and HMAC_CTX_new: their result is used without a check. *)
Theorem C92_crash_refuted : exists ok pr K fs basedir disk moc reqs,
  GoodPrimitives pr /\ GoodLibrary pr fs /\ Installed pr K fs basedir disk moc /\ WrongKeysDetected pr K fs moc /\
  (forall f, In f reqs -> In f fs /\ Readable fs f) /\
  value (f_session ok pr K disk basedir (asks moc reqs)) 0 = UB NullDeref.
Proof.
  destruct C92_ex as (moc & Ins & W & R & E & _). exists (but 3), toy, toy_key, toy_library, (B "/lib"), toy_disk, moc, (rev toy_library).
  split; [exact toy_good|]. split; [exact toy_library_good|]. split; [exact Ins|]. split; [exact W|].
  split; [intros f I; apply in_rev in I; split; [exact I|now apply R]|]. rewrite E. vm_compute. reflexivity.
Qed.
Print Assumptions C92_crash_refuted.

(** mlle_cr_free does not free the masks: a session in which nothing fails ends with a block for each package file (so the bound of
    C92_kept_partial is reached). *)
Theorem C92_given_back_refuted : exists pr K fs basedir disk moc reqs,
  GoodPrimitives pr /\ GoodLibrary pr fs /\ Installed pr K fs basedir disk moc /\ WrongKeysDetected pr K fs moc /\
  (forall f, In f reqs -> In f fs /\ Readable fs f) /\
  length (blocks (held (trace (f_session (fun _ => true) pr K disk basedir (asks moc reqs))))) = length (package_files fs) /\ length (package_files fs) = 3.
Proof.
  destruct C92_ex as (moc & Ins & W & R & E & _). exists toy, toy_key, toy_library, (B "/lib"), toy_disk, moc, (rev toy_library).
  split; [exact toy_good|]. split; [exact toy_library_good|]. split; [exact Ins|]. split; [exact W|].
  split; [intros f I; apply in_rev in I; split; [exact I|now apply R]|]. rewrite E. split; vm_compute; reflexivity.
Qed.
Print Assumptions C92_given_back_refuted.

(** After a failure a stream may stay open: no memory for a package file. *)
Theorem C92_stream_refuted : exists ok pr K fs basedir disk moc reqs,
  GoodPrimitives pr /\ GoodLibrary pr fs /\ Installed pr K fs basedir disk moc /\ WrongKeysDetected pr K fs moc /\
  (forall f, In f reqs -> In f fs /\ Readable fs f) /\
  length (streams (held (trace (f_session ok pr K disk basedir (asks moc reqs))))) = 1.
Proof.
  destruct C92_ex as (moc & Ins & W & R & E & _). exists (but 8), toy, toy_key, toy_library, (B "/lib"), toy_disk, moc, (rev toy_library).
  split; [exact toy_good|]. split; [exact toy_library_good|]. split; [exact Ins|]. split; [exact W|].
  split; [intros f I; apply in_rev in I; split; [exact I|now apply R]|]. rewrite E. vm_compute. reflexivity.
Qed.
Print Assumptions C92_stream_refuted.
