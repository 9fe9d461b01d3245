(** A tool reads the files of an unpacked archive. *)
From Verif Require Import Base BaseProofs ParseModel WireModel WireSpec LveModel LveSpec LveSteps LveHist LveProps ToolModel ToolSpec
  SessionModel SessionSpec SessionProofs SessionProps CryptModel CryptSpec LibraryModel LibrarySpec LibraryProofs
  ArgsModel ArgsSpec ManifestSpec PackageModel PackageSpec TreeProofs PackageProofs ShipProofs ShipSpec.

Lemma modelica_moc p n : Modelica n -> MocFile (path_of p (n ++ B "c")).
Proof.
  intros (b & e & -> & He). assert (X : exists a, path_of p ((b ++ [DOT] ++ e) ++ B "c") = a ++ DOT :: (e ++ B "c")).
  { induction p as [|c p (a & E)]; [exists b; cbn [path_of]; now rewrite <- !app_assoc|]. exists (c ++ [SLASH] ++ a). cbn [path_of]. rewrite E. now rewrite <- !app_assoc. }
  destruct X as (a & ->). exists a, (e ++ B "c"). split; [reflexivity|]. split.
  - rewrite in_app_iff. intros [I|[I|[]]]; [|discriminate]. apply (in_map lower) in I. rewrite He in I. cbn in I. repeat destruct I as [I|I]; try discriminate I; exact I.
  - unfold caseeq. rewrite map_app, He. reflexivity.
Qed.

Lemma ship_session pr K w args o name lib r base l cfg key kv kl min max p lp cs :
  GoodPrimitives pr -> length K = 32 -> Sane w -> CopiesAll w -> PlainLves w ->
  Request w args o name lib -> encrypted o = true -> Tidy w lib (length base + 1 + length name) ->
  package pr K w args = Ok r -> k_code r = 0 -> k_archive r = Some (archive_name name, l) ->
  In key (cfg_keys cfg) -> (1 <= max)%Z -> LveSpec.Trimmed p lp -> cstr lp = base ++ [SLASH] ++ name ->
  Forall (fun '(k, c) => FairLink k /\ FairCall c) ((kv, Version min max) :: (kl, LibPath p) :: cs) ->
  (forall g, cfg_global cfg = Some g ->
     e_lic_new (k_env kl) (Some (cstr lp)) = Granted /\ e_checkout (k_env kl) g = Granted) ->
  Forall (fun '(k, c) => Serves (k_env k) base l /\ AsksForSource lib c) cs ->
  exists d1 d2 ds s,
    tool_session cfg (Some key)
      (map (fun '(k, c) => (link_with pr K k, c)) ((kv, Version min max) :: (kl, LibPath p) :: cs))
      = Ok (d1 :: d2 :: ds, s, []) /\
    Forall2 (fun '(k, c) d => Answered (k_alloc k) c d /\ SourceDelivered lib c d) cs ds.
Proof.
  intros G LK Sa W Pl Rq En Td H Cd Ea Kk Mx T El F Gl OD.
  destruct (packed_library pr K w args o name lib r (length base) l G LK Sa W Pl Rq En Td H Cd Ea) as (fs & outs & GL & PF & Ee & I1 & I2 & Ln & Wa & _).
  destruct (library_session pr K fs outs cfg key kv kl min max p lp cs G LK GL PF Ee Kk Mx T F Gl) as (d1 & d2 & ds & s & E & F2).
  - intros f If. rewrite El, !app_length. cbn [length]. specialize (Ln f If). lia.
  - revert OD. apply Forall_impl. intros [k c] ((S1 & S2) & As). split.
    + split.
      * intros f out I. rewrite El. destruct (S1 _ _ (I1 f out I)) as (err & Er). exists err. rewrite <- !app_assoc. exact Er.
      * intros d Nd NP. rewrite El. destruct (S2 _ (I2 d Nd NP)) as (t & Et). exists t. rewrite <- !app_assoc. exact Et.
    + intros q Eq M. destruct (As q Eq M) as (dir & n & d & -> & Wd). destruct (Wa dir n d Wd) as (f & out & I & Rf & Ed & Es & _). exists f.
      split; [unfold moc_path; now rewrite slashed_path, Ed, Es|]. split; [exact (in_combine_l _ _ _ _ I)|exact Rf].
  - exists d1, d2, ds, s. split; [exact E|]. revert F2. clear - Wa. induction 1 as [|[k c] d cs ds [A Dl] _ IH]; constructor; [|exact IH]. split; [exact A|].
    intros dir n x Ec Wd. destruct (Wa dir n x Wd) as (f & out & I & Rf & Ed & Es & Ds & _). rewrite <- Ds. apply Dl.
    + rewrite Ec. unfold moc_path. now rewrite slashed_path, Ed, Es.
    + unfold moc_path. rewrite Es. apply modelica_moc. now destruct Wd as (_ & _ & M & _).
    + exact (in_combine_l _ _ _ _ I).
Qed.
