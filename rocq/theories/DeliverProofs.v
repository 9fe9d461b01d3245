(** Files that are not encrypted, in a session on an encrypted library. *)
From Verif Require Import Base BaseProofs ParseModel WireModel WireSpec LveModel LveSpec LveSteps LveHist ToolModel ToolSpec
  SessionModel SessionSpec SessionProofs CryptModel CryptSpec MaskProofs CryptProofs LibraryModel LibrarySpec LibraryProofs
  ArgsModel ArgsSpec ManifestSpec PackageModel PackageSpec TreeProofs CopyProofs EncProofs ZipProofs PackageProofs IconProofs ShipProofs ShipSpec ShipSession LostProofs LiveSpec LiveProofs DeliverSpec.

(** A file that is asked for under a name that is not of an encrypted one. *)
Definition RawDelivered {D} (k : link D) (lib : bytes) (c : call) (d : done) : Prop :=
  forall p b err, c = File p -> ~ MocFile (cstr p) -> e_file (k_env k) (file_path lib (cstr p)) = Content (zlen b) b err ->
  exists h, d_result d = Some (Contents h) /\ Opened b h.

Lemma reading_raw pr K fs lib cfg k c s d s1 : FairLink k -> FairCall c -> reading fs lib s ->
  api_call cfg (link_with pr K k) s [] c = Ok (d, s1, []) -> RawDelivered k lib c d.
Proof.
  intros FL FC (HS & SV & t & Cr & Ca) E p b err -> NM Ef. pose proof FL as (HE & Al & Cut). pose proof HE as (A & _ & _ & _ & _ & _ & Sm).
  destruct (call_request (k_alloc k) (File p) Al FC) as (req & Rq & Lr & Ne & GR & Rc).
  assert (Cu : k_cut (link_with pr K k) req = [req]) by (apply (proj1 Cut); assumption).
  assert (Es : lve_step cfg (k_env (link_with pr K k)) s req = lve_step cfg (k_env (quiet_link k)) s req).
  { cbn [link_with quiet_link k_env]. cbn [call_cmd call_arg] in Rc. apply (step_plain_file pr K cfg (k_env k) s req lib p A SV Rc). now apply is_moc_false. }
  rewrite (api_call_same cfg (link_with pr K k) (quiet_link k) s [] (File p) req Rq Cu eq_refl eq_refl Es) in E.
  destruct (file_delivered cfg (quiet_link k) s lib p b HS SV (quiet_fair k FL) FC) as (d' & s1' & h & E' & Rs & Op).
  { split.
    - specialize (Sm (file_path lib (cstr p))). rewrite Ef in Sm. exact Sm.
    - exists b, err. split; [exact Ef|]. split; [intros M; contradiction|reflexivity]. }
  assert (d = d') as -> by congruence. exists h. now split.
Qed.

Lemma reading_calls_raw pr K fs outs lib cfg cs :
  GoodPrimitives pr -> length K = 32 -> GoodLibrary pr fs -> Forall2 (EncryptedAs pr K fs) fs outs ->
  (forall f, In f fs -> length (cstr lib) + length (path_of (n_dir f) (n_name f)) <= 4000) ->
  Forall (fun '(k, c) => FairLink k /\ FairCall c) cs ->
  Forall (fun '(k, c) => OnDisk (k_env k) (cstr lib) fs outs /\ AsksForEntry fs c) cs ->
  forall s ds s1, reading fs lib s -> api_calls cfg s [] (map (fun '(k, c) => (link_with pr K k, c)) cs) = Ok (ds, s1, []) ->
  Forall2 (fun '(k, c) d => RawDelivered k lib c d) cs ds.
Proof.
  intros G LK GL F2 Lb. induction cs as [|[k c] cs IH]; intros F1 F3 s ds s1 RS H.
  - cbn [map api_calls] in H. injection H as <- _. constructor.
  - apply Forall_cons_iff in F1, F3. destruct F1 as [[FL FC] F1], F3 as [[OD AE] F3].
    destruct (reading_call pr K fs outs lib cfg k c s G LK GL F2 Lb FL FC OD AE RS) as (d & s2 & E & RS1 & An & De).
    cbn [map api_calls] in H. rewrite E in H. cbn [bind] in H.
    destruct (api_calls cfg s2 [] (map (fun '(k, c) => (link_with pr K k, c)) cs)) as [[[ds' s3] q]|u|] eqn:E2; cbn [bind] in H; try discriminate.
    assert (ds = d :: ds' /\ q = []) as [-> ->] by (split; congruence). constructor.
    + exact (reading_raw pr K fs lib cfg k c s d s2 FL FC RS E).
    + exact (IH F1 F3 s2 ds' s3 RS1 E2).
Qed.

Lemma library_session_raw pr K fs outs cfg key kv kl min max p lib cs d1 d2 ds s :
  GoodPrimitives pr -> length K = 32 -> GoodLibrary pr fs -> PackageFirst fs ->
  encrypt_all pr K [] (map source_of fs) = Ok (Some outs) ->
  In key (cfg_keys cfg) -> (1 <= max)%Z -> LveSpec.Trimmed p lib ->
  Forall (fun '(k, c) => FairLink k /\ FairCall c) ((kv, Version min max) :: (kl, LibPath p) :: cs) ->
  (forall g, cfg_global cfg = Some g ->
     e_lic_new (k_env kl) (Some (cstr lib)) = Granted /\ e_checkout (k_env kl) g = Granted) ->
  (forall f, In f fs -> length (cstr lib) + length (path_of (n_dir f) (n_name f)) <= 4000) ->
  Forall (fun '(k, c) => OnDisk (k_env k) (cstr lib) fs outs /\ AsksForEntry fs c) cs ->
  tool_session cfg (Some key)
      (map (fun '(k, c) => (link_with pr K k, c)) ((kv, Version min max) :: (kl, LibPath p) :: cs))
      = Ok (d1 :: d2 :: ds, s, []) ->
  Forall2 (fun '(k, c) d => RawDelivered k lib c d) cs ds.
Proof.
  intros G LK GL PF Enc Kk Mx T F Gl Lb OD H.
  destruct (encrypt_library pr K fs G LK GL PF) as (outs' & E' & F2).
  assert (outs' = outs) by congruence. subst outs'. clear E'.
  apply Forall_cons_iff in F. destruct F as [[Fv1 Fv2] F].
  apply Forall_cons_iff in F. destruct F as [[Fl1 Fl2] Fm].
  destruct (library_begin pr K cfg key kv kl min max p lib Kk Mx T Fv1 Fv2 Fl1 Fl2 Gl) as (e1 & e2 & s2 & HS2 & SV2 & Cr2 & E).
  cbn [map] in H. rewrite E in H.
  destruct (api_calls cfg s2 [] (map (fun '(k, c) => (link_with pr K k, c)) cs)) as [[[ds' s3] q]|u|] eqn:E3; cbn [bind] in H; try discriminate.
  assert (ds = ds' /\ q = []) as [-> ->] by (split; congruence).
  refine (reading_calls_raw pr K fs outs lib cfg cs G LK GL F2 Lb Fm OD s2 ds' s3 _ E3).
  split; [exact HS2|]. split; [exact SV2|]. exists []. split; [exact Cr2|]. intros a m _ X. discriminate.
Qed.

Lemma nul_free_names dir n : Forall FileName (dir ++ [n]) -> ~ In NUL (path_of dir n).
Proof.
  induction dir as [|c dir IH]; cbn [app path_of]; intros F; apply Forall_cons_iff in F; destruct F as [(_ & _ & N & _) F]; [exact N|].
  rewrite in_app_iff. intros [I|[E|I]]; [exact (N I)|discriminate E|exact (IH F I)].
Qed.

(** A tool reads everything from an unpacked archive. *)
Lemma ship_everything pr K w args o name lib r base l cfg key kv kl min max p lp cs :
  GoodPrimitives pr -> length K = 32 -> Sane w -> CopiesAll w -> PlainLves w ->
  Request w args o name lib -> encrypted o = true -> Tidy w lib (length base + 1 + length name) ->
  package pr K w args = Ok r -> k_code r = 0 -> k_archive r = Some (archive_name name, l) ->
  In key (cfg_keys cfg) -> (1 <= max)%Z -> LveSpec.Trimmed p lp -> cstr lp = base ++ [SLASH] ++ name ->
  Forall (fun '(k, c) => FairLink k /\ FairCall c) ((kv, Version min max) :: (kl, LibPath p) :: cs) ->
  (forall g, cfg_global cfg = Some g ->
     e_lic_new (k_env kl) (Some (cstr lp)) = Granted /\ e_checkout (k_env kl) g = Granted) ->
  Forall (fun '(k, c) => Serves (k_env k) base l /\ AsksForSource lib c) cs ->
  exists d1 d2 ds s,
    tool_session cfg (Some key)
      (map (fun '(k, c) => (link_with pr K k, c)) ((kv, Version min max) :: (kl, LibPath p) :: cs))
      = Ok (d1 :: d2 :: ds, s, []) /\
    Forall2 (fun '(k, c) d => Answered (k_alloc k) c d /\ SourceDelivered lib c d /\ PlainDelivered lib c d) cs ds.
Proof.
  intros G LK Sa W Pl Rq En Td H Cd Ea Kk Mx T El F Gl OD.
  destruct (ship_session pr K w args o name lib r base l cfg key kv kl min max p lp cs G LK Sa W Pl Rq En Td H Cd Ea Kk Mx T El F Gl OD) as (d1 & d2 & ds & s & E & F2).
  destruct (packed_library pr K w args o name lib r (length base) l G LK Sa W Pl Rq En Td H Cd Ea) as (fs & outs & GL & PF & Ee & I1 & I2 & Ln & Wa & _).
  exists d1, d2, ds, s. split; [exact E|].
  assert (R : Forall2 (fun '(k, c) d => RawDelivered k lp c d) cs ds).
  { refine (library_session_raw pr K fs outs cfg key kv kl min max p lp cs d1 d2 ds s G LK GL PF Ee Kk Mx T F Gl _ _ E).
    - intros f If. rewrite El, !app_length. cbn [length]. specialize (Ln f If). lia.
    - revert OD. apply Forall_impl. intros [k c] ((S1 & S2) & As). split.
      + split.
        * intros f out I. rewrite El. destruct (S1 _ _ (I1 f out I)) as (err & Er). exists err. rewrite <- !app_assoc. exact Er.
        * intros d Nd NP. rewrite El. destruct (S2 _ (I2 d Nd NP)) as (t & Et). exists t. rewrite <- !app_assoc. exact Et.
      + intros q Eq M. destruct (As q Eq M) as (dir & n & d & -> & Wd). destruct (Wa dir n d Wd) as (f & out & I & Rf & Ed & Es & _). exists f.
        split; [unfold moc_path; now rewrite slashed_path, Ed, Es|]. split; [exact (in_combine_l _ _ _ _ I)|exact Rf]. }
  destruct (archive_complete pr K w args o name lib r Sa W Rq H Cd) as (l' & Ea' & Hl). assert (l' = l) by congruence. subst l'.
  assert (Pr : Proper (Folder lib)).
  { destruct Rq as (_ & _ & _ & p0 & p1 & _ & _ & _ & D). destruct Sa as (_ & Sp' & _). exact (Sp' _ _ D). }
  clear E F. revert R OD. induction F2 as [|[k c] d cs ds [A Dl] _ IH]; intros R OD; constructor.
  - split; [exact A|]. split; [exact Dl|]. inversion R as [|? ? ? ? R1 R2]; subst. apply Forall_cons_iff in OD. destruct OD as [[(S1 & _) As] OD].
    intros dir n x Ec At1 Nd NM NE.
    assert (Cs : cstr (slashed (dir ++ [n])) = slashed (dir ++ [n])).
    { apply cstr_no_nul. rewrite slashed_path. apply nul_free_names. exact (at_names _ _ _ Pr At1). }
    assert (In (slashed (name :: dir ++ [n]), x) l) as Il.
    { apply (Hl dir n x At1 Nd); [exact En|exact NM|]. intros m e Em Mm Am. apply NE.
      rewrite slashed_path, Em. now apply modelica_moc. }
    destruct (S1 _ _ Il) as (err & Er). refine (R1 (slashed (dir ++ [n])) x err Ec _ _).
    + now rewrite Cs.
    + rewrite Cs. unfold file_path. rewrite El. rewrite <- !app_assoc. 
      change (name :: dir ++ [n]) with ((name :: dir) ++ [n]) in Er. rewrite slashed_path in Er. rewrite slashed_path. exact Er.
  - inversion R as [|? ? ? ? R1 R2]; subst. apply Forall_cons_iff in OD. destruct OD as [_ OD]. now apply IH.
Qed.

(** ** Links *)

Lemma at_prefix_other t p q x : Proper t -> At t p Other -> At t (p ++ q) x -> q = [] /\ x = Other.
Proof. intros P A A2. apply at_app in A2. destruct A2 as (y & A3 & A4). rewrite <- (at_unique _ _ _ P A _ A3) in A4. now apply at_other. Qed.

(** Nothing at or behind a link is in the archive. *)
Lemma link_lost pr K w args o name lib r z l dir n : Sane w -> CopiesAll w -> Request w args o name lib -> package pr K w args = Ok r -> k_archive r = Some (z, l) ->
  At (Folder lib) (dir ++ [n]) Other -> hd [] (dir ++ [n]) <> B ".library" ->
  (forall m e, n = m ++ B "c" -> ~ At (Folder lib) (dir ++ [m]) (Reg e)) ->
  (forall e, ~ At (Folder lib) (dir ++ [n ++ B "c"]) (Reg e)) ->
  (forall q d, Forall FileName q -> ~ In (slashed (name :: dir ++ [n] ++ q), d) l) /\ (forall d, ~ In (slashed (name :: dir ++ [n]) ++ B "c", d) l).
Proof.
  intros Sa W Rq H Ea A Hd No No2. assert (Pl : Proper (Folder lib)).
  { destruct Rq as (_ & _ & _ & p0 & p1 & _ & _ & _ & D). destruct Sa as (_ & Sp' & _). exact (Sp' _ _ D). }
  destruct (proper_at _ _ _ Pl A) as [_ Fn]. split.
  - intros q d Fq I. assert (Fa : Forall FileName (dir ++ [n] ++ q)) by (rewrite app_assoc; apply Forall_app; now split).
    assert (Hh : forall r, hd [] ((dir ++ [n]) ++ r) = hd [] (dir ++ [n])) by (intros r0; destruct dir; reflexivity).
    destruct q as [|m q] using rev_ind.
    + cbn [app] in I. destruct (entry_from _ _ _ _ _ _ _ _ _ _ _ _ _ Sa W Rq H Ea Fn Hd I) as [(A' & _)|(m & e & E & _ & _ & _ & _ & A' & _)].
      * discriminate (at_unique _ _ _ Pl A _ A').
      * exact (No m e E A').
    + clear IHq. replace (name :: dir ++ [n] ++ q ++ [m]) with (name :: ((dir ++ [n]) ++ q) ++ [m]) in I by now rewrite <- !app_assoc.
      replace (dir ++ [n] ++ q ++ [m]) with (((dir ++ [n]) ++ q) ++ [m]) in Fa by now rewrite <- !app_assoc.
      assert (Hh2 : hd [] (((dir ++ [n]) ++ q) ++ [m]) <> B ".library") by (rewrite <- app_assoc, Hh; exact Hd).
      destruct (entry_from _ _ _ _ _ _ _ _ _ _ _ _ _ Sa W Rq H Ea Fa Hh2 I) as [(A' & _)|(m' & e & E & _ & _ & _ & _ & A' & _)];
        rewrite <- app_assoc in A'; destruct (at_prefix_other _ _ _ _ Pl A A') as [E0 _]; now destruct q.
  - intros d I. change (name :: dir ++ [n]) with ((name :: dir) ++ [n]) in I. rewrite slashed_c in I. cbn [app] in I.
    assert (Fc : Forall FileName (dir ++ [n ++ B "c"])).
    { apply Forall_app in Fn. destruct Fn as [F1 F2]. inversion F2; subst. apply Forall_app. split; [exact F1|]. apply Forall_cons; [now apply filename_c|apply Forall_nil]. }
    assert (Hh : hd [] (dir ++ [n ++ B "c"]) <> B ".library").
    { destruct dir as [|c dir]; [|exact Hd]. cbn [app hd]. intros E. apply (f_equal (@rev _)) in E. rewrite rev_app_distr in E. discriminate. }
    destruct (entry_from _ _ _ _ _ _ _ _ _ _ _ _ _ Sa W Rq H Ea Fc Hh I) as [(A' & _)|(m & e' & E & _ & _ & _ & _ & A' & _)].
    + exact (No2 _ A').
    + apply app_inj_tail in E. destruct E as [<- _]. discriminate (at_unique _ _ _ Pl A _ A').
Qed.
