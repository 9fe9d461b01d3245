(** C40, C54, C55: the icon and the manifest in an archive, the use of an archive. *)
From Coq Require Import Permutation.
From Verif Require Import Base BaseProofs ParseModel WireModel WireSpec LveModel LveSpec LveSteps LveProps ToolModel ToolSpec SessionModel SessionSpec SessionProofs SessionProps
  CryptModel CryptSpec CryptProps LibraryModel LibrarySpec LibraryProofs ArgsModel ArgsSpec ArgsProofs XmlSpec ManifestModel ManifestSpec ManifestProofs ManifestProps
  PackageModel PackageSpec TreeProofs PackageProofs IconProofs ShipProofs KeepProofs LostProofs PackageExamples ShipSpec ShipSession.

(** ** C40 *)

(** If the path for temporary files happens to have between 26 characters and 26 plus the length of
    the library's name, then the manifest in the archive gives the path of a file with the name of
    the icon, relative to the library.  Missing from the full statement: other lengths; that it is
    the file that was named on the command line, not another with the same name. *)
Theorem C40_icon_partial : forall pr K w args o name lib r ver lang ns1 ns2 v, Sane w -> CopiesAll w -> Request w args o name lib ->
  package pr K w args = Ok r -> k_code r = 0 ->
  In (B "version", ver) o -> In (B "language", lang) o -> In (B "icon", v) o -> Forall (fun kv => Writable (snd kv)) o -> OneLine name ->
  (forall q d, At (Folder lib) q (Reg d) -> OneLine (slashed q)) ->
  Named (read_of w) o (B "tools") ns1 -> Named (read_of w) o (B "dependencies") ns2 ->
  staging_length <= tmpdir_length w <= staging_length + length name ->
  exists l doc root q, k_archive r = Some (archive_name name, l) /\ In (slashed [name; B ".library"; B "manifest.xml"], doc) l /\
    read_xml doc = Some root /\ IconFile lib v q /\ In (B "icon", [(B "file", slashed q)]) (elements root).
Proof.
  intros pr K w args o name lib r ver lang ns1 ns2 v Sa W Rq H Cd Iv Il Ii Fw On Fl N1 N2 Tm.
  assert (T4 : 4 <= tmpdir_length w <= staging_length + length name) by (unfold staging_length in *; lia).
  destruct (icon_attribute pr K w args o name lib r ver lang ns1 ns2 v Sa W Rq H Cd Iv Il Ii Fw On Fl N1 N2 T4) as (l & doc & root & q & Ea & Im & R & Iq & E).
  exists l, doc, root, q. destruct (Nat.ltb_spec (tmpdir_length w) staging_length) as [X|_]; [lia|]. tauto.
Qed.
Print Assumptions C40_icon_partial.
(** With a shorter path for temporary files, as it is by default ("/tmp"), the path in the manifest
    begins with the name of the library. *)
Theorem C40_prefix_refuted : forall pr K w args o name lib r ver lang ns1 ns2 v, Sane w -> CopiesAll w -> Request w args o name lib ->
  package pr K w args = Ok r -> k_code r = 0 ->
  In (B "version", ver) o -> In (B "language", lang) o -> In (B "icon", v) o -> Forall (fun kv => Writable (snd kv)) o -> OneLine name ->
  (forall q d, At (Folder lib) q (Reg d) -> OneLine (slashed q)) ->
  Named (read_of w) o (B "tools") ns1 -> Named (read_of w) o (B "dependencies") ns2 -> 4 <= tmpdir_length w < staging_length ->
  exists l doc root q, k_archive r = Some (archive_name name, l) /\ In (slashed [name; B ".library"; B "manifest.xml"], doc) l /\
    read_xml doc = Some root /\ IconFile lib v q /\ In (B "icon", [(B "file", name ++ B "/" ++ slashed q)]) (elements root).
Proof.
  intros pr K w args o name lib r ver lang ns1 ns2 v Sa W Rq H Cd Iv Il Ii Fw On Fl N1 N2 Tm.
  assert (T4 : 4 <= tmpdir_length w <= staging_length + length name) by (unfold staging_length in *; lia).
  destruct (icon_attribute pr K w args o name lib r ver lang ns1 ns2 v Sa W Rq H Cd Iv Il Ii Fw On Fl N1 N2 T4) as (l & doc & root & q & Ea & Im & R & Iq & E).
  exists l, doc, root, q. destruct (Nat.ltb_spec (tmpdir_length w) staging_length) as [_|X]; [|lia].
  destruct Iq as (dir & n & d & Eq & Bn & A). rewrite slashed_cons in E by (rewrite Eq; now destruct dir).
  split; [exact Ea|]. split; [exact Im|]. split; [exact R|]. split; [now exists dir, n, d|exact E].
Qed.
Print Assumptions C40_prefix_refuted.
(** If the icon is not in the top directory of the library, and no other file there has its name,
    there is no archive. *)
Theorem C40_subdirectory_refuted : forall pr K w args o name lib r v, Sane w -> ExactCopies w -> Request w args o name lib -> package pr K w args = Ok r ->
  In (B "icon", v) o -> (forall n d, BaseName v n -> ~ At (Folder lib) [n] (Reg d)) -> k_archive r = None /\ 1 <= k_code r.
Proof.
  intros pr K w args o name lib r v Sa X Rq H Ii No. assert (E : k_archive r = None).
  { destruct (k_archive r) as [[z l]|] eqn:Ea; [exfalso|reflexivity].
    destruct (icon_needed pr K w args o name lib r z l v Sa X Rq H Ea Ii) as ((n & d & Bn & A) & _). exact (No n d Bn A). }
  split; [exact E|]. destruct (k_code r) eqn:Ec; [|lia]. destruct (proj1 (code_archive pr K w args o name lib r Rq H) Ec) as (z & l & Ea). congruence.
Qed.
Print Assumptions C40_subdirectory_refuted.
(** If the path for temporary files is too long, there is none either. *)
Theorem C40_long_refuted : forall pr K w args o name lib r v, Sane w -> ExactCopies w -> Request w args o name lib -> package pr K w args = Ok r ->
  In (B "icon", v) o -> (forall q, IconFile lib v q -> staging_length + length name + 1 + length (slashed q) < tmpdir_length w) -> k_archive r = None.
Proof.
  intros pr K w args o name lib r v Sa X Rq H Ii No. destruct (k_archive r) as [[z l]|] eqn:Ea; [exfalso|reflexivity].
  destruct (icon_needed pr K w args o name lib r z l v Sa X Rq H Ea Ii) as (_ & q & Iq & Lq). specialize (No q Iq). lia.
Qed.
Print Assumptions C40_long_refuted.

(** ** Examples for C40 *)

Definition with_tmpdir (d : option bytes) : faults :=
  {| f_copy := f_copy no_faults; f_open := f_open no_faults; f_encrypts := f_encrypts no_faults; f_opendir := f_opendir no_faults;
     f_unlink := f_unlink no_faults; f_tmpdir := d; f_zip_add := f_zip_add no_faults |}.
Definition in_tmpdir (d : option bytes) : packed :=
  match package toy toy_key (machine my_lib (with_tmpdir d)) (pack_args YES ICON) with Ok r => r | _ => {| k_code := 1; k_staging := None; k_archive := None |} end.
Definition mac_tmpdir : bytes := B "/var/folders/zz/zyxvpxvq6csf".
Definition printable (s : bytes) : bool := forallb (fun c => (32 <=? nat_of_ascii c) && (nat_of_ascii c <=? 127)) s.
Lemma my_lib_oneline q d : At (Folder my_lib) q (Reg d) -> OneLine (slashed q).
Proof.
  intros A. apply at_files in A. apply mf_oneline. assert (H : forallb (fun pd => printable (slashed (fst pd))) (files (Folder my_lib)) = true) by (vm_compute; reflexivity).
  rewrite forallb_forall in H. exact (H _ A).
Qed.
Lemma options_writable enc icon : printable enc = true -> printable icon = true -> Forall (fun kv => Writable (snd kv)) (pack_options enc icon).
Proof. intros H1 H2. unfold pack_options. repeat (apply Forall_cons; [cbn [snd]; apply mf_oneline; first [exact H1|exact H2|reflexivity]|]). apply Forall_nil. Qed.
Definition icon_of (r : packed) : option bytes :=
  match k_archive r with
  | Some (_, l) => match find (fun pd => beq (fst pd) (B "MyLib/.library/manifest.xml")) l with
                   | Some pd => match read_xml (snd pd) with
                                | Some root => match find (fun e => beq (fst e) (B "icon")) (elements root) with
                                               | Some (_, [(_, v)]) => Some v
                                               | _ => None
                                               end
                                | None => None
                                end
                   | None => None
                   end
  | None => None
  end.
(** The path is right with a TMPDIR as on Mac OS, wrong with none. *)
Example C40_ex : forall d, In d [Some mac_tmpdir; None] ->
  let w := machine my_lib (with_tmpdir d) in
  Sane w /\ CopiesAll w /\ Request w (pack_args YES ICON) (pack_options YES ICON) (B "MyLib") my_lib /\
  package toy toy_key w (pack_args YES ICON) = Ok (in_tmpdir d) /\ k_code (in_tmpdir d) = 0 /\
  In (B "version", B "1.0") (pack_options YES ICON) /\ In (B "language", B "3.4") (pack_options YES ICON) /\ In (B "icon", ICON) (pack_options YES ICON) /\
  Forall (fun kv => Writable (snd kv)) (pack_options YES ICON) /\ OneLine (B "MyLib") /\
  Named (read_of w) (pack_options YES ICON) (B "tools") [] /\ Named (read_of w) (pack_options YES ICON) (B "dependencies") [] /\
  tmpdir_length w = match d with Some _ => 28 | None => 4 end /\
  icon_of (in_tmpdir d) = Some (match d with Some _ => B "icon.png" | None => B "MyLib/icon.png" end).
Proof.
  intros d Hd w. split; [now apply machine_sane|]. split; [now apply machine_copies|]. split; [now apply pack_request|].
  split; [destruct Hd as [<-|[<-|[]]]; vm_compute; reflexivity|]. split; [destruct Hd as [<-|[<-|[]]]; vm_compute; reflexivity|].
  split; [cbn; tauto|]. split; [cbn; tauto|]. split; [cbn; tauto|]. split; [now apply options_writable|]. split; [now apply mf_oneline|].
  split; [reflexivity|]. split; [reflexivity|]. split; [destruct Hd as [<-|[<-|[]]]; reflexivity|]. destruct Hd as [<-|[<-|[]]]; vm_compute; reflexivity.
Qed.
(** With a longer TMPDIR the program reads outside the path. *)
Theorem C40_overrun_refuted : exists w args o name lib d, Sane w /\ Works w /\ Request w args o name lib /\ w_tmpdir w = Some d /\ length d = 51 /\
  package toy toy_key w args = UB OobRead.
Proof.
  exists (machine my_lib (with_tmpdir (Some (B "/home/u/data/scratch/2024/project-with-a-long-name/")))), (pack_args YES ICON), (pack_options YES ICON), (B "MyLib"), my_lib.
  eexists. split; [now apply machine_sane|]. split; [unfold Works, CopiesAll; cbn; repeat split; discriminate|]. split; [now apply pack_request|].
  split; [reflexivity|]. split; [reflexivity|]. vm_compute. reflexivity.
Qed.
Print Assumptions C40_overrun_refuted.
(** An icon in Resources. *)
Definition LOGO : bytes := B "/home/u/MyLib/Resources/logo.png".
Definition logo_lib : list (bytes * tree) :=
  [(B "package.mo", Reg (B "package MyLib end MyLib;")); (B "Resources", Folder [(B "logo.png", Reg (B "PNG"))])].
Example C40_subdirectory_ex : exists r, Sane (machine logo_lib no_faults) /\ ExactCopies (machine logo_lib no_faults) /\
  Request (machine logo_lib no_faults) (pack_args NO LOGO) (pack_options NO LOGO) (B "MyLib") logo_lib /\
  package toy toy_key (machine logo_lib no_faults) (pack_args NO LOGO) = Ok r /\ k_code r = 4 /\
  (forall n d, BaseName LOGO n -> ~ At (Folder logo_lib) [n] (Reg d)) /\ IconFile logo_lib LOGO [B "Resources"; B "logo.png"].
Proof.
  assert (S0 : Sane (machine logo_lib no_faults)) by now apply machine_sane.
  assert (R0 : Request (machine logo_lib no_faults) (pack_args NO LOGO) (pack_options NO LOGO) (B "MyLib") logo_lib) by now apply pack_request.
  destruct (package toy toy_key (machine logo_lib no_faults) (pack_args NO LOGO)) as [r| |] eqn:E; [|vm_compute in E; discriminate|vm_compute in E; discriminate].
  exists r. split; [exact S0|]. split; [intros f t d; left; reflexivity|]. split; [exact R0|]. split; [reflexivity|].
  split; [vm_compute in E; injection E as <-; reflexivity|]. assert (Bl : BaseName LOGO (B "logo.png")).
  { exists (B "/home/u/MyLib/Resources/"). split; [reflexivity|]. split; [now apply has_byte_false|]. right. now exists (B "/home/u/MyLib/Resources"). }
  split.
  - intros n d Bn A. rewrite (base_name_fun _ _ _ Bn Bl) in A. apply at_files in A. cbn in A. repeat destruct A as [A|A]; try discriminate A; exact A.
  - exists [B "Resources"], (B "logo.png"), (B "PNG"). split; [reflexivity|]. split; [exact Bl|now apply find_path_at].
Qed.

(** ** C54 *)

(** A library is packaged with encryption, the archive is unpacked in some directory.  Every Modelica
    file of a package has an encrypted form in the archive, and decrypting such files, in any order
    and any number of times, gives back the original files.  Missing: libraries that are not [Tidy],
    files outside packages or below an empty package file (C30, C31). *)
Theorem C54_decrypts_partial : forall pr K w args o name lib r base l disk, GoodPrimitives pr -> length K = 32 -> Sane w -> CopiesAll w -> PlainLves w ->
  Request w args o name lib -> encrypted o = true -> Tidy w lib (length base + 1 + length name) -> package pr K w args = Ok r -> k_code r = 0 ->
  k_archive r = Some (archive_name name, l) -> Unpacked base l disk ->
  (forall dir n d, Wanted lib dir n d -> exists out, In (slashed (name :: dir ++ [n ++ B "c"]), out) l) /\
  forall reqs : list request, (forall dir n d out, In (dir, n, d, out) reqs -> Wanted lib dir n d /\ In (slashed (name :: dir ++ [n ++ B "c"]), out) l) ->
  decrypt_all pr K disk (base ++ [SLASH] ++ name) [] (map (fun '(dir, n, _, out) => (slashed (dir ++ [n ++ B "c"]), out)) reqs) = Ok (map (fun '(_, _, d, _) => Some d) reqs).
Proof. exact ship_decrypt. Qed.
Print Assumptions C54_decrypts_partial.

(** The same over a connection: a tool whose key is compiled into the LVE names the directory and gets
    the original files; all its other calls are answered too. *)
Theorem C54_session_partial : forall pr K w args o name lib r base l cfg key kv kl min max p lp cs,
  GoodPrimitives pr -> length K = 32 -> Sane w -> CopiesAll w -> PlainLves w ->
  Request w args o name lib -> encrypted o = true -> Tidy w lib (length base + 1 + length name) ->
  package pr K w args = Ok r -> k_code r = 0 -> k_archive r = Some (archive_name name, l) ->
  In key (cfg_keys cfg) -> (1 <= max)%Z -> LveSpec.Trimmed p lp -> cstr lp = base ++ [SLASH] ++ name ->
  Forall (fun '(k, c) => FairLink k /\ FairCall c) ((kv, Version min max) :: (kl, LibPath p) :: cs) ->
  (forall g, cfg_global cfg = Some g ->
     e_lic_new (k_env kl) (Some (cstr lp)) = Granted /\ e_checkout (k_env kl) g = Granted) ->
  Forall (fun '(k, c) => Serves (k_env k) base l /\ AsksForSource lib c) cs ->
  exists d1 d2 ds s,
    tool_session cfg (Some key)
      (map (fun '(k, c) => (link_with pr K k, c)) ((kv, Version min max) :: (kl, LibPath p) :: cs))
      = Ok (d1 :: d2 :: ds, s, []) /\
    Forall2 (fun '(k, c) d => Answered (k_alloc k) c d /\ SourceDelivered lib c d) cs ds.
Proof. exact ship_session. Qed.
Print Assumptions C54_session_partial.

(** ** Example for C54 *)

Definition my_result : packed := in_tmpdir None.
Definition my_entries : list (bytes * bytes) := match k_archive my_result with Some (_, l) => l | None => [] end.
(** The contents of /opt after unpacking. *)
Definition my_disk (p : bytes) : option bytes :=
  match find (fun pd => beq (B "/opt/" ++ fst pd) p) my_entries with Some pd => Some (snd pd) | None => None end.
Definition tidy_entry (room : nat) (p : list bytes) (d : bytes) : bool :=
  let n := last p [] in
  let dir := removelast p in
  negb (beq n (B "package.moc")) &&
  (forallb (fun c => negb (beq c []) && negb (has_byte SLASH c) && negb (has_byte BSLASH c) && negb (has_byte NUL c)) p &&
   forallb (fun c => negb (caseeq c (B "package.mo")) && negb (caseeq c (B "package.moc"))) dir &&
   (negb (caseeq n (B "package.mo")) || beq n (B "package.mo")) && (zlen d <? 2^31 - 256)%Z && (room + length (slashed p) <=? 4000)).
Lemma tidy_entry_ok room dir n d : tidy_entry room (dir ++ [n]) d = true -> n <> B "package.moc" /\
  (Modelica n -> Forall Name (dir ++ [n]) /\ Forall (fun c => caseeq c (B "package.mo") = false /\ caseeq c (B "package.moc") = false) dir /\
       (caseeq n (B "package.mo") = true -> n = B "package.mo") /\ (zlen d < 2^31 - 256)%Z /\ room + length (slashed (dir ++ [n])) <= 4000).
Proof.
  unfold tidy_entry. rewrite last_last, removelast_last. cbv zeta. intros H. apply andb_prop in H. destruct H as [H1 H]. apply andb_prop in H. destruct H as [H H6].
  apply andb_prop in H. destruct H as [H H5]. apply andb_prop in H. destruct H as [H H4]. apply andb_prop in H. destruct H as [H2 H3]. rewrite forallb_forall in H2, H3.
  split; [intros ->; discriminate|]. intros _. split; [|split; [|split; [|split; [now apply Z.ltb_lt|now apply Nat.leb_le]]]].
  - apply Forall_forall. intros c I. specialize (H2 c I). rewrite !andb_true_iff, !negb_true_iff, !has_byte_false in H2. destruct H2 as (((E & N1) & N2) & N3).
    split; [intros ->; discriminate|]. tauto.
  - apply Forall_forall. intros c I. specialize (H3 c I). now rewrite !andb_true_iff, !negb_true_iff in H3.
  - intros E. rewrite E in H4. cbn [negb orb] in H4. now apply beq_true.
Qed.
Lemma my_lib_tidy : Tidy (machine my_lib (with_tmpdir None)) my_lib (length (B "/opt") + 1 + length (B "MyLib")).
Proof.
  intros dir n d O. remember (dir ++ [n]) as q eqn:Eq. rewrite Eq. destruct O as [q d A|exe m d He Im Hd|exe t p d He Hd A|doc].
  - apply at_files in A. assert (H : forallb (fun pd => tidy_entry 10 (fst pd) (snd pd)) (files (Folder my_lib)) = true) by (vm_compute; reflexivity).
    rewrite forallb_forall in H. specialize (H _ A). cbn [fst snd] in H. rewrite Eq in H. now apply tidy_entry_ok.
  - injection He as <-. apply (app_inj_tail [_] dir) in Eq. destruct Eq as [_ <-]. assert (X : negb (beq m (B "package.moc")) && negb (is_modelica m) = true).
    { cbn [shipped map fst In] in Im. repeat destruct Im as [<-|Im]; try reflexivity. contradiction. }
    apply andb_prop in X. destruct X as [X1 X2]. split; [intros ->; discriminate|]. intros M. apply is_modelica_spec in M. rewrite M in X2. discriminate.
  - injection He as <-. cbn in Hd. injection Hd as <-. apply at_files in A. cbn in A. destruct A as [A|[]]. injection A as <- <-.
    apply (app_inj_tail [_] dir) in Eq. destruct Eq as [_ <-]. split; [discriminate|]. intros M. apply is_modelica_spec in M. discriminate.
  - apply (app_inj_tail [_] dir) in Eq. destruct Eq as [_ <-]. split; [discriminate|]. intros M. apply is_modelica_spec in M. discriminate.
Qed.
Lemma my_archive : k_archive my_result = Some (archive_name (B "MyLib"), my_entries) /\ k_code my_result = 0 /\ NoDup (map fst my_entries).
Proof. split; [vm_compute; reflexivity|]. split; [vm_compute; reflexivity|]. apply distinct_nodup. vm_compute. reflexivity. Qed.
Lemma my_run : package toy toy_key (machine my_lib (with_tmpdir None)) (pack_args YES ICON) = Ok my_result.
Proof. vm_compute. reflexivity. Qed.
Lemma entry_unique (l : list (bytes * bytes)) p d e : NoDup (map fst l) -> In (p, d) l -> In (p, e) l -> d = e.
Proof.
  induction l as [|[q x] l IH]; [intros _ []|]. cbn [map fst]. intros N. inversion N as [|? ? N1 N2]; subst. intros [E|I] [F|J].
  - congruence.
  - exfalso. apply N1. injection E as -> ->. apply in_map_iff. now exists (p, e).
  - exfalso. apply N1. injection F as -> ->. apply in_map_iff. now exists (p, d).
  - now apply IH.
Qed.
Lemma my_unpacked : Unpacked (B "/opt") my_entries my_disk.
Proof.
  destruct my_archive as (_ & _ & Nd). split.
  - intros p d I. unfold my_disk. destruct (find _ _) as [[q e]|] eqn:F.
    + apply find_some in F. destruct F as [I2 E]. cbn [fst] in E. apply beq_true in E. cbn [snd]. assert (q = p) as -> by (apply (app_inv_head (B "/opt/")); exact E).
      f_equal. exact (entry_unique _ _ _ _ Nd I2 I).
    + exfalso. apply (find_none _ _ F) in I. cbn [fst] in I. change (B "/opt" ++ [SLASH] ++ p) with (B "/opt/" ++ p) in I. rewrite beq_refl in I. discriminate I.
  - intros p No. unfold my_disk. destruct (find _ _) as [[q e]|] eqn:F; [exfalso|reflexivity]. apply find_some in F. destruct F as [I2 E]. cbn [fst] in E. apply beq_true in E.
    assert (q = p) as -> by (apply (app_inv_head (B "/opt/")); exact E). exact (No e I2).
Qed.
Lemma my_wanted : Wanted my_lib [B "Sub"] (B "B.MO") (B "within MyLib.Sub; model B end B;") /\ Wanted my_lib [] (B "package.mo") (B "package MyLib end MyLib;").
Proof.
  assert (P : forall dir p, At (Folder my_lib) (dir ++ [B "package.mo"]) (Reg p) -> p <> []).
  { intros dir p A. apply at_files in A. assert (H : forallb (fun pd => negb (beq (snd pd) [])) (files (Folder my_lib)) = true) by (vm_compute; reflexivity).
    rewrite forallb_forall in H. specialize (H _ A). cbn [snd] in H. intros ->. discriminate. }
  split; (split; [now apply find_path_at|]); (split; [intros I; cbn in I; repeat destruct I as [I|I]; try discriminate I; exact I|]);
    (split; [now apply is_modelica_spec|]); (split; [eexists; now apply find_path_at|]); intros a b p E A; right; exact (P a p A).
Qed.
Example C54_ex : exists o1 o2,
  GoodPrimitives toy /\ Sane (machine my_lib (with_tmpdir None)) /\ CopiesAll (machine my_lib (with_tmpdir None)) /\ PlainLves (machine my_lib (with_tmpdir None)) /\
  Request (machine my_lib (with_tmpdir None)) (pack_args YES ICON) (pack_options YES ICON) (B "MyLib") my_lib /\
  Tidy (machine my_lib (with_tmpdir None)) my_lib (length (B "/opt") + 1 + length (B "MyLib")) /\ Unpacked (B "/opt") my_entries my_disk /\
  In (B "MyLib/Sub/B.MOc", o1) my_entries /\ In (B "MyLib/package.moc", o2) my_entries /\
  decrypt_all toy toy_key my_disk (B "/opt/MyLib") [] [(B "Sub/B.MOc", o1); (B "package.moc", o2); (B "Sub/B.MOc", o1)] =
    Ok [Some (B "within MyLib.Sub; model B end B;"); Some (B "package MyLib end MyLib;"); Some (B "within MyLib.Sub; model B end B;")].
Proof.
  assert (S0 : Sane (machine my_lib (with_tmpdir None))) by now apply machine_sane. assert (C0 : CopiesAll (machine my_lib (with_tmpdir None))) by now apply machine_copies.
  assert (R0 : Request (machine my_lib (with_tmpdir None)) (pack_args YES ICON) (pack_options YES ICON) (B "MyLib") my_lib) by now apply pack_request.
  destruct my_archive as (E0 & K0 & _). pose proof (machine_lves my_lib (with_tmpdir None)) as L0.
  destruct (C54_decrypts_partial toy toy_key _ _ _ _ _ _ (B "/opt") _ my_disk toy_good eq_refl S0 C0 L0 R0 eq_refl my_lib_tidy my_run K0 E0 my_unpacked) as [H1 H2].
  destruct my_wanted as [W1 W2]. destruct (H1 _ _ _ W1) as (o1 & I1). destruct (H1 _ _ _ W2) as (o2 & I2). exists o1, o2.
  split; [exact toy_good|]. split; [exact S0|]. split; [exact C0|]. split; [exact L0|]. split; [exact R0|]. split; [exact my_lib_tidy|]. split; [exact my_unpacked|].
  split; [exact I1|]. split; [exact I2|].
  apply (H2 [([B "Sub"], B "B.MO", B "within MyLib.Sub; model B end B;", o1); ([], B "package.mo", B "package MyLib end MyLib;", o2); ([B "Sub"], B "B.MO", B "within MyLib.Sub; model B end B;", o1)]).
  intros dir n d out [E|[E|[E|[]]]]; injection E as <- <- <- <-; (split; [assumption|]); assumption.
Qed.

(** A session on /opt/MyLib. *)
Definition opt_world : env unit :=
  {| e_alloc := fun _ => true; e_cr_create := fun _ => Some tt; e_decrypt := fun d _ _ => Ok (d, None);
     e_lic_new := fun _ => Granted; e_checkout := fun _ => Granted; e_checkin := fun _ => Granted;
     e_stat := e_stat LveProps.world;
     e_file := fun p => match my_disk p with Some o => Content (zlen o) o None | None => NoOpen (B "No such file or directory") end |}.
Definition opt_link : link unit := {| k_env := opt_world; k_alloc := fun _ => true; k_cut := tls_records |}.
Lemma opt_fair : FairLink opt_link.
Proof.
  split; [|split; [intros n; reflexivity|exact tls_fair]].
  split; [intros n; reflexivity|]. split; [discriminate|]. split.
  { intros d p f. exists d, None. split; [reflexivity|discriminate]. }
  split; [intros p; exact I|]. split; [intros p; exact I|]. split; [intros p; exact I|].
  intros p. cbn [opt_link k_env opt_world e_file]. unfold my_disk. destruct (find _ _) as [[q o]|] eqn:E; [|exact I]. cbn [snd].
  apply find_some in E. destruct E as [E _]. assert (H : forallb (fun pd => (zlen (snd pd) <? 2^60)%Z) my_entries = true) by (vm_compute; reflexivity).
  rewrite forallb_forall in H. apply Z.ltb_lt. exact (H _ E).
Qed.
Lemma opt_serves : Serves opt_world (B "/opt") my_entries.
Proof.
  destruct my_unpacked as [U1 U2]. split.
  - intros p d I. exists None. cbn [opt_world e_file]. rewrite (U1 p d I). reflexivity.
  - intros p No. eexists. cbn [opt_world e_file]. rewrite (U2 p No). reflexivity.
Qed.
Definition opt_calls : list (link unit * call) := map (pair opt_link) [File (B "Sub/B.MOc"); Feature (B "gold"); File (B "package.moc"); File (B "Resources/data.txt")].
Example C54_session_ex :
  Forall (fun '(k, c) => Serves (k_env k) (B "/opt") my_entries /\ AsksForSource my_lib c) opt_calls /\
  Forall (fun '(k, c) => FairLink k /\ FairCall c) ((opt_link, Version 1 1) :: (opt_link, LibPath (B "/opt/MyLib/")) :: opt_calls) /\
  LveSpec.Trimmed (B "/opt/MyLib/") (B "/opt/MyLib") /\
  (do (ds, _, q) <- tool_session vendor (Some (B "key2"))
     (map (fun '(k, c) => (link_with toy toy_key k, c)) ((opt_link, Version 1 1) :: (opt_link, LibPath (B "/opt/MyLib/")) :: opt_calls)) ;
   Ok (map (fun d => match d_result d with Some (Contents h) => fc_cell h | _ => None end) ds, q)) =
  Ok ([None; None; Some (B "within MyLib.Sub; model B end B;"); None; Some (B "package MyLib end MyLib;"); Some (B "1 2 3")], []).
Proof.
  destruct my_wanted as [W1 W2]. split; [|split; [|split; [|vm_compute; reflexivity]]].
  - unfold opt_calls. cbn [map]. repeat (apply Forall_cons; [split; [exact opt_serves|]|]); try apply Forall_nil.
    + intros p [= <-] _. now exists [B "Sub"], (B "B.MO"), (B "within MyLib.Sub; model B end B;").
    + discriminate.
    + intros p [= <-] _. now exists [], (B "package.mo"), (B "package MyLib end MyLib;").
    + intros p [= <-] M. apply LveSteps.is_moc_spec in M. vm_compute in M. discriminate.
  - unfold opt_calls. cbn [map]. repeat (apply Forall_cons; [split; [exact opt_fair|]|]); try apply Forall_nil;
      cbn [FairCall]; try (vm_compute; discriminate); split; vm_compute; discriminate.
  - exists (B "/"). split; [reflexivity|]. split; [intros c [<-|[]]; left; reflexivity|]. split; [discriminate|]. right. intros l c E.
    change (B "/opt/MyLib") with (B "/opt/MyLi" ++ B "b") in E. apply app_inj_tail in E. destruct E as [_ <-]. split; discriminate.
Qed.

(** ** C55 *)

(** The manifest in the archive is well-formed XML in UTF-8 and says what the command line said; the
    executables it lists are in the archive.  The path of the icon is that of C40.  Missing: values
    that XML cannot hold (C35), other lengths of TMPDIR (C40). *)
Theorem C55_manifest_partial : forall pr K w args o name lib r ver lang ns1 ns2, Sane w -> CopiesAll w -> Request w args o name lib ->
  package pr K w args = Ok r -> k_code r = 0 ->
  In (B "version", ver) o -> In (B "language", lang) o -> Forall (fun kv => Writable (snd kv)) o -> (forall q d, At (Folder lib) q (Reg d) -> Writable (slashed q)) ->
  Named (read_of w) o (B "tools") ns1 -> Named (read_of w) o (B "dependencies") ns2 -> 4 <= tmpdir_length w <= staging_length + length name ->
  exists l doc root icon, k_archive r = Some (archive_name name, l) /\ In (slashed [name; B ".library"; B "manifest.xml"], doc) l /\ XmlText doc /\ read_xml doc = Some root /\
    Says root (manifest_shape (map attribute_char) name (option_of o) ver lang (if encrypted o then Some (beside w) else None) icon (ns1 ++ ns2)) /\
    (encrypted o = true -> forall f pf, In (f, pf) (beside w) -> exists d, In (slashed [name; B ".library"; f], d) l) /\
    match option_of o (B "icon") with
    | None => icon = None
    | Some v => exists q, IconFile lib v q /\ icon = Some (if tmpdir_length w <? staging_length then slashed (name :: q) else slashed q)
    end.
Proof. exact manifest_packed. Qed.
Print Assumptions C55_manifest_partial.
Example C55_ex : exists l doc root, k_archive my_result = Some (B "MyLib.mol", l) /\ In (B "MyLib/.library/manifest.xml", doc) l /\ read_xml doc = Some root /\
  map fst (executables (elements root)) = [B "executable"; B "executable"] /\ In (B "library", [(B "id", B "MyLib")]) (elements root) /\
  beside (machine my_lib (with_tmpdir None)) = [(B "lve_win64.exe", B "win64"); (B "lve_linux64", B "linux64")].
Proof.
  destruct my_archive as (E0 & K0 & _). exists my_entries.
  destruct (find (fun pd => beq (fst pd) (B "MyLib/.library/manifest.xml")) my_entries) as [[q doc]|] eqn:F; [|vm_compute in F; discriminate].
  exists doc. pose proof (find_some _ _ F) as [I E]. cbn [fst] in E. apply beq_true in E. subst q. vm_compute in F. injection F as <-.
  eexists. split; [exact E0|]. split; [exact I|]. split; [vm_compute; reflexivity|]. split; [vm_compute; reflexivity|]. split; [|vm_compute; reflexivity].
  cbn. tauto.
Qed.
