(** C54, C55: where an archive does not give back what went into it. *)
From Coq Require Import Permutation.
From Verif Require Import Base BaseProofs ParseModel WireModel CryptModel CryptSpec CbcProofs CryptProps ArgsModel ArgsSpec ArgsProofs XmlSpec ManifestModel ManifestSpec ManifestProofs ArgsProps ManifestProps
  PackageModel PackageSpec TreeProofs PackageProofs IconProofs ShipProofs PackageExamples ShipProps.

(** ** C54 *)

(** In a package whose package file is empty, the first request for another file fails in every unpacked archive; the same
    request succeeds when it is made again.  The last hypothesis says that the encrypted file does not happen to be
    authentic under the bare product key. *)
Theorem C54_empty_refuted : forall pr K w args o name lib r base l disk dir n d out, GoodPrimitives pr -> length K = 32 -> Sane w -> CopiesAll w -> PlainLves w ->
  Request w args o name lib -> encrypted o = true -> Tidy w lib (length base + 1 + length name) -> package pr K w args = Ok r -> k_code r = 0 ->
  k_archive r = Some (archive_name name, l) -> Unpacked base l disk ->
  At (Folder lib) (dir ++ [n]) (Reg d) -> ~ In (B ".library") dir -> Modelica n -> n <> B "package.mo" ->
  At (Folder lib) (dir ++ [B "package.mo"]) (Reg []) ->
  (forall a b p, dir = a ++ b -> At (Folder lib) (a ++ [B "package.mo"]) (Reg p) -> b = [] \/ p <> []) ->
  In (slashed (name :: dir ++ [n ++ B "c"]), out) l -> (forall data, ~ Authentic pr K out data) ->
  decrypt_all pr K disk (base ++ [SLASH] ++ name) [] [(slashed (dir ++ [n ++ B "c"]), out); (slashed (dir ++ [n ++ B "c"]), out)] = Ok [None; Some d].
Proof. exact ship_empty. Qed.
Print Assumptions C54_empty_refuted.

(** A library whose package Sub has an empty package file. *)
Definition bare_lib : list (bytes * tree) :=
  [(B "icon.png", Reg (B "PNG")); (B "Sub", Folder [(B "B.mo", Reg (B "within MyLib.Sub; model B end B;")); (B "package.mo", Reg [])]);
   (B "package.mo", Reg (B "package MyLib end MyLib;"))].
Definition bare_world : world := machine bare_lib (with_tmpdir None).
Definition bare_result : packed := match package toy toy_key bare_world (pack_args YES ICON) with Ok r => r | _ => {| k_code := 1; k_staging := None; k_archive := None |} end.
Definition bare_entries : list (bytes * bytes) := match k_archive bare_result with Some (_, l) => l | None => [] end.
Definition bare_out : bytes := match find (fun pd => beq (fst pd) (B "MyLib/Sub/B.moc")) bare_entries with Some (_, d) => d | None => [] end.
Definition bare_disk (p : bytes) : option bytes :=
  match find (fun pd => beq (B "/opt/" ++ fst pd) p) bare_entries with Some pd => Some (snd pd) | None => None end.
Lemma bare_tidy : Tidy bare_world bare_lib (length (B "/opt") + 1 + length (B "MyLib")).
Proof.
  intros dir n d O. remember (dir ++ [n]) as q eqn:Eq. rewrite Eq. destruct O as [q d A|exe m d He Im Hd|exe t p d He Hd A|doc].
  - apply at_files in A. assert (H : forallb (fun pd => tidy_entry 10 (fst pd) (snd pd)) (files (Folder bare_lib)) = true) by (vm_compute; reflexivity).
    rewrite forallb_forall in H. specialize (H _ A). cbn [fst snd] in H. rewrite Eq in H. now apply tidy_entry_ok.
  - injection He as <-. apply (app_inj_tail [_] dir) in Eq. destruct Eq as [_ <-]. assert (X : negb (beq m (B "package.moc")) && negb (is_modelica m) = true).
    { cbn [shipped map fst In] in Im. repeat destruct Im as [<-|Im]; try reflexivity. contradiction. }
    apply andb_prop in X. destruct X as [X1 X2]. split; [intros ->; discriminate|]. intros M. apply is_modelica_spec in M. rewrite M in X2. discriminate.
  - injection He as <-. cbn in Hd. injection Hd as <-. apply at_files in A. cbn in A. destruct A as [A|[]]. injection A as <- <-.
    apply (app_inj_tail [_] dir) in Eq. destruct Eq as [_ <-]. split; [discriminate|]. intros M. apply is_modelica_spec in M. discriminate.
  - apply (app_inj_tail [_] dir) in Eq. destruct Eq as [_ <-]. split; [discriminate|]. intros M. apply is_modelica_spec in M. discriminate.
Qed.
Lemma bare_unpacked : Unpacked (B "/opt") bare_entries bare_disk.
Proof.
  assert (Nd : NoDup (map fst bare_entries)) by (apply distinct_nodup; vm_compute; reflexivity). split.
  - intros p d I. unfold bare_disk. destruct (find _ _) as [[q e]|] eqn:F.
    + apply find_some in F. destruct F as [I2 E]. cbn [fst] in E. apply beq_true in E. cbn [snd]. assert (q = p) as -> by (apply (app_inv_head (B "/opt/")); exact E).
      f_equal. exact (entry_unique _ _ _ _ Nd I2 I).
    + exfalso. apply (find_none _ _ F) in I. cbn [fst] in I. change (B "/opt" ++ [SLASH] ++ p) with (B "/opt/" ++ p) in I. rewrite beq_refl in I. discriminate I.
  - intros p No. unfold bare_disk. destruct (find _ _) as [[q e]|] eqn:F; [exfalso|reflexivity]. apply find_some in F. destruct F as [I2 E]. cbn [fst] in E. apply beq_true in E.
    assert (q = p) as -> by (apply (app_inv_head (B "/opt/")); exact E). exact (No e I2).
Qed.
Example C54_empty_ex :
  Sane bare_world /\ CopiesAll bare_world /\ PlainLves bare_world /\
  Request bare_world (pack_args YES ICON) (pack_options YES ICON) (B "MyLib") bare_lib /\ Tidy bare_world bare_lib (length (B "/opt") + 1 + length (B "MyLib")) /\
  package toy toy_key bare_world (pack_args YES ICON) = Ok bare_result /\ k_code bare_result = 0 /\ Unpacked (B "/opt") bare_entries bare_disk /\
  In (B "MyLib/Sub/B.moc", bare_out) bare_entries /\ (forall data, ~ Authentic toy toy_key bare_out data) /\
  decrypt_all toy toy_key bare_disk (B "/opt/MyLib") [] [(B "Sub/B.moc", bare_out); (B "Sub/B.moc", bare_out)] = Ok [None; Some (B "within MyLib.Sub; model B end B;")].
Proof.
  assert (S0 : Sane bare_world) by now apply machine_sane. assert (C0 : CopiesAll bare_world) by now apply machine_copies.
  assert (R0 : Request bare_world (pack_args YES ICON) (pack_options YES ICON) (B "MyLib") bare_lib) by now apply pack_request.
  pose proof (machine_lves bare_lib (with_tmpdir None)) as L0.
  assert (K0 : package toy toy_key bare_world (pack_args YES ICON) = Ok bare_result) by (vm_compute; reflexivity).
  assert (Ea : k_archive bare_result = Some (archive_name (B "MyLib"), bare_entries)) by (vm_compute; reflexivity).
  assert (Io : In (B "MyLib/Sub/B.moc", bare_out) bare_entries).
  { unfold bare_out. destruct (find _ bare_entries) as [[q x]|] eqn:F; [|vm_compute in F; discriminate]. apply find_some in F. destruct F as [I E]. cbn [fst] in E. apply beq_true in E. now subst q. }
  assert (Na : forall data, ~ Authentic toy toy_key bare_out data).
  { intros data A. apply (authentic_mac toy _ _ _ toy_good) in A. apply (f_equal (fun l => nth 0 l NUL)) in A. vm_compute in A. discriminate A. }
  split; [exact S0|]. split; [exact C0|]. split; [exact L0|]. split; [exact R0|]. split; [exact bare_tidy|]. split; [exact K0|]. split; [vm_compute; reflexivity|].
  split; [exact bare_unpacked|]. split; [exact Io|]. split; [exact Na|].
  apply (C54_empty_refuted toy toy_key bare_world _ _ (B "MyLib") bare_lib bare_result (B "/opt") bare_entries bare_disk [B "Sub"] (B "B.mo") _ bare_out
    toy_good eq_refl S0 C0 L0 R0 eq_refl bare_tidy K0 ltac:(vm_compute; reflexivity) Ea bare_unpacked); try assumption.
  - now apply find_path_at.
  - intros [I|[]]; discriminate I.
  - now apply is_modelica_spec.
  - discriminate.
  - now apply find_path_at.
  - intros a b p E A. destruct b as [|c b]; [now left|right]. destruct a as [|x a].
    + apply at_files in A. cbn in A. destruct A as [A|[A|[A|[A|[]]]]]; try discriminate A. injection A as <-. discriminate.
    + destruct a; discriminate E.
Qed.

(** ** C55 *)

(** If a value on the command line has a control character, packaging succeeds with a manifest that is not XML. *)
Theorem C55_control_refuted : forall pr K w args o name lib r key v c, Sane w -> Request w args o name lib ->
  package pr K w args = Ok r -> k_code r = 0 -> In (key, v) o -> In key written -> In c v -> control c ->
  exists l doc, k_archive r = Some (archive_name name, l) /\ In (slashed [name; B ".library"; B "manifest.xml"], doc) l /\ ~ XmlText doc.
Proof.
  intros pr K w args o name lib r key v c Sa Rq H Cd Io Ik Ic Hc. destruct (proj1 (code_archive _ _ _ _ _ _ _ _ Rq H) Cd) as (z & l & Ea).
  destruct (archive_inv _ _ _ _ _ _ _ _ _ _ Sa Rq H Ea) as (-> & _). exists l.
  destruct (dot_packed _ _ _ _ _ _ _ _ _ Sa Rq H Cd Ea) as (t & p & st & doc & lib1 & dot2 & L & Sl & D & St & Dp). exists doc.
  split; [exact Ea|]. split; [apply Dp; [apply set_entry_new|reflexivity|discriminate]|].
  destruct St as (_ & _ & _ & _ & _ & (lves & dot1 & _ & _ & icon & _ & Cm) & _). destruct Sl as (V & C & _).
  exact (C35_control_refuted _ _ _ _ _ _ _ _ _ _ _ _ _ _ V C Io Ik Ic Hc Cm).
Qed.
Print Assumptions C55_control_refuted.
Definition bell_args : list bytes := pack_args YES ICON ++ [B "-title"; B "My" ++ [ch 7]].
Example C55_control_ex : exists o r,
  Sane (machine my_lib (with_tmpdir None)) /\ Request (machine my_lib (with_tmpdir None)) bell_args o (B "MyLib") my_lib /\
  package toy toy_key (machine my_lib (with_tmpdir None)) bell_args = Ok r /\ k_code r = 0 /\ In (B "title", B "My" ++ [ch 7]) o /\ control (ch 7).
Proof.
  exists (pack_options YES ICON ++ [(B "title", B "My" ++ [ch 7])]). eexists. split; [now apply machine_sane|]. split; [|split; [vm_compute; reflexivity|]].
  - split; [|split; [|split]].
    + apply dash_any. assert (Kn : forall k, lookup_argument k = true -> KnownOption k) by (intros k; apply valid_known).
      unfold bell_args, pack_args, pack_options. cbn [app].
      repeat (apply CL_cons; [reflexivity|apply Kn; reflexivity|discriminate|cbn [map fst In]; intros H; repeat destruct H as [H|H]; try discriminate H; exact H|]).
      apply CL_nil.
    + intros I. cbn [bell_args pack_args app In] in I. repeat destruct I as [I|I]; try discriminate I; exact I.
    + intros I. cbn [bell_args pack_args app In] in I. repeat destruct I as [I|I]; try discriminate I; exact I.
    + destruct (pack_request my_lib (with_tmpdir None) YES ICON ltac:(discriminate) ltac:(discriminate) ltac:(discriminate) ltac:(discriminate) ltac:(discriminate) ltac:(discriminate))
        as (_ & _ & _ & p & p' & I & X). exists p, p'. split; [apply in_or_app; now left|exact X].
  - split; [vm_compute; reflexivity|]. split; [cbn; tauto|]. split; [apply Nat.ltb_lt; reflexivity|]. split; [discriminate|split; discriminate].
Qed.
