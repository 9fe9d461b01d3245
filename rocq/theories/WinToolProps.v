(** C96, C97: packaging on Windows from the command line to the archive. *)
From Coq Require Import Permutation.
From Verif Require Import Base BaseProofs ArgsModel ArgsSpec ArgsProofs ArgsProps XmlSpec ManifestModel ManifestSpec ManifestProofs ManifestProps WireModel CryptModel CryptSpec CryptProps
  MaskProofs PackageModel PackageSpec TreeProofs CopyProofs EncProofs PackageProofs LostProofs ShipProofs PackageExamples ShipProps PackCopyModel PackCopyProps WinPackModel WinPackSpec WinPackProofs WinEncProofs
  WinPackProps WinToolModel WinToolSpec WinToolProofs.

(** ** A system for the examples *)

Definition win_disk (lib : list (bytes * tree)) : list (bytes * tree) :=
  [(B "C:\Lib\MyLib", Folder lib); (B "C:\Lib\MyLib\icon.png", Reg (B "PNG"));
   (B "C:\pt/LVE/lve_win64.exe", Reg (B "MZ")); (B "C:\pt/.library", Folder [(B "notes.txt", Reg (B "notes"))])].
Definition win_machine (lib : list (bytes * tree)) : world := {|
  w_disk := fun p => lookup (win_disk lib) p; w_readable := fun _ => true; w_opendir := fun _ _ => true; w_mkdir := fun _ => true;
  w_copy := fun _ _ d => (Some d, true); w_exe := Some (B "C:\pt"); w_staging := None; w_tmpdir := None;
  w_order := fun p es => match p with Encrypting => rev es | _ => es end; w_manifest := true; w_open := fun _ => true;
  w_iv := fun rel => repeat (ch (length rel)) 16; w_mask := fun rel => repeat (ch (length rel + 50)) 32; w_encrypts := fun _ => true;
  w_zip_open := true; w_zip_add := fun _ => true; w_unlink := fun _ => true; w_rmdir := fun _ => true |}.
Definition win_tool (lib : list (bytes * tree)) (temp : option bytes) (old : list (bytes * bytes)) (removed : bool) : windows := {|
  v_sys := win_machine lib; v_calls := well; v_temp_path := Some (B "C:\Temp\"); v_mktemp := fun _ => Some (B "C:\Temp\semlaa01234");
  v_there := None; v_temp := temp; v_old := old; v_removed := removed |}.
Definition TEMP : option bytes := Some (B "C:\Temp").
Definition win_options (enc : bytes) : list (bytes * bytes) :=
  [(B "librarypath", B "C:\Lib\MyLib\"); (B "version", B "1.0"); (B "language", B "3.4"); (B "encrypt", enc)].
Definition win_args (enc : bytes) : list bytes := [B "-librarypath"; B "C:\Lib\MyLib\"; B "-version"; B "1.0"; B "-language"; B "3.4"; B "-encrypt"; enc].
Definition WIN_ICON : bytes := B "C:\Lib\MyLib\icon.png".
Definition with_icon (o : list (bytes * bytes)) : list (bytes * bytes) := o ++ [(B "icon", WIN_ICON)].
Definition icon_args (args : list bytes) : list bytes := args ++ [B "-icon"; WIN_ICON].

Definition win_lib_ok (lib : list (bytes * tree)) : bool := proper_ok (Folder lib) && win_ok (Folder lib) && spelt_ok (Folder lib) && small (Folder lib).
Lemma win_tool_sane lib temp old rm : win_lib_ok lib = true -> WinSane (win_tool lib temp old rm) /\ WinCopies (win_tool lib temp old rm) /\
  PlainLves (win_machine lib) /\ AllSpelt (win_tool lib temp old rm) lib /\ (forall q, w_opendir (win_machine lib) Searching q = true).
Proof.
  unfold win_lib_ok. rewrite !andb_true_iff. intros (((P & W) & Sp) & Sm).
  assert (Dk : forall p t, w_disk (win_machine lib) p = Some t -> proper_ok t = true /\ win_ok t = true /\ small t = true).
  { intros p t H. apply lookup_in in H. unfold win_disk in H. cbn [In] in H. repeat destruct H as [H|H]; try contradiction; injection H as _ <-; now repeat split. }
  split; [split; [|split]|split; [split; [|split]|split; [|split; [split|]]]].
  - intros k es. cbn [win_tool v_sys win_machine w_order]. destruct k; try apply same_refl. apply same_rev.
  - intros p t H. destruct (Dk p t H) as (H1 & H2 & _). split; [now apply proper_check|now apply win_check].
  - intros r. cbn [win_tool v_sys win_machine w_iv w_mask]. now rewrite !repeat_length.
  - unfold CopiesAll. cbn. now repeat split.
  - reflexivity.
  - intros p t q d H A. destruct (Dk p t H) as (_ & _ & H3). exact (well_fine t H3 _ q d A).
  - intros exe n x [= <-] I H. apply lookup_in in H. unfold win_disk in H. cbn [In] in H.
    destruct x as [d|es|]; [now exists d| |]; exfalso; repeat destruct H as [H|H]; try contradiction; try discriminate H; injection H as E <-;
      cbn [shipped map fst In] in I; repeat destruct I as [<-|I]; try discriminate E; contradiction.
  - now apply spelt_check.
  - intros exe t [= <-] H. apply spelt_check. apply lookup_in in H. unfold win_disk in H. cbn [In] in H.
    repeat destruct H as [H|H]; try contradiction; try discriminate H; pose proof (f_equal snd H) as E; cbn [snd] in E; subst t; try discriminate H; reflexivity.
  - reflexivity.
Qed.
Lemma win_command enc icon : enc <> [] -> CommandLine AnyByte (if icon : bool then icon_args (win_args enc) else win_args enc) (if icon then with_icon (win_options enc) else win_options enc).
Proof.
  intros N1. assert (K : forall k, lookup_argument k = true -> KnownOption k) by (intros k; apply valid_known).
  destruct icon; apply dash_any; unfold icon_args, with_icon, win_args, win_options; cbn [app].
  all: repeat (apply CL_cons; [reflexivity|apply K; reflexivity|first [discriminate|assumption]|cbn [map fst In]; intros H; repeat destruct H as [H|H]; try discriminate H; exact H|]).
  all: apply CL_nil.
Qed.
Lemma win_request lib temp old rm enc icon : In enc [YES; NO] ->
  WinRequest (win_tool lib temp old rm) (if icon : bool then icon_args (win_args enc) else win_args enc) (if icon then with_icon (win_options enc) else win_options enc) (B "MyLib") lib.
Proof.
  intros He. split; [apply win_command; destruct He as [<-|[<-|[]]]; discriminate|]. split; [|split].
  - destruct He as [<-|[<-|[]]]; destruct icon; cbn [icon_args win_args app In]; intros I; repeat destruct I as [I|I]; try discriminate I; exact I.
  - destruct He as [<-|[<-|[]]]; destruct icon; cbn [icon_args win_args app In]; intros I; repeat destruct I as [I|I]; try discriminate I; exact I.
  - exists (B "C:\Lib\MyLib\"), (B "C:\Lib\MyLib"). split; [destruct icon; now left|]. split; [|split; [|reflexivity]].
    + exists [BSLASH]. split; [reflexivity|]. split; [apply Forall_cons; [now right|apply Forall_nil]|]. left. exists (B "C:\Lib\MyLi"), (ch 98). split; [reflexivity|split; discriminate].
    + exists (B "C:\Lib\"). split; [reflexivity|]. split; [apply check_filename; reflexivity|]. split; [|right; exists (B "C:\Lib"), BSLASH; split; [reflexivity|now right]].
      intros I. cbn in I. repeat destruct I as [I|I]; try discriminate I; exact I.
Qed.
Definition win_result (v : windows) (args : list bytes) : packed :=
  match package_win toy toy_key v args with Ok r => r | _ => {| k_code := 1; k_staging := None; k_archive := None |} end.

(** ** C96 *)

(** If packaging with encryption reports success, then the archive, unpacked anywhere, gives back every file of a package when its LVE
    decrypts the files, in any order. *)
Theorem C96_decrypts_partial : forall pr K v args o name lib r base l disk, GoodPrimitives pr -> length K = 32 -> WinSane v -> WinCopies v -> PlainLves (v_sys v) ->
  AllSpelt v lib -> WinRequest v args o name lib -> encrypted o = true -> Tidy (v_sys v) lib (length base + 1 + length name) -> v_removed v = true \/ v_old v = [] ->
  package_win pr K v args = Ok r -> k_code r = 0 -> k_archive r = Some (archive_name name, l) -> Unpacked base l disk ->
  (forall dir n d, Wanted lib dir n d -> exists out, In (slashed (name :: dir ++ [n ++ B "c"]), out) l) /\
  forall reqs : list (list bytes * bytes * bytes * bytes),
    (forall dir n d out, In (dir, n, d, out) reqs -> Wanted lib dir n d /\ In (slashed (name :: dir ++ [n ++ B "c"]), out) l) ->
    decrypt_all pr K disk (base ++ B "/" ++ name) [] (map (fun '(dir, n, _, out) => (slashed (dir ++ [n ++ B "c"]), out)) reqs) = Ok (map (fun '(_, _, d, _) => Some d) reqs).
Proof.
  intros pr K v args o name lib r base l disk G LK Sa W Pl Sp Rq En Td Old H Cd Ea U.
  destruct (built_win _ _ _ _ _ _ _ _ _ Sa W Pl Sp Rq En H Cd Ea) as (l' & El & Bu).
  assert (l = l') as -> by (destruct Old as [E|E]; rewrite E in El; [exact El|now destruct (v_removed v)]).
  apply (shipped_decrypt pr K name lib base l' disk G LK); [|exact U].
  apply (built_library pr K (slashing (v_sys v)) name lib (length base) l' G); [intros x; apply Sa|apply W| |exact Bu].
  intros dir n d O. apply (Td dir n d). now apply origin_slashing.
Qed.
Print Assumptions C96_decrypts_partial.
(** Files of the library only; in an archive of an encrypted library no Modelica files, their encryptions instead. *)
Theorem C96_contents_partial : forall pr K v args o name lib r z l, GoodPrimitives pr -> length K = 32 -> WinSane v -> WinCopies v -> PlainLves (v_sys v) -> AllSpelt v lib ->
  WinRequest v args o name lib -> package_win pr K v args = Ok r -> k_archive r = Some (z, l) ->
  z = archive_name name /\
  forall e d, In (e, d) l -> (v_removed v = false /\ In (e, d) (v_old v)) \/ exists q, e = slashed (name :: q) /\
    ((Origin (v_sys v) lib q d /\ (encrypted o = true -> ~ Modelica e)) \/
     (encrypted o = true /\ exists dir n src, q = dir ++ [n ++ B "c"] /\ Modelica n /\ Origin (v_sys v) lib (dir ++ [n]) src /\
        Concealed pr (w_iv (v_sys v) (backslashed (dir ++ [n]))) (w_mask (v_sys v) (backslashed (dir ++ [n]))) src d)).
Proof. exact contents_win. Qed.
Print Assumptions C96_contents_partial.
(** If packaging reports success, there is an archive and nothing is missing from it. *)
Theorem C96_complete_partial : forall pr K v args o name lib r, WinSane v -> WinCopies v -> PlainLves (v_sys v) -> AllSpelt v lib -> WinRequest v args o name lib ->
  package_win pr K v args = Ok r -> k_code r = 0 ->
  exists l, k_archive r = Some (archive_name name, l) /\
  forall dir n d, At (Folder lib) (dir ++ [n]) (Reg d) -> ~ In (B ".library") (dir ++ [n]) ->
    (encrypted o = false -> In (slashed (name :: dir ++ [n]), d) l) /\
    (encrypted o = true -> ~ Modelica n -> (forall m e, n = m ++ B "c" -> Modelica m -> ~ At (Folder lib) (dir ++ [m]) (Reg e)) ->
       In (slashed (name :: dir ++ [n]), d) l) /\
    (encrypted o = true -> Modelica n -> Forall (fun c => caseeq c (B "package.mo") = false) dir ->
       exists out, In (slashed (name :: dir ++ [n ++ B "c"]), out) l /\
         (GoodPrimitives pr -> length K = 32 -> Concealed pr (w_iv (v_sys v) (backslashed (dir ++ [n]))) (w_mask (v_sys v) (backslashed (dir ++ [n]))) d out)).
Proof. exact complete_archive_win. Qed.
Print Assumptions C96_complete_partial.
Definition win_yes : packed := Eval vm_compute in win_result (win_tool my_lib TEMP [] true) (win_args YES).
Definition win_no : packed := Eval vm_compute in win_result (win_tool my_lib TEMP [] true) (win_args NO).
Definition entries_of (r : packed) : list (bytes * bytes) := match k_archive r with Some (_, l) => l | None => [] end.
Example C96_ex : win_lib_ok my_lib = true /\ encrypted (win_options YES) = true /\ encrypted (win_options NO) = false /\
  package_win toy toy_key (win_tool my_lib TEMP [] true) (win_args YES) = Ok win_yes /\ package_win toy toy_key (win_tool my_lib TEMP [] true) (win_args NO) = Ok win_no /\
  k_code win_yes = 0 /\ k_code win_no = 0 /\ k_archive win_yes = Some (B "MyLib.mol", entries_of win_yes) /\ NoDup (map fst (entries_of win_yes)) /\
  map fst (entries_of win_yes) = [B "MyLib/.library/lve_win64.exe"; B "MyLib/.library/notes.txt"; B "MyLib/.library/manifest.xml"; B "MyLib/Resources/data.txt";
    B "MyLib/Sub/package.moc"; B "MyLib/Sub/B.MOc"; B "MyLib/icon.png"; B "MyLib/package.moc"; B "MyLib/A.moc"] /\
  map fst (entries_of win_no) = [B "MyLib/A.mo"; B "MyLib/icon.png"; B "MyLib/Sub/B.MO"; B "MyLib/Sub/package.mo"; B "MyLib/package.mo"; B "MyLib/Resources/data.txt";
    B "MyLib/.library/notes.txt"; B "MyLib/.library/manifest.xml"].
Proof.
  do 3 (split; [reflexivity|]). split; [vm_compute; reflexivity|]. split; [vm_compute; reflexivity|]. do 3 (split; [vm_compute; reflexivity|]).
  split; [apply distinct_nodup; vm_compute; reflexivity|]. split; vm_compute; reflexivity.
Qed.
(** The contents of /opt after unpacking. *)
Definition opt_disk (l : list (bytes * bytes)) (p : bytes) : option bytes :=
  match find (fun pd => beq (B "/opt/" ++ fst pd) p) l with Some pd => Some (snd pd) | None => None end.
Lemma opt_unpacked l : NoDup (map fst l) -> Unpacked (B "/opt") l (opt_disk l).
Proof.
  intros Nd. split.
  - intros p d I. unfold opt_disk. destruct (find _ _) as [[q e]|] eqn:F.
    + apply find_some in F. destruct F as [I2 E]. cbn [fst] in E. apply beq_true in E. cbn [snd]. assert (q = p) as -> by (apply (app_inv_head (B "/opt/")); exact E).
      f_equal. exact (entry_unique _ _ _ _ Nd I2 I).
    + exfalso. apply (find_none _ _ F) in I. cbn [fst] in I. change (B "/opt" ++ [SLASH] ++ p) with (B "/opt/" ++ p) in I. rewrite beq_refl in I. discriminate I.
  - intros p No. unfold opt_disk. destruct (find _ _) as [[q e]|] eqn:F; [exfalso|reflexivity]. apply find_some in F. destruct F as [I2 E]. cbn [fst] in E. apply beq_true in E.
    assert (q = p) as -> by (apply (app_inv_head (B "/opt/")); exact E). exact (No e I2).
Qed.
Lemma win_tidy : Tidy (win_machine my_lib) my_lib (length (B "/opt") + 1 + length (B "MyLib")).
Proof.
  intros dir n d O. remember (dir ++ [n]) as q eqn:Eq. rewrite Eq. destruct O as [q d A|exe m d He Im Hd|exe t p d He Hd A|doc].
  - apply at_files in A. assert (H : forallb (fun pd => tidy_entry 10 (fst pd) (snd pd)) (files (Folder my_lib)) = true) by (vm_compute; reflexivity).
    rewrite forallb_forall in H. specialize (H _ A). cbn [fst snd] in H. rewrite Eq in H. now apply tidy_entry_ok.
  - injection He as <-. apply (app_inj_tail [_] dir) in Eq. destruct Eq as [_ <-]. assert (X : negb (beq m (B "package.moc")) && negb (is_modelica m) = true).
    { cbn [shipped map fst In] in Im. repeat destruct Im as [<-|Im]; try reflexivity. contradiction. }
    apply andb_prop in X. destruct X as [X1 X2]. split; [intros ->; discriminate|]. intros M. apply is_modelica_spec in M. rewrite M in X2. discriminate.
  - injection He as <-. cbn in Hd. injection Hd as <-. apply at_files in A. cbn in A. destruct A as [A|[]]. injection A as <- <-.
    apply (app_inj_tail [_] dir) in Eq. destruct Eq as [_ <-]. split; [discriminate|]. intros M. apply is_modelica_spec in M. discriminate.
  - apply (app_inj_tail [_] dir) in Eq. destruct Eq as [_ <-]. split; [discriminate|]. intros M. apply is_modelica_spec in M. discriminate.
Qed.
Example C96_decrypts_ex : exists o1 o2,
  In (B "MyLib/Sub/B.MOc", o1) (entries_of win_yes) /\ In (B "MyLib/package.moc", o2) (entries_of win_yes) /\
  decrypt_all toy toy_key (opt_disk (entries_of win_yes)) (B "/opt/MyLib") [] [(B "Sub/B.MOc", o1); (B "package.moc", o2)] =
    Ok [Some (B "within MyLib.Sub; model B end B;"); Some (B "package MyLib end MyLib;")].
Proof.
  destruct C96_ex as (O0 & E0 & _ & R0 & _ & K0 & _ & A0 & N0 & _). destruct (win_tool_sane my_lib TEMP [] true O0) as (S1 & S2 & S3 & S4 & _).
  assert (Q0 : WinRequest (win_tool my_lib TEMP [] true) (win_args YES) (win_options YES) (B "MyLib") my_lib) by exact (win_request my_lib TEMP [] true YES false (or_introl eq_refl)).
  destruct (C96_decrypts_partial toy toy_key _ _ _ _ _ _ (B "/opt") _ _ toy_good eq_refl S1 S2 S3 S4 Q0 E0 win_tidy (or_introl eq_refl) R0 K0 A0 (opt_unpacked _ N0)) as [H1 H2].
  destruct my_wanted as [W1 W2]. destruct (H1 _ _ _ W1) as (o1 & I1). destruct (H1 _ _ _ W2) as (o2 & I2). exists o1, o2. split; [exact I1|]. split; [exact I2|].
  apply (H2 [([B "Sub"], B "B.MO", B "within MyLib.Sub; model B end B;", o1); ([], B "package.mo", B "package MyLib end MyLib;", o2)]).
  intros dir n d out [E|[E|[]]]; injection E as <- <- <- <-; (split; [assumption|]); assumption.
Qed.

(** A library with an empty folder: packaging never succeeds, although nothing fails. *)
Theorem C96_empty_refuted : forall pr K v args o name lib r q, WinSane v -> WinCopies v -> PlainLves (v_sys v) -> AllSpelt v lib -> WinRequest v args o name lib ->
  package_win pr K v args = Ok r -> At (Folder lib) q (Folder []) -> q <> [] -> ~ In (B ".library") q -> k_code r <> 0.
Proof. exact empty_win. Qed.
Print Assumptions C96_empty_refuted.
Definition with_empty : list (bytes * tree) := my_lib ++ [(B "Tests", Folder [])].
Example C96_empty_ex : win_lib_ok with_empty = true /\ At (Folder with_empty) [B "Tests"] (Folder []) /\
  k_code (win_result (win_tool with_empty TEMP [] true) (win_args YES)) = 9 /\
  match package_win toy toy_key (win_tool with_empty TEMP [] true) (win_args YES) with Ok _ => True | _ => False end.
Proof. split; [reflexivity|]. split; [now apply find_path_at|]. split; [vm_compute; reflexivity|]. vm_compute. exact I. Qed.
(** An archive with the same name that cannot be removed: its files, Modelica files among them, are in the archive that is reported as made. *)
Theorem C96_old_refuted : exists v args o name lib r l e d, WinSane v /\ WinCopies v /\ PlainLves (v_sys v) /\ AllSpelt v lib /\ WinRequest v args o name lib /\ encrypted o = true /\
  package_win toy toy_key v args = Ok r /\ k_code r = 0 /\ k_archive r = Some (archive_name name, l) /\ In (e, d) l /\ Modelica e.
Proof.
  destruct (win_tool_sane my_lib TEMP [(B "MyLib/A.mo", B "model A end A;")] false eq_refl) as (S1 & S2 & S3 & S4 & _).
  exists (win_tool my_lib TEMP [(B "MyLib/A.mo", B "model A end A;")] false), (win_args YES), (win_options YES), (B "MyLib"), my_lib,
    (win_result (win_tool my_lib TEMP [(B "MyLib/A.mo", B "model A end A;")] false) (win_args YES)),
    (entries_of (win_result (win_tool my_lib TEMP [(B "MyLib/A.mo", B "model A end A;")] false) (win_args YES))), (B "MyLib/A.mo"), (B "model A end A;").
  split; [exact S1|]. split; [exact S2|]. split; [exact S3|]. split; [exact S4|]. split; [exact (win_request my_lib _ _ _ YES false (or_introl eq_refl))|].
  split; [reflexivity|]. split; [vm_compute; reflexivity|]. split; [vm_compute; reflexivity|]. split; [vm_compute; reflexivity|]. split; [vm_compute; now left|now apply is_modelica_spec].
Qed.
Print Assumptions C96_old_refuted.

(** ** C97 *)

(** If packaging reports success, the archive holds a manifest that states the arguments and the LVEs; TEMP is the directory for temporary
    files. *)
Theorem C97_manifest_partial : forall pr K v args o name lib r ver lang ns1 ns2, WinSane v -> WinCopies v -> (forall q, w_opendir (v_sys v) Searching q = true) -> PlainLves (v_sys v) ->
  AllSpelt v lib -> TempDir v -> WinRequest v args o name lib -> package_win pr K v args = Ok r -> k_code r = 0 ->
  In (B "version", ver) o -> In (B "language", lang) o -> Forall (fun kv => Writable (snd kv)) o -> (forall q d, At (Folder lib) q (Reg d) -> Writable (slashed q)) ->
  Named (read_of (v_sys v)) o (B "tools") ns1 -> Named (read_of (v_sys v)) o (B "dependencies") ns2 ->
  exists l doc root icon, k_archive r = Some (archive_name name, l) /\ In (slashed [name; B ".library"; B "manifest.xml"], doc) l /\ XmlText doc /\ read_xml doc = Some root /\
    Says root (manifest_shape (map attribute_char) name (option_of o) ver lang (if encrypted o then Some (beside (v_sys v)) else None) icon (ns1 ++ ns2)) /\
    match option_of o (B "icon") with
    | None => icon = None
    | Some i => exists q, WinIconFile lib i q /\ icon = Some (slashed (name :: q))
    end.
Proof. exact manifest_win. Qed.
Print Assumptions C97_manifest_partial.
(** The icon in the manifest is not relative to the library: it begins with the name of the library. *)
Theorem C97_prefix_refuted : forall pr K v args o name lib r ver lang ns1 ns2 i, WinSane v -> WinCopies v -> (forall q, w_opendir (v_sys v) Searching q = true) -> PlainLves (v_sys v) ->
  AllSpelt v lib -> TempDir v -> WinRequest v args o name lib -> package_win pr K v args = Ok r -> k_code r = 0 ->
  In (B "version", ver) o -> In (B "language", lang) o -> In (B "icon", i) o -> Forall (fun kv => Writable (snd kv)) o -> OneLine name ->
  (forall q d, At (Folder lib) q (Reg d) -> OneLine (slashed q)) ->
  Named (read_of (v_sys v)) o (B "tools") ns1 -> Named (read_of (v_sys v)) o (B "dependencies") ns2 ->
  exists l doc root q, k_archive r = Some (archive_name name, l) /\ In (slashed [name; B ".library"; B "manifest.xml"], doc) l /\
    read_xml doc = Some root /\ WinIconFile lib i q /\ In (B "icon", [(B "file", name ++ B "/" ++ slashed q)]) (elements root).
Proof.
  intros pr K v args o name lib r ver lang ns1 ns2 i Sa W So Pl Sp Td Rq H Cd Iv Il Ii Fw On Fl N1 N2.
  destruct (manifest_win _ _ _ _ _ _ _ _ _ _ _ _ Sa W So Pl Sp Td Rq H Cd Iv Il Fw (fun q d A => proj1 (Fl q d A)) N1 N2) as (l & doc & root & icon & Ea & Im & _ & R & S0 & Hi).
  assert (Eo : option_of o (B "icon") = Some i). { rewrite option_of_value. destruct Rq as (C & _). now apply (value_command _ _ _ _ _ C). }
  rewrite Eo in Hi. destruct Hi as (q & Iq & ->). exists l, doc, root, q. split; [exact Ea|]. split; [exact Im|]. split; [exact R|]. split; [exact Iq|].
  apply says_icon in S0. destruct Iq as (dir & n & d & pre & Eq & _ & _ & _ & _ & A). destruct (Fl q d A) as ([_ Nc] & Nt & Nl). destruct On as ([_ Mc] & Mt & Ml).
  rewrite slashed_cons in S0 by (rewrite Eq; now destruct dir). rewrite attribute_same in S0; [exact S0|..]; rewrite !in_app_iff; intros [X|[[X|[]]|X]]; try contradiction; discriminate.
Qed.
Print Assumptions C97_prefix_refuted.
Definition win_icon : packed := Eval vm_compute in win_result (win_tool my_lib TEMP [] true) (icon_args (win_args YES)).
(** Directories are listed as they were made here. *)
Example C97_ex : TempDir (win_tool my_lib TEMP [] true) /\
  package_win toy toy_key (win_tool my_lib TEMP [] true) (icon_args (win_args YES)) = Ok win_icon /\ k_code win_icon = 0 /\
  Forall (fun kv => Writable (snd kv)) (with_icon (win_options YES)) /\ OneLine (B "MyLib") /\ (forall q d, At (Folder my_lib) q (Reg d) -> OneLine (slashed q)) /\
  Named (read_of (win_machine my_lib)) (with_icon (win_options YES)) (B "tools") [] /\ Named (read_of (win_machine my_lib)) (with_icon (win_options YES)) (B "dependencies") [] /\
  icon_of win_icon = Some (B "MyLib/icon.png").
Proof.
  split; [exists (B "C:\Temp"); split; [reflexivity|]; split; [reflexivity|]; intros s [= <-]; exists (B "semlaa01234"); split; [reflexivity|]; split; [discriminate|];
    intros I; cbn in I; repeat destruct I as [I|I]; try discriminate I; exact I|].
  split; [vm_compute; reflexivity|]. split; [reflexivity|].
  split; [unfold with_icon, win_options; cbn [app]; repeat (apply Forall_cons; [cbn [snd]; apply mf_oneline; reflexivity|]); apply Forall_nil|].
  split; [now apply mf_oneline|]. split; [exact my_lib_oneline|]. split; [reflexivity|]. split; [reflexivity|]. vm_compute. reflexivity.
Qed.

(** When directories are listed by name, as on NTFS, a library cannot be packaged with an icon. *)
Theorem C97_icon_refuted : forall pr K v args o name lib r i, WinSane v -> WinCopies v -> (forall q, w_opendir (v_sys v) Searching q = true) ->
  (forall es, ByName (w_order (v_sys v) Searching es)) -> (forall n x, In (n, x) lib -> n <> B ".library" -> 48 <= first_byte n) ->
  (forall q s, v_mktemp v q = Some s -> length s + length name < 1990) -> WinRequest v args o name lib -> In (B "icon", i) o ->
  package_win pr K v args = Ok r -> k_archive r = None /\ k_code r <> 0.
Proof. exact noicon_win. Qed.
Print Assumptions C97_icon_refuted.
(** Directories listed by name. *)
Fixpoint put (e : bytes * tree) (es : list (bytes * tree)) : list (bytes * tree) :=
  match es with
  | [] => [e]
  | e1 :: r => if first_byte (fst e) <=? first_byte (fst e1) then e :: es else e1 :: put e r
  end.
Definition by_name (es : list (bytes * tree)) : list (bytes * tree) := fold_right put [] es.
Lemma put_perm e es : Permutation (e :: es) (put e es).
Proof.
  induction es as [|e1 es IH]; [apply Permutation_refl|]. cbn [put]. destruct (_ <=? _); [apply Permutation_refl|].
  apply (Permutation_trans (perm_swap e1 e es)). now apply perm_skip.
Qed.
Lemma put_byname e es : ByName es -> ByName (put e es).
Proof.
  induction 1 as [|e1 es H H1 IH]; cbn [put]; [constructor; [intros ? []|constructor]|]. destruct (Nat.leb_spec (first_byte (fst e)) (first_byte (fst e1))) as [L|L].
  - constructor; [intros e' [<-|I]; [exact L|exact (Nat.le_trans _ _ _ L (H e' I))]|now constructor].
  - constructor; [|exact IH]. intros e' I. apply (Permutation_in _ (Permutation_sym (put_perm e es))) in I. destruct I as [<-|I]; [now apply Nat.lt_le_incl|exact (H e' I)].
Qed.
Lemma by_name_ok es : ByName (by_name es) /\ Same (Folder es) (Folder (by_name es)).
Proof.
  split; [induction es as [|e es IH]; [constructor|now apply put_byname]|]. apply (Same_folder es es).
  - induction es as [|[n x] es IHe]; constructor; [split; [reflexivity|apply same_refl]|exact IHe].
  - induction es as [|e es IH]; [constructor|]. apply (Permutation_trans (perm_skip e IH)). apply put_perm.
Qed.
Definition ntfs (w : world) : world := {|
  w_disk := w_disk w; w_readable := w_readable w; w_opendir := w_opendir w; w_mkdir := w_mkdir w; w_copy := w_copy w; w_exe := w_exe w; w_staging := w_staging w;
  w_tmpdir := w_tmpdir w; w_order := fun _ es => by_name es; w_manifest := w_manifest w; w_open := w_open w; w_iv := w_iv w; w_mask := w_mask w; w_encrypts := w_encrypts w;
  w_zip_open := w_zip_open w; w_zip_add := w_zip_add w; w_unlink := w_unlink w; w_rmdir := w_rmdir w |}.
Definition ntfs_tool : windows := {|
  v_sys := ntfs (win_machine my_lib); v_calls := well; v_temp_path := Some (B "C:\Temp\"); v_mktemp := fun _ => Some (B "C:\Temp\semlaa01234");
  v_there := None; v_temp := TEMP; v_old := []; v_removed := true |}.
Example C97_icon_ex : WinSane ntfs_tool /\ WinCopies ntfs_tool /\ (forall q, w_opendir (v_sys ntfs_tool) Searching q = true) /\
  (forall es, ByName (w_order (v_sys ntfs_tool) Searching es)) /\ (forall n x, In (n, x) my_lib -> n <> B ".library" -> 48 <= first_byte n) /\
  (forall q s, v_mktemp ntfs_tool q = Some s -> length s + length (B "MyLib") < 1990) /\
  WinRequest ntfs_tool (icon_args (win_args YES)) (with_icon (win_options YES)) (B "MyLib") my_lib /\ At (Folder my_lib) [B "icon.png"] (Reg (B "PNG")) /\
  (exists r, package_win toy toy_key ntfs_tool (icon_args (win_args YES)) = Ok r /\ k_code r = 4) /\
  (exists r, package_win toy toy_key ntfs_tool (win_args YES) = Ok r /\ k_code r = 0).
Proof.
  destruct (win_tool_sane my_lib TEMP [] true eq_refl) as ((_ & S1 & S2) & S3 & _).
  split; [split; [intros k es; apply by_name_ok|split; [exact S1|exact S2]]|]. split; [exact S3|]. split; [reflexivity|]. split; [intros es; apply by_name_ok|].
  split; [intros n x I N; cbn [my_lib In] in I; repeat destruct I as [I|I]; try contradiction; injection I as <- <-; try (now destruct N); apply Nat.leb_le; vm_compute; reflexivity|].
  split; [intros q s [= <-]; apply Nat.ltb_lt; vm_compute; reflexivity|].
  split; [exact (win_request my_lib TEMP [] true YES true (or_introl eq_refl))|]. split; [now apply find_path_at|].
  split; (eexists; split; vm_compute; reflexivity).
Qed.
(** Without TEMP in the environment, packaging with an icon reads through a null pointer. *)
Theorem C97_temp_refuted : exists v args o name lib i dir d, WinSane v /\ WinCopies v /\ WinRequest v args o name lib /\ In (B "icon", i) o /\ At (Folder lib) dir (Reg d) /\
  WinIconFile lib i dir /\ v_temp v = None /\ package_win toy toy_key v args = UB NullDeref.
Proof.
  destruct (win_tool_sane my_lib None [] true eq_refl) as (S1 & S2 & _).
  exists (win_tool my_lib None [] true), (icon_args (win_args YES)), (with_icon (win_options YES)), (B "MyLib"), my_lib, WIN_ICON, [B "icon.png"], (B "PNG").
  split; [exact S1|]. split; [exact S2|]. split; [exact (win_request my_lib None [] true YES true (or_introl eq_refl))|]. split; [right; right; right; right; now left|].
  split; [now apply find_path_at|]. split; [|split; [reflexivity|vm_compute; reflexivity]].
  exists [], (B "icon.png"), (B "PNG"), (B "C:\Lib\MyLib\"). split; [reflexivity|]. split; [reflexivity|].
  split; [intros I; cbn in I; repeat destruct I as [I|I]; try discriminate I; exact I|]. split; [intros I; cbn in I; repeat destruct I as [I|I]; try discriminate I; exact I|].
  split; [right; exists (B "C:\Lib\MyLib"), BSLASH; split; [reflexivity|now right]|now apply find_path_at].
Qed.
Print Assumptions C97_temp_refuted.
