(** A library and an operating system for the examples. *)
From Coq Require Import Permutation.
From Verif Require Import Base BaseProofs WireModel ArgsModel ArgsSpec ArgsProofs ArgsProps XmlSpec ManifestModel ManifestSpec ManifestProofs CryptModel CryptSpec CryptProps
  PackageModel PackageSpec TreeProofs CopyProofs PackageProofs.

(** ** Checks of trees *)

Definition filename_ok (n : bytes) : bool :=
  negb (beq n []) && forallb (fun c => negb (Ascii.eqb c SLASH) && negb (Ascii.eqb c NUL)) n && negb (beq n (B ".")) && negb (beq n (B "..")).
Fixpoint distinct_names (l : list bytes) : bool :=
  match l with
  | [] => true
  | n :: r => negb (existsb (beq n) r) && distinct_names r
  end.
Fixpoint proper_ok (t : tree) : bool :=
  match t with
  | Folder es => distinct_names (map fst es) && forallb (fun ex => filename_ok (fst ex) && proper_ok (snd ex)) es
  | _ => true
  end.
Lemma distinct_nodup l : distinct_names l = true -> NoDup l.
Proof.
  induction l as [|n l IH]; [constructor|]. cbn [distinct_names]. intros H. apply andb_prop in H. destruct H as [H1 H2]. constructor; [|now apply IH].
  intros I. apply negb_true_iff in H1. apply not_true_iff_false in H1. apply H1. apply existsb_exists. exists n. split; [exact I|apply beq_refl].
Qed.
Lemma proper_check t : proper_ok t = true -> Proper t.
Proof.
  induction t as [e| |es IH] using tree_induction; intros H; [constructor|constructor|]. cbn [proper_ok] in H. apply andb_prop in H. destruct H as [H1 H2].
  constructor; [now apply distinct_nodup|]. intros n x I. rewrite forallb_forall in H2. specialize (H2 _ I). cbn [fst snd] in H2. apply andb_prop in H2. destruct H2 as [H2 H3].
  split; [now apply check_filename|]. now apply (IH n x I).
Qed.
Fixpoint find_path (t : tree) (p : list bytes) : option tree :=
  match p with
  | [] => Some t
  | n :: r => match t with
              | Folder es => match lookup es n with Some x => find_path x r | None => None end
              | _ => None
              end
  end.
Lemma find_path_at p : forall t x, find_path t p = Some x -> At t p x.
Proof.
  induction p as [|n p IH]; intros t x H; cbn [find_path] in H; [injection H as ->; constructor|]. destruct t as [|es|]; try discriminate.
  destruct (lookup es n) as [y|] eqn:L; [|discriminate]. apply at_cons. exists y. split; [now apply lookup_in|now apply IH].
Qed.
(** All regular files. *)
Fixpoint files (t : tree) : list (list bytes * bytes) :=
  match t with
  | Reg d => [([], d)]
  | Folder es => flat_map (fun ex => map (fun pd => (fst ex :: fst pd, snd pd)) (files (snd ex))) es
  | Other => []
  end.
Lemma at_files t : forall p d, At t p (Reg d) -> In (p, d) (files t).
Proof.
  induction t as [e| |es IH] using tree_induction; intros p d A.
  - apply at_reg in A. destruct A as [-> A]. injection A as ->. now left.
  - apply at_other in A. destruct A as [_ A]. discriminate.
  - apply at_folder_reg in A. destruct A as (n & q & x & -> & I & A). cbn [files]. apply in_flat_map. exists (n, x). split; [exact I|].
    apply in_map_iff. exists (q, d). split; [reflexivity|]. now apply (IH n x I).
Qed.
Lemma files_at t : forall p d, In (p, d) (files t) -> At t p (Reg d).
Proof.
  induction t as [e| |es IH] using tree_induction; intros p d I.
  - destruct I as [E|[]]. injection E as <- <-. constructor.
  - destruct I.
  - cbn [files] in I. apply in_flat_map in I. destruct I as ([n x] & I & I2). apply in_map_iff in I2. destruct I2 as ([q d'] & E & I2). cbn [fst snd] in *.
    injection E as <- <-. apply at_cons. exists x. split; [exact I|]. now apply (IH n x I).
Qed.
Lemma same_refl t : Same t t.
Proof.
  induction t as [e| |es IH] using tree_induction; [constructor|constructor|]. apply (Same_folder es es es); [|apply Permutation_refl].
  induction es as [|[n x] es IHe]; constructor; [split; [reflexivity|apply (IH n); now left]|]. apply IHe. intros m y I. apply (IH m). now right.
Qed.
Lemma same_rev es : Same (Folder es) (Folder (rev es)).
Proof.
  apply (Same_folder es es (rev es)); [|apply Permutation_rev]. pose proof (same_refl (Folder es)) as H. clear H.
  induction es as [|[n x] es IHe]; constructor; [split; [reflexivity|apply same_refl]|exact IHe].
Qed.

(** ** The operating system *)

(** What can go wrong. *)
Record faults := {
  f_copy : bytes -> bytes -> bytes -> option bytes * bool; f_open : bytes -> bool; f_encrypts : bytes -> bool;
  f_opendir : pass -> bytes -> bool; f_unlink : bytes -> bool; f_tmpdir : option bytes; f_zip_add : bytes -> bool
}.
Definition no_faults : faults :=
  {| f_copy := fun _ _ d => (Some d, true); f_open := fun _ => true; f_encrypts := fun _ => true; f_opendir := fun _ _ => true;
     f_unlink := fun _ => true; f_tmpdir := None; f_zip_add := fun _ => true |}.
Definition machine_disk (lib : list (bytes * tree)) : list (bytes * tree) :=
  [(B "/home/u/MyLib", Folder lib); (B "/home/u/MyLib/icon.png", Reg (B "PNG")); (B "/home/u/MyLib/Resources/logo.png", Reg (B "PNG"));
   (B "/opt/pt/LVE/lve_linux64", Reg (B "ELF")); (B "/opt/pt/LVE/lve_win64.exe", Reg (B "MZ")); (B "/opt/pt/.library", Folder [(B "notes.txt", Reg (B "notes"))])].
Definition machine (lib : list (bytes * tree)) (f : faults) : world := {|
  w_disk := fun p => lookup (machine_disk lib) p;
  w_readable := fun _ => true;
  w_opendir := f_opendir f;
  w_mkdir := fun _ => true;
  w_copy := f_copy f;
  w_exe := Some (B "/opt/pt");
  w_staging := Some (B "/tmp/TemporaryFolderAbCdEf");
  w_tmpdir := f_tmpdir f;
  w_order := fun p es => match p with Encrypting => rev es | _ => es end;
  w_manifest := true;
  w_open := f_open f;
  w_iv := fun rel => repeat (ch (length rel)) 16;
  w_mask := fun rel => repeat (ch (length rel + 50)) 32;
  w_encrypts := f_encrypts f;
  w_zip_open := true;
  w_zip_add := f_zip_add f;
  w_unlink := f_unlink f;
  w_rmdir := fun _ => true |}.

Lemma machine_sane lib f : proper_ok (Folder lib) = true -> Sane (machine lib f).
Proof.
  intros P. split; [|split; [|split]].
  - intros k es. cbn [machine w_order]. destruct k; try apply same_refl. apply same_rev.
  - intros p t H. apply lookup_in in H. unfold machine_disk in H. cbn [In] in H. repeat destruct H as [H|H]; try contradiction; injection H as <- <-; now apply proper_check.
  - intros s [= <-]. exists (B "AbCdEf"). split; [reflexivity|]. split; [reflexivity|]. intros H. cbn in H. repeat destruct H as [H|H]; try discriminate H; exact H.
  - intros r. cbn [machine w_iv w_mask]. now rewrite !repeat_length.
Qed.
Lemma machine_lves lib f : PlainLves (machine lib f).
Proof.
  intros exe n x [= <-] I H. apply lookup_in in H. unfold machine_disk in H. cbn [In] in H.
  destruct x as [d|es|]; [now exists d| |]; exfalso; repeat destruct H as [H|H]; try contradiction; try discriminate H; injection H as E <-;
    cbn [shipped map fst In] in I; repeat destruct I as [<-|I]; try discriminate E; contradiction.
Qed.
Lemma machine_works lib : Works (machine lib no_faults).
Proof. unfold Works, CopiesAll. cbn. repeat split; discriminate. Qed.
Lemma machine_copies lib f : f_copy f = f_copy no_faults -> f_open f = f_open no_faults -> f_opendir f = f_opendir no_faults -> CopiesAll (machine lib f).
Proof. intros E1 E2 E3. unfold CopiesAll. cbn [machine w_copy w_mkdir w_opendir w_open]. rewrite E1, E2, E3. now repeat split. Qed.

(** ** The command line *)

Definition pack_options (enc icon : bytes) : list (bytes * bytes) :=
  [(B "librarypath", B "/home/u/MyLib/"); (B "version", B "1.0"); (B "language", B "3.4"); (B "encrypt", enc); (B "icon", icon)].
Definition pack_args (enc icon : bytes) : list bytes :=
  [B "-librarypath"; B "/home/u/MyLib/"; B "-version"; B "1.0"; B "-language"; B "3.4"; B "-encrypt"; enc; B "-icon"; icon].
Lemma pack_command enc icon : enc <> [] -> icon <> [] -> CommandLine AnyByte (pack_args enc icon) (pack_options enc icon).
Proof.
  intros N1 N2. apply dash_any. assert (K : forall k, lookup_argument k = true -> KnownOption k) by (intros k; apply valid_known).
  unfold pack_args, pack_options.
  repeat (apply CL_cons; [reflexivity|apply K; reflexivity|first [discriminate|assumption]|cbn [map fst In]; intros H; repeat destruct H as [H|H]; try discriminate H; exact H|]).
  apply CL_nil.
Qed.
Lemma pack_request lib f enc icon : enc <> [] -> icon <> [] -> enc <> B "-h" -> enc <> B "--help" -> icon <> B "-h" -> icon <> B "--help" ->
  Request (machine lib f) (pack_args enc icon) (pack_options enc icon) (B "MyLib") lib.
Proof.
  intros N1 N2 N3 N4 N5 N6. split; [now apply pack_command|]. split; [|split].
  - intros I. unfold pack_args in I. cbn [In] in I. repeat destruct I as [I|I]; try discriminate I; try contradiction; try (now contradiction N4); now contradiction N6.
  - intros I. unfold pack_args in I. cbn [In] in I. repeat destruct I as [I|I]; try discriminate I; try contradiction; try (now contradiction N3); now contradiction N5.
  - exists (B "/home/u/MyLib/"), (B "/home/u/MyLib"). split; [now left|]. split; [|split; [|reflexivity]].
    + exists [SLASH]. split; [reflexivity|]. split; [apply Forall_cons; [now left|apply Forall_nil]|]. left. exists (B "/home/u/MyLi"), (ch 98). split; [reflexivity|split; discriminate].
    + exists (B "/home/u/"), []. split; [reflexivity|]. split; [discriminate|]. split; [|split; [apply Forall_nil|right; exists (B "/home/u"); reflexivity]].
      intros I. cbn in I. repeat destruct I as [I|I]; try discriminate I; exact I.
Qed.

(** ** The library *)

Definition my_lib : list (bytes * tree) :=
  [(B "A.mo", Reg (B "within MyLib; model A end A;")); (B "icon.png", Reg (B "PNG")); (B ".library", Folder [(B "old", Reg (B "old"))]);
   (B "Sub", Folder [(B "B.MO", Reg (B "within MyLib.Sub; model B end B;")); (B "package.mo", Reg (B "within MyLib; package Sub end Sub;"))]);
   (B "package.mo", Reg (B "package MyLib end MyLib;")); (B "Resources", Folder [(B "data.txt", Reg (B "1 2 3"))])].
Definition YES : bytes := B "true".
Definition NO : bytes := B "false".
Definition ICON : bytes := B "/home/u/MyLib/icon.png".

(** The result of packaging, by names. *)
Definition summary (o : outcome packed) : outcome (nat * bool * option (bytes * list bytes)) :=
  do r <- o ;
  Ok (k_code r, match k_staging r with Some _ => true | None => false end, match k_archive r with Some (z, l) => Some (z, map fst l) | None => None end).
Example my_lib_packed :
  summary (package toy toy_key (machine my_lib no_faults) (pack_args YES ICON)) =
  Ok (0, false, Some (B "MyLib.mol", map (fun n => B "MyLib/" ++ n)
    [B ".library/lve_win64.exe"; B ".library/lve_linux64"; B ".library/notes.txt"; B ".library/manifest.xml"; B "Resources/data.txt";
     B "Sub/package.moc"; B "Sub/B.MOc"; B "icon.png"; B "package.moc"; B "A.moc"])).
Proof. vm_compute. reflexivity. Qed.
