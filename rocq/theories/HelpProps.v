(** C73, C74: the help of the packaging tool, and what its exit code says. *)
From Verif Require Import Base BaseProofs ArgsModel ArgsSpec XmlSpec WireModel CryptModel CryptSpec CryptProps
  ManifestModel ManifestSpec PackageModel PackageSpec PackageProofs PackageExamples HelpModel HelpSpec HelpProofs.
Require Import Lia.

(** ** C73 *)

(** Any text is printed in indented lines that hold its words in order, together the text itself up to a space at its end; lines are
    broken only where necessary, and between words; no line is longer than allowed except for a word that is too long. *)
Theorem C73_text : forall s max level, exists ls, print_aligned s max level = concat (map (Indented level) ls) /\
  (concat ls = s \/ concat ls ++ [SP] = s) /\ Forall (Fits max) ls /\ Broken max ls.
Proof. exact print_aligned_lines. Qed.
Print Assumptions C73_text.
Example C73_text_ex : print_aligned (B "one two  three a-very-long-word x ") 9 1 =
  concat (map (Indented 1) [B "one two  "; B "three "; B "a-very-long-word "; B "x"]).
Proof. vm_compute. reflexivity. Qed.

(** If all words are shorter than that, so are all lines; with eight columns for each tab they fit the terminal. *)
Theorem C73_columns : forall s max level, WordsBelow max s ->
  exists ls, print_aligned s max level = concat (map (Indented level) ls) /\ Forall (fun c => level * 8 + length c <= level * 8 + max) ls.
Proof.
  intros s max level W. destruct (print_aligned_lines s max level) as (ls & H1 & H2 & H3 & _). exists ls. split; [exact H1|].
  pose proof (words_fit _ _ _ W H2 H3) as F. rewrite Forall_forall in *. intros c I. specialize (F c I). lia.
Qed.
Print Assumptions C73_columns.
Example C73_columns_ex : WordsBelow 4 (B "ab cde f").
Proof.
  intros pre w post E N. assert (L : length (pre ++ w ++ post) = 8) by now rewrite <- E. rewrite !app_length in L.
  destruct w as [|a [|b [|c [|d w]]]]; cbn [length] in *; try lia. exfalso.
  destruct pre as [|p0 [|p1 [|p2 [|p3 [|p4 pre]]]]]; cbn [app length] in *; try lia; vm_compute in E; injection E; intros; subst; apply N; vm_compute; tauto.
Qed.

(** The option is listed: on a line of its own, after a tab and a minus. *)
Definition Listed (k : bytes) : Prop := LineOf ([ch 9; MINUS] ++ k) argument_help.

Definition option_lines : bool := forallb (fun x => match x with
  | a :: b :: k => negb (Ascii.eqb a (ch 9) && Ascii.eqb b MINUS) || (lookup_in valid_arguments k || beq k (B "h, --help"))
  | _ => true end) (lines_of [] argument_help).
Lemma option_lines_true : option_lines = true.
Proof. vm_compute. reflexivity. Qed.
Definition all_listed : bool := forallb (fun k => existsb (beq ([ch 9; MINUS] ++ k)) (lines_of [] argument_help)) (B "h, --help" :: valid_arguments).
Lemma all_listed_true : all_listed = true.
Proof. vm_compute. reflexivity. Qed.
Lemma known_valid k : KnownOption k <-> In k valid_arguments.
Proof. unfold KnownOption, valid_arguments. cbn [In]. tauto. Qed.
Lemma listed_known k : Listed k <-> KnownOption k \/ k = B "h, --help".
Proof.
  unfold Listed, LineOf. rewrite known_valid. split.
  - intros (N & pre & post & E). pose proof (lines_pre _ post pre [] N) as I. rewrite <- E in I.
    pose proof option_lines_true as T. unfold option_lines in T. rewrite forallb_forall in T. specialize (T _ I). change ([ch 9; MINUS] ++ k) with (ch 9 :: MINUS :: k) in T. cbv iota beta in T.
    rewrite !Ascii.eqb_refl in T. cbn [andb negb orb] in T. apply orb_true_iff in T. destruct T as [T|T]; [left; now apply ArgsProofs.lookup_in_In in T|right; now apply beq_true in T].
  - intros H. assert (I : In ([ch 9; MINUS] ++ k) (lines_of [] argument_help)).
    { pose proof all_listed_true as T. unfold all_listed in T. rewrite forallb_forall in T. assert (J : In k (B "h, --help" :: valid_arguments)) by (destruct H as [H| ->]; [now right|now left]).
      specialize (T k J). apply existsb_exists in T. destruct T as (x & Ix & Ex). apply beq_true in Ex. now subst x. }
    destruct (lines_back _ _ _ I (fun H => H)) as (N & pre & post & E & P). split; [exact N|]. cbn [rev] in E. rewrite app_nil_l in E.
    destruct P as [->|(q & ->)].
    + exfalso. rewrite app_nil_l in E. apply (f_equal (hd NUL)) in E. change (hd NUL (([ch 9; MINUS] ++ k) ++ [LF] ++ post)) with (ch 9) in E. vm_compute in E. discriminate E.
    + exists q, post. rewrite E. now rewrite <- !app_assoc.
Qed.

(** The options that are listed are those the tool accepts. *)
Theorem C73_options : forall k v, k <> B "h, --help" -> v <> [] ->
  (Listed k <-> exists t, validate_arguments [MINUS :: k; v] = Ok (Some t)).
Proof.
  intros k v Nk Nv. rewrite listed_known. unfold validate_arguments. cbn [validate_loop]. split.
  - intros [H|H]; [|contradiction]. apply beq_false in Nv. apply known_valid in H.
    assert (L : lookup_argument k = true) by now apply ArgsProofs.lookup_in_In. assert (M : beq k [] = false) by (apply beq_false; intros ->; now vm_compute in L).
    rewrite M, L, Nv. cbn [negb andb]. destruct (contains_key no_arguments k) eqn:Ck; [|eexists; reflexivity].
    exfalso. unfold no_arguments in Ck. cbn [MAX_ARGUMENTS repeat contains_key] in Ck. assert (M' : beq [] k = false) by (apply beq_false; intros <-; now vm_compute in L). rewrite !M' in Ck. discriminate Ck.
  - intros (t & H). destruct (negb (beq k []) && lookup_argument k) eqn:L; [|discriminate]. apply andb_true_iff in L. destruct L as [_ L]. left.
    unfold lookup_argument in L. apply known_valid. now apply ArgsProofs.lookup_in_In in L.
Qed.
Print Assumptions C73_options.
Example C73_options_ex : Listed (B "icon") /\ ~ Listed (B "verbose").
Proof.
  split; [apply listed_known; left; apply known_valid; now apply ArgsProofs.lookup_in_In|]. rewrite listed_known, known_valid. intros [H|H]; [|discriminate H].
  apply ArgsProofs.lookup_in_In in H. vm_compute in H. discriminate H.
Qed.

(** ** C74 *)

Lemma success_archive pr K w args r : package pr K w args = Ok r -> k_code r = 0 -> help_requested args = false -> k_archive r <> None.
Proof.
  intros H Z Nh. unfold package in H. destruct args as [|a args]; [injection H as <-; discriminate Z|]. rewrite Nh in H.
  destruct (validate _ _ _) as [[t|]| |]; [|injection H as <-; discriminate Z|discriminate|discriminate]. cbn [bind] in H. unfold stage_and_pack in H.
  destruct (copied_source_path w t) as [[[[staging name] path] t1]| |]; [|discriminate|discriminate]. cbn [bind] in H.
  destruct (_ && _); [|injection H as <-; discriminate Z]. destruct (value_of t1 _) as [from|]; [|injection H as <-; discriminate Z].
  destruct (stage_files w from path []) as [[ok lib]| |]; [|discriminate|discriminate]. cbn [bind] in H. destruct ok; [|injection H as <-; discriminate Z].
  unfold complete in H. cbv zeta in H. destruct (match lookup lib DOT_LIBRARY with None => _ | Some _ => _ end); [|injection H as <-; discriminate Z].
  destruct (prepare_icon _ _ _ _) as [[icon|]| |]; [|injection H as <-; discriminate Z|discriminate|discriminate]. cbn [bind] in H.
  destruct (copy_lve _ _ _ _) as [[ok lves] dot1]. destruct ok; [|injection H as <-; discriminate Z].
  destruct (copy_extra _ _ _) as [[ok dot2]| |]; [|discriminate|discriminate]. cbn [bind] in H. destruct ok; [|injection H as <-; discriminate Z].
  destruct (fit _ _); [|discriminate|discriminate]. cbn [bind] in H. destruct (create_manifest _ _ _ _ _) as [[t2 doc]| |]; [|discriminate|discriminate]. cbn [bind] in H.
  unfold encrypt_and_zip in H. match type of H with bind ?X _ = _ => destruct X as [[ok lib1]| |] end; [|discriminate|discriminate]. cbn [bind] in H.
  destruct ok; [|injection H as <-; discriminate Z]. destruct (the_library_name t2) as [[n t3]| |]; [|discriminate|discriminate]. cbn [bind] in H.
  destruct (create_zip _ _ _ _ _) as [[ok2 ar]| |] eqn:Ez; [|discriminate|discriminate]. cbn [bind] in H. destruct ok2; injection H as <-; [|discriminate Z].
  cbn [k_archive]. unfold create_zip in Ez. destruct (w_zip_open w); [|discriminate].
  destruct (zip_dir _ _ _ _ _) as [[ok3 l]| |]; [|discriminate|discriminate]. cbn [bind] in Ez. injection Ez as _ <-. discriminate.
Qed.

(** Exit code 0 without -h or --help among the arguments means that the arguments were right and an archive was made. *)
Theorem C74_success_partial : forall pr K w args r, package pr K w args = Ok r -> k_code r = 0 -> ~ In (B "-h") args -> ~ In (B "--help") args ->
  (exists o name lib, Request w args o name lib) /\ exists z l, k_archive r = Some (z, l).
Proof.
  intros pr K w args r H Z N1 N2. assert (A : k_archive r <> None) by exact (success_archive _ _ _ _ _ H Z (proj2 (help_none args) (conj N2 N1))).
  split; [exact (archive_request _ _ _ _ _ H A)|]. destruct (k_archive r) as [[z l]|]; [now exists z, l|contradiction].
Qed.
Print Assumptions C74_success_partial.
Example C74_ex : ~ In (B "-h") (pack_args YES ICON) /\ ~ In (B "--help") (pack_args YES ICON) /\
  match package toy toy_key (machine my_lib no_faults) (pack_args YES ICON) with Ok r => k_code r = 0 | _ => False end.
Proof.
  split; [intros I; vm_compute in I; repeat (destruct I as [I|I]; [discriminate I|]); exact I|].
  split; [intros I; vm_compute in I; repeat (destruct I as [I|I]; [discriminate I|]); exact I|]. vm_compute. reflexivity.
Qed.

(** A value -h or --help of any option, for instance of a description, makes the tool print its help, package nothing and report success. *)
Theorem C74_value_refuted : forall pr K w args o k v, CommandLine Dash args o -> In (k, v) o -> v = B "-h" \/ v = B "--help" ->
  package pr K w args = Ok {| k_code := 0; k_staging := None; k_archive := None |}.
Proof.
  intros pr K w args o k v C I V. assert (J : In v args).
  { induction C as [|c k' v' l o' _ _ _ _ C IH]; [destruct I|]. destruct I as [E|I]; [injection E as _ ->; right; now left|right; right; now apply IH]. }
  unfold package. destruct args as [|a args]; [destruct J|]. destruct (help_requested (a :: args)) eqn:Hh; [reflexivity|]. exfalso.
  apply help_none in Hh. destruct Hh as [N1 N2]. destruct V as [-> | ->]; contradiction.
Qed.
Print Assumptions C74_value_refuted.
Example C74_value_ex : exists o, CommandLine Dash [B "-librarypath"; B "/home/u/MyLib"; B "-version"; B "1.2"; B "-language"; B "3.4"; B "-title"; B "-h"] o /\ In (B "title", B "-h") o.
Proof.
  exists [(B "librarypath", B "/home/u/MyLib"); (B "version", B "1.2"); (B "language", B "3.4"); (B "title", B "-h")].
  split; [|vm_compute; tauto].
  repeat (apply CL_cons; [reflexivity|vm_compute; tauto|discriminate|intros I; vm_compute in I; repeat (destruct I as [I|I]; [discriminate I|]); exact I|]). constructor.
Qed.
