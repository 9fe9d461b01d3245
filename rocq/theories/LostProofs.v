(** What packaging loses. *)
From Coq Require Import Permutation.
From Verif Require Import Base BaseProofs ArgsModel ArgsSpec ArgsProofs XmlSpec XmlProofs ManifestModel ManifestSpec ManifestProofs WireModel CryptModel CryptSpec
  PackageModel PackageSpec TreeProofs CopyProofs EncProofs ZipProofs PackageProofs IconProofs ShipProofs.

Lemma slashed_c dir n : slashed (dir ++ [n]) ++ B "c" = slashed (dir ++ [n ++ B "c"]).
Proof.
  rewrite !slashed_path. induction dir as [|c dir IH]; [reflexivity|]. cbn [path_of]. rewrite <- app_assoc. cbn [app]. now rewrite IH.
Qed.
Lemma at_names t p d : Proper t -> At t p (Reg d) -> Forall FileName p.
Proof.
  intros P A. revert P. remember (Reg d) as x eqn:E. induction A as [t|es n x p y I A IH]; intros P; [constructor|]. destruct (proper_folder _ P) as [_ F].
  destruct (F _ _ I) as [Fn Px]. constructor; [exact Fn|now apply IH].
Qed.

(** An entry of the archive comes from a file of the staged library, or from an encrypted one. *)
Lemma entry_from pr K w args o name lib r z l dir n d : Sane w -> CopiesAll w -> Request w args o name lib -> package pr K w args = Ok r -> k_archive r = Some (z, l) ->
  Forall FileName (dir ++ [n]) -> hd [] (dir ++ [n]) <> DOT_LIBRARY -> In (slashed (name :: dir ++ [n]), d) l ->
  (At (Folder lib) (dir ++ [n]) (Reg d) /\ ~ In DOT_LIBRARY (dir ++ [n])) \/
  exists m e, n = m ++ B "c" /\ encrypted o = true /\ Modelica m /\ (caseeq m PACKAGE_MO = true -> m = PACKAGE_MO) /\ Forall (fun c => caseeq c PACKAGE_MO = false) dir /\
    At (Folder lib) (dir ++ [m]) (Reg e) /\ ~ In DOT_LIBRARY (dir ++ [m]).
Proof.
  intros Sa W Rq H Ea Fn Hd I.
  destruct (archive_inv _ _ _ _ _ _ _ _ _ _ Sa Rq H Ea) as (_ & _ & t & p & st & doc & lib1 & dot2 & L & lib2 & Sl & D & St & PL & P2 & (P1 & _) & En & _).
  pose proof (staged_at _ _ _ _ _ _ _ _ _ _ W Sa D St) as SA. assert (Sn : ~ In SLASH name).
  { destruct Rq as (_ & _ & _ & p0 & p1 & _ & _ & (pre & tl0 & _ & _ & Hs & _) & _). exact Hs. }
  destruct (P1 _ _ I) as (dir' & n' & E & A & _). change (name :: dir ++ [n]) with ((name :: dir) ++ [n]) in E. rewrite slashed_path in E.
  apply path_of_inj in E; [|cbn [app]; constructor; [exact Sn|now apply filenames_noslash]|cbn [app]; constructor; [exact Sn|apply filenames_noslash; exact (at_names _ _ _ P2 A)]].
  destruct E as [E ->]. apply (f_equal (@tl _)) in E. cbn [tl] in E. subst dir'.
  destruct En as [(En & tbl & tr & T & Gd)|(_ & ->)]; [|left; now apply SA]. destruct Gd as (G1 & _ & _ & G4 & _). destruct (G4 _ _ A) as [A'|(s & dir2 & Is & Ed & Ep & ->)]; [left; now apply SA|].
  apply app_inj_tail in Ep. destruct Ep as [<- ->]. cbn [app] in Ed. destruct (G1 s Is) as (dir2 & Ed2 & A2 & _ & M & C & F). cbn [app] in Ed2. assert (dir2 = dir) as -> by congruence.
  right. exists (s_name s), (s_data s). split; [reflexivity|]. split; [exact En|]. split; [now apply is_modelica_spec|]. split; [exact C|]. split; [exact F|]. apply SA; [|exact A2].
  destruct dir as [|c dir]; [|exact Hd]. cbn [app hd] in *. intros E. rewrite E in M. discriminate.
Qed.

Lemma lost_spelling pr K w args o name lib r z l dir n d : Sane w -> CopiesAll w -> Request w args o name lib -> package pr K w args = Ok r -> k_archive r = Some (z, l) ->
  encrypted o = true -> At (Folder lib) (dir ++ [n]) (Reg d) -> Modelica n ->
  (caseeq n PACKAGE_MO = true /\ n <> PACKAGE_MO) \/ Exists (fun c => caseeq c PACKAGE_MO = true) dir ->
  (forall e, ~ At (Folder lib) (dir ++ [n ++ B "c"]) (Reg e)) -> hd [] dir <> DOT_LIBRARY ->
  Lost lib name l (dir ++ [n]).
Proof.
  intros Sa W Rq H Ea En A M Sp No Hd. split; [eauto|]. assert (Pl : Proper (Folder lib)).
  { destruct Rq as (_ & _ & _ & p0 & p1 & _ & _ & _ & D). destruct Sa as (_ & Sp' & _). exact (Sp' _ _ D). }
  pose proof (at_names _ _ _ Pl A) as Fn. split.
  - intros e I. destruct Rq as (C & Rq). apply (no_modelica _ _ _ _ _ _ _ _ Sa C En H Ea _ _ I).
    change (name :: dir ++ [n]) with ((name :: dir) ++ [n]). rewrite slashed_path. destruct (path_last dir n name) as (a & ->). destruct M as (b & x & -> & Hx).
    exists (a ++ SLASH :: b), x. split; [|exact Hx]. now rewrite <- app_assoc.
  - intros e I. change (name :: dir ++ [n]) with ((name :: dir) ++ [n]) in I. rewrite slashed_c in I. cbn [app] in I.
    assert (Fc : Forall FileName (dir ++ [n ++ B "c"])).
    { apply Forall_app in Fn. destruct Fn as [F1 F2]. inversion F2; subst. apply Forall_app. split; [exact F1|]. apply Forall_cons; [now apply filename_c|apply Forall_nil]. }
    assert (Hh : hd [] (dir ++ [n ++ B "c"]) <> DOT_LIBRARY).
    { destruct dir as [|c dir]; [|exact Hd]. cbn [app hd]. intros E. apply (f_equal (@rev _)) in E. rewrite rev_app_distr in E. discriminate. }
    destruct (entry_from _ _ _ _ _ _ _ _ _ _ _ _ _ Sa W Rq H Ea Fc Hh I) as [(A' & _)|(m & e' & E & _ & Mm & Cm & Fm & _)].
    + exact (No _ A').
    + apply app_inj_tail in E. destruct E as [<- _]. destruct Sp as [[S1 S2]|S1]; [now apply S2, Cm|].
      apply Exists_exists in S1. destruct S1 as (c & Ic & Hc). rewrite Forall_forall in Fm. rewrite (Fm c Ic) in Hc. discriminate.
Qed.

Lemma lost_library pr K w args o name lib r z l dir n d : Sane w -> CopiesAll w -> Request w args o name lib -> package pr K w args = Ok r -> k_archive r = Some (z, l) ->
  At (Folder lib) (dir ++ [n]) (Reg d) -> In DOT_LIBRARY dir -> hd [] dir <> DOT_LIBRARY -> Lost lib name l (dir ++ [n]).
Proof.
  intros Sa W Rq H Ea A Id Hd. split; [eauto|]. assert (Pl : Proper (Folder lib)).
  { destruct Rq as (_ & _ & _ & p0 & p1 & _ & _ & _ & D). destruct Sa as (_ & Sp' & _). exact (Sp' _ _ D). }
  pose proof (at_names _ _ _ Pl A) as Fn.
  assert (Hh : forall m, hd [] (dir ++ [m]) <> DOT_LIBRARY) by (intros m; destruct dir as [|c dir]; [contradiction|exact Hd]).
  assert (X : forall m e, Forall FileName (dir ++ [m]) -> ~ In (slashed (name :: dir ++ [m]), e) l).
  { intros m e F I. destruct (entry_from _ _ _ _ _ _ _ _ _ _ _ _ _ Sa W Rq H Ea F (Hh m) I) as [(_ & N)|(m' & e' & _ & _ & _ & _ & _ & _ & N)]; apply N; apply in_or_app; now left. }
  split; [intros e; now apply X|]. intros e I. change (name :: dir ++ [n]) with ((name :: dir) ++ [n]) in I. rewrite slashed_c in I. cbn [app] in I.
  apply X in I; [exact I|]. apply Forall_app in Fn. destruct Fn as [F1 F2]. inversion F2; subst. apply Forall_app. split; [exact F1|]. apply Forall_cons; [now apply filename_c|apply Forall_nil].
Qed.

(** An archive with an icon needs a file of its name in the top directory, and a short TMPDIR. *)
Lemma icon_needed pr K w args o name lib r z l v : Sane w -> ExactCopies w -> Request w args o name lib -> package pr K w args = Ok r -> k_archive r = Some (z, l) ->
  In (B "icon", v) o -> (exists n d, BaseName v n /\ At (Folder lib) [n] (Reg d)) /\
  exists q, IconFile lib v q /\ tmpdir_length w <= staging_length + length name + 1 + length (slashed q).
Proof.
  intros Sa X Rq H Ea Iv.
  destruct (archive_inv _ _ _ _ _ _ _ _ _ _ Sa Rq H Ea) as (_ & _ & t & p & st & doc & lib1 & dot2 & L & lib2 & Sl & D & St & _).
  assert (Sn : ~ In SLASH name). { destruct Rq as (_ & _ & _ & p0 & p1 & _ & _ & (pre & tl0 & _ & _ & Hs & _) & _). exact Hs. }
  pose proof St as (_ & _ & _ & _ & _ & (lves & dot1 & _ & _ & icon & Pi & _) & _).
  assert (Ev : value_of t (B "icon") = Some v).
  { rewrite (slots_value w args o name p t _ Sl) by (reflexivity || discriminate). pose proof Sl as (_ & C & _). rewrite option_of_value. now apply (value_command _ _ _ _ _ C). }
  destruct (icon_found _ _ _ _ _ _ _ _ _ _ _ _ Sa X D St Sn Ev Pi) as (q & Iq & Tq & _ & _ & Lq). split; [exact Tq|]. now exists q.
Qed.

(** What a manifest says about elements. *)
Lemma say_element : forall ns l n a ks, SayAll ns l -> In (Container n a ks) l -> In (n, a) (flat_map elements ns).
Proof.
  intros ns l n a ks H. induction H as [|s ns l Bl H IH|x e ns l Sx H IH]; [intros []|exact IH|]. intros [->|I].
  - inversion Sx; subst. left. reflexivity.
  - cbn [flat_map]. apply in_or_app. right. now apply IH.
Qed.
Lemma say_inside : forall ns l n a ks m b js, SayAll ns l -> In (Container n a ks) l -> In (Container m b js) ks -> In (m, b) (flat_map elements ns).
Proof.
  intros ns l n a ks m b js H. induction H as [|s ns l Bl H IH|x e ns l Sx H IH]; [intros []|exact IH|]. intros [->|I] J; [|cbn [flat_map]; apply in_or_app; right; now apply IH].
  inversion Sx; subst. right. apply in_or_app. left. now apply (say_element _ ks m b js).
Qed.
Lemma says_icon v name get ver lang execs p foreign root : Says root (manifest_shape v name get ver lang execs (Some p) foreign) ->
  In (B "icon", [(B "file", v p)]) (elements root).
Proof.
  intros H. inversion H as [n a ns l Hl| | | |]; subst. right. refine (say_inside _ _ _ _ _ _ _ [] Hl _ _); [right; left; reflexivity|].
  repeat (first [left; reflexivity|right|apply in_or_app; right]).
Qed.

(** The path of the icon in the manifest. *)
Lemma icon_attribute pr K w args o name lib r ver lang ns1 ns2 v : Sane w -> CopiesAll w -> Request w args o name lib -> package pr K w args = Ok r -> k_code r = 0 ->
  In (B "version", ver) o -> In (B "language", lang) o -> In (B "icon", v) o -> Forall (fun kv => Writable (snd kv)) o -> OneLine name ->
  (forall q d, At (Folder lib) q (Reg d) -> OneLine (slashed q)) ->
  Named (read_of w) o (B "tools") ns1 -> Named (read_of w) o (B "dependencies") ns2 -> 4 <= tmpdir_length w <= staging_length + length name ->
  exists l doc root q, k_archive r = Some (archive_name name, l) /\ In (slashed [name; B ".library"; B "manifest.xml"], doc) l /\ read_xml doc = Some root /\
    IconFile lib v q /\ In (B "icon", [(B "file", if tmpdir_length w <? staging_length then slashed (name :: q) else slashed q)]) (elements root).
Proof.
  intros Sa W Rq H Cd Iv Il Ii Fw On Fl N1 N2 Tm.
  destruct (manifest_packed pr K w args o name lib r ver lang ns1 ns2 Sa W Rq H Cd Iv Il Fw) as (l & doc & root & icon & Ea & Im & _ & R & S0 & _ & Hi); try assumption.
  { intros q d A. apply (Fl q d A). }
  assert (Eo : option_of o (B "icon") = Some v). { rewrite option_of_value. destruct Rq as (C & _). now apply (value_command _ _ _ _ _ C). }
  rewrite Eo in Hi. destruct Hi as (q & Iq & ->). exists l, doc, root, q. split; [exact Ea|]. split; [exact Im|]. split; [exact R|]. split; [exact Iq|].
  apply says_icon in S0. destruct Iq as (dir & n & d & Eq & _ & A). destruct (Fl q d A) as ([_ Nc] & Nt & Nl). destruct On as ([_ Mc] & Mt & Ml).
  replace (map attribute_char _) with (if tmpdir_length w <? staging_length then slashed (name :: q) else slashed q) in S0; [exact S0|].
  symmetry. destruct (tmpdir_length w <? staging_length); [|now apply attribute_same].
  rewrite slashed_cons by (rewrite Eq; now destruct dir). apply attribute_same; rewrite !in_app_iff; intros [X|[[X|[]]|X]]; try contradiction; discriminate.
Qed.
