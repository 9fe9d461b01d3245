(** From the library to the tool that reads the archive. *)
From Coq Require Import Permutation.
From Verif Require Import Base BaseProofs ArgsModel ArgsSpec ArgsProofs ManifestModel ManifestSpec ManifestProofs WireModel CryptModel CryptSpec CbcProofs MaskProofs DemaskProofs CryptProofs
  PackageModel PackageSpec TreeProofs CopyProofs EncProofs ZipProofs PackageProofs.

Lemma path_of_inj : forall d1 d2 n1 n2, Forall (fun c => ~ In SLASH c) (d1 ++ [n1]) -> Forall (fun c => ~ In SLASH c) (d2 ++ [n2]) ->
  path_of d1 n1 = path_of d2 n2 -> d1 = d2 /\ n1 = n2.
Proof.
  assert (Cut : forall a b x y, ~ In SLASH a -> ~ In SLASH b -> a ++ SLASH :: x = b ++ SLASH :: y -> a = b /\ x = y).
  { induction a as [|c a IH]; intros [|e b] x y Na Nb E; cbn [app] in E.
    - split; [reflexivity|congruence].
    - exfalso. apply Nb. left. congruence.
    - exfalso. apply Na. left. congruence.
    - assert (c = e) as <- by congruence. apply (f_equal (@tl _)) in E. cbn [tl] in E.
      destruct (IH b x y) as [-> ->]; [intros I; apply Na; now right|intros I; apply Nb; now right|exact E|]. now split. }
  induction d1 as [|c d1 IH]; intros [|e d2] n1 n2 F1 F2 E; cbn [path_of app] in *.
  - now split.
  - exfalso. inversion F1; subst. apply H1. rewrite in_app_iff. right. now left.
  - exfalso. inversion F2; subst. apply H1. rewrite in_app_iff. right. now left.
  - inversion F1; subst. inversion F2; subst. destruct (Cut _ _ _ _ H1 H3 E) as [-> E2]. destruct (IH d2 n1 n2 H2 H4 E2) as [-> ->]. now split.
Qed.
Lemma filenames_noslash l : Forall FileName l -> Forall (fun c => ~ In SLASH c) l.
Proof. apply Forall_impl. now intros c (_ & H & _). Qed.
Lemma names_noslash l : Forall Name l -> Forall (fun c => ~ In SLASH c) l.
Proof. apply Forall_impl. now intros c (_ & H & _). Qed.

Lemma combine_map {A C D} (f : A -> C) (g : A -> D) l x y : In (x, y) (combine (map f l) (map g l)) -> exists s, In s l /\ x = f s /\ y = g s.
Proof.
  induction l as [|a l IH]; [intros []|]. cbn [map combine]. intros [E|I]; [injection E as <- <-; exists a; split; [now left|now split]|].
  destruct (IH I) as (s & Is & E). exists s. split; [now right|exact E].
Qed.
Lemma in_combine_map {A C D} (f : A -> C) (g : A -> D) l s : In s l -> In (f s, g s) (combine (map f l) (map g l)).
Proof. induction l as [|a l IH]; [intros []|]. intros [->|I]; [now left|right; now apply IH]. Qed.

Lemma key_unique l s s' : NoDup (map s_key l) -> In s l -> In s' l -> s_key s = s_key s' -> s = s'.
Proof.
  induction l as [|a l IH]; intros N I I' E; [contradiction|]. cbn [map] in N. inversion N; subst. destruct I as [->|I], I' as [->|I'].
  - reflexivity.
  - exfalso. apply H1. rewrite E. now apply in_map.
  - exfalso. apply H1. rewrite <- E. now apply in_map.
  - now apply IH.
Qed.

(** What is needed of an encrypted library in an archive. *)
Definition Built (pr : primitives) (K : bytes) (w : world) (name : bytes) (lib : entries) (l : list (bytes * bytes)) : Prop :=
  exists L lib2 tbl tr, Proper (Folder lib2) /\ ~ In SLASH name /\ Packed true name (Folder lib2) true l /\
    Trace pr K w [] tr tbl /\ Good w [] (Folder L) (Folder lib2) tr /\
    (forall q d, At (Folder L) q (Reg d) -> Origin w lib q d) /\
    (forall q d, hd [] q <> DOT_LIBRARY -> (At (Folder L) q (Reg d) <-> At (Folder lib) q (Reg d) /\ ~ In DOT_LIBRARY q)).
Definition Shipped (pr : primitives) (K : bytes) (name : bytes) (lib : entries) (base : nat) (l : list (bytes * bytes)) : Prop :=
  exists fs outs, GoodLibrary pr fs /\ PackageFirst fs /\ encrypt_all pr K [] (map source_of fs) = Ok (Some outs) /\
    (forall f out, In (f, out) (combine fs outs) -> In (name ++ [SLASH] ++ moc_path f, out) l) /\
    (forall d, Forall Name d -> NoPackage fs d -> forall x, ~ In (name ++ [SLASH] ++ path_of d (B "package.moc"), x) l) /\
    (forall f, In f fs -> base + 1 + length name + length (path_of (n_dir f) (n_name f)) <= 4000) /\
    (forall dir n d, Wanted lib dir n d -> exists f out, In (f, out) (combine fs outs) /\ Readable fs f /\ n_dir f = dir /\ n_name f = n /\ n_data f = d /\
       forall out', In (slashed (name :: dir ++ [n ++ B "c"]), out') l -> out' = out) /\
    (forall dir n d, At (Folder lib) (dir ++ [n]) (Reg d) -> ~ In DOT_LIBRARY dir -> Modelica n ->
       exists f out, In (f, out) (combine fs outs) /\ n_dir f = dir /\ n_name f = n /\ n_data f = d /\
       forall out', In (slashed (name :: dir ++ [n ++ B "c"]), out') l -> out' = out) /\
    (forall f, In f fs -> hd [] (n_dir f ++ [n_name f]) <> DOT_LIBRARY -> At (Folder lib) (n_dir f ++ [n_name f]) (Reg (n_data f))).
Lemma built_library pr K w name lib base l : GoodPrimitives pr -> (forall r, length (w_iv w r) = 16 /\ length (w_mask w r) = 32) -> (forall p, w_open w p = true) ->
  Tidy w lib (base + 1 + length name) -> Built pr K w name lib l -> Shipped pr K name lib base l.
Proof.
  intros G Sr Wo Td (L & lib2 & tbl & tr & P2 & Sn & (P0 & P1) & T & Gd & Or & SA). specialize (P1 eq_refl).
  destruct Gd as (G1 & G2 & G3 & G4 & G5 & G6 & G7). exists (map (entry_of pr w) tr), (map s_out tr).
  assert (Tr : forall s, In s tr -> At (Folder L) (s_dir s ++ [s_name s]) (Reg (s_data s)) /\ At (Folder lib2) (s_dir s ++ [s_name s ++ B "c"]) (Reg (s_out s)) /\
    Modelica (s_name s) /\ Forall Name (s_dir s ++ [s_name s]) /\ Forall (fun c => caseeq c (B "package.mo") = false /\ caseeq c (B "package.moc") = false) (s_dir s) /\
       (caseeq (s_name s) (B "package.mo") = true -> s_name s = B "package.mo") /\ (zlen (s_data s) < 2^31 - 256)%Z /\ base + 1 + length name + length (slashed (s_dir s ++ [s_name s])) <= 4000).
  { intros s Is. destruct (G1 s Is) as (dir & Ed & A1 & A2 & Ms & _). cbn [app] in Ed. subst dir. apply is_modelica_spec in Ms.
    split; [exact A1|]. split; [exact A2|]. split; [exact Ms|]. exact (proj2 (Td _ _ _ (Or _ _ A1)) Ms). }
  assert (GL : GoodLibrary pr (map (entry_of pr w) tr)).
  { split.
    - apply Forall_forall. intros f If. apply in_map_iff in If. destruct If as (s & <- & Is). destruct (Tr s Is) as (_ & _ & _ & N & C & S0 & Z & Len).
      apply Forall_app in N. destruct N as [N1 N2]. inversion N2; subst. rewrite slashed_path in Len. destruct (Sr (s_rel s)) as [S1 S2].
      unfold GoodEntry. cbn [entry_of n_dir n_name n_iv n_mask n_data]. split; [exact N1|]. split; [assumption|]. split; [exact C|]. split; [exact S0|]. split; [lia|]. split; [exact S1|]. split; [rewrite firstn_length, S2; apply Nat.min_l; exact (proj2 (proj2 G))|exact Z].
    - rewrite map_map. exact G2. }
  assert (PF : PackageFirst (map (entry_of pr w) tr)).
  { intros pre f post E Pf g Ig Ab. apply map_eq_app in E. destruct E as (tr1 & tr2 & -> & <- & E2). apply map_eq_cons in E2. destruct E2 as (s & tr3 & -> & <- & <-).
    apply in_map_iff in Ig. destruct Ig as (s' & <- & Is'). exact (G3 tr1 s tr3 eq_refl Pf s' Is' Ab). }
  assert (Ix : forall s, In s tr -> In (name ++ [SLASH] ++ moc_path (entry_of pr w s), s_out s) l).
  { intros s Is. destruct (Tr s Is) as (_ & A2 & Ms & _). unfold moc_path. cbn [entry_of n_dir n_name].
    change (name ++ [SLASH] ++ path_of (s_dir s) (s_name s ++ B "c")) with (path_of (name :: s_dir s) (s_name s ++ B "c")). apply P1; [exact A2|]. intros _. apply modelica_c. now apply is_modelica_spec. }
  assert (Inv : forall dir n x, Forall (fun c => ~ In SLASH c) (dir ++ [n]) -> In (path_of (name :: dir) n, x) l -> At (Folder lib2) (dir ++ [n]) (Reg x)).
  { intros dir n x F I. destruct (P0 _ _ I) as (dir' & n' & E & A & _). destruct (proper_at _ _ _ P2 A) as [_ F']. apply filenames_noslash in F'.
    apply path_of_inj in E; [|cbn [app]; now constructor|cbn [app]; now constructor]. destruct E as [E1 ->]. injection E1 as ->. exact A. }
  split; [exact GL|]. split; [exact PF|]. split; [exact (trace_encrypt_all _ _ _ _ _ _ T)|]. split; [|split; [|split]].
  - intros f out I. apply combine_map in I. destruct I as (s & Is & -> & ->). now apply Ix.
  - intros d Nd NP x I. change (name ++ [SLASH] ++ path_of d (B "package.moc")) with (path_of (name :: d) (B "package.moc")) in I.
    apply Inv in I. 2:{ apply Forall_app. split; [now apply names_noslash|]. apply Forall_cons; [|apply Forall_nil]. intros Hi. cbn in Hi. repeat destruct Hi as [Hi|Hi]; try discriminate Hi; exact Hi. }
    destruct (G4 _ _ I) as [A|(s & dir & Is & Ed & Ep & _)]; [exact (proj1 (Td _ _ _ (Or _ _ A)) eq_refl)|]. cbn [app] in Ed. subst dir.
    apply app_inj_tail in Ep. destruct Ep as [-> Ep]. change (B "package.moc") with (B "package.mo" ++ B "c") in Ep. apply app_inj_tail in Ep. destruct Ep as [Ep _].
    apply (NP (n_mask (entry_of pr w s))). exists (entry_of pr w s). split; [now apply in_map|]. split; [now symmetry|]. now split.
  - intros f If. apply in_map_iff in If. destruct If as (s & <- & Is). destruct (Tr s Is) as (_ & _ & _ & _ & _ & _ & _ & Len). now rewrite slashed_path in Len.
  - assert (Src : forall dir n d, At (Folder lib) (dir ++ [n]) (Reg d) -> ~ In DOT_LIBRARY dir -> Modelica n ->
      (forall m, m <> DOT_LIBRARY -> hd [] (dir ++ [m]) <> DOT_LIBRARY /\ ~ In DOT_LIBRARY (dir ++ [m])) /\
      Forall (fun c => caseeq c PACKAGE_MO = false) dir /\
      exists s, In s tr /\ s_dir s = dir /\ s_name s = n /\ s_data s = d /\
        forall out', In (slashed (name :: dir ++ [n ++ B "c"]), out') l -> out' = s_out s).
    { intros dir n d A Nd Mn.
      assert (Hd : forall m, m <> DOT_LIBRARY -> hd [] (dir ++ [m]) <> DOT_LIBRARY /\ ~ In DOT_LIBRARY (dir ++ [m])).
      { intros m Nm. split; [destruct dir as [|c dir]; cbn [app hd]; [exact Nm|]; intros ->; apply Nd; now left|]. rewrite in_app_iff. intros [I|[I|[]]]; [exact (Nd I)|exact (Nm I)]. }
      assert (Nn : n <> DOT_LIBRARY). { intros ->. apply is_modelica_spec in Mn. discriminate. }
      assert (AL : At (Folder L) (dir ++ [n]) (Reg d)). { apply SA; [now apply Hd|]. split; [exact A|now apply Hd]. }
      destruct (proj2 (Td _ _ _ (Or _ _ AL)) Mn) as (Nm & Cc & Cp & _). 
      assert (Fd : Forall (fun c => caseeq c PACKAGE_MO = false) dir) by (revert Cc; apply Forall_impl; now intros c [Hc _]).
      destruct (G6 Wo dir n d AL) as (s & Is & Ed & Es & Ds); [now apply is_modelica_spec|exact Cp|exact Fd|]. cbn [app] in Ed.
      split; [exact Hd|]. split; [exact Fd|]. exists s. split; [exact Is|]. split; [exact Ed|]. split; [exact Es|]. split; [exact Ds|].
      intros out' I. change (name :: dir ++ [n ++ B "c"]) with ((name :: dir) ++ [n ++ B "c"]) in I. rewrite slashed_path in I.
      destruct (Tr s Is) as (_ & A2 & _). rewrite Ed, Es in A2. apply Inv in I.
      * pose proof (at_unique _ _ _ P2 A2 _ I) as E. congruence.
      * destruct (proper_at _ _ _ P2 A2) as [_ F']. now apply filenames_noslash. }
    split; [|split].
    + intros dir n d (A & Nd & Mn & (pk & Ap) & Up). destruct (Src dir n d A Nd Mn) as (Hd & Fd & s & Is & Ed & Es & Ds & Un).
      exists (entry_of pr w s), (s_out s). split; [now apply in_combine_map|]. split; [|split; [exact Ed|split; [exact Es|split; [exact Ds|exact Un]]]].
      split.
      * assert (APL : At (Folder L) (dir ++ [PACKAGE_MO]) (Reg pk)). { apply SA; [now apply Hd|]. split; [exact Ap|now apply Hd]. }
        
        destruct (G6 Wo dir PACKAGE_MO pk APL) as (s2 & Is2 & Ed2 & Es2 & _); [reflexivity|reflexivity|exact Fd|]. cbn [app] in Ed2.
        exists (n_mask (entry_of pr w s2)). exists (entry_of pr w s2). split; [now apply in_map|]. split; [exact Es2|]. split; [|reflexivity]. cbn [entry_of n_dir]. congruence.
      * intros f If Pf (b & Eb). apply in_map_iff in If. destruct If as (s2 & <- & Is2). cbn [entry_of n_dir n_name n_data] in *. unfold IsPackage in Pf. cbn [entry_of n_name] in Pf.
        destruct (Tr s2 Is2) as (A2 & _). rewrite Pf in A2. rewrite Ed in Eb.
        assert (A3 : At (Folder lib) (s_dir s2 ++ [PACKAGE_MO]) (Reg (s_data s2))).
        { apply SA in A2; [apply A2|]. destruct (s_dir s2) as [|c q]; cbn [app hd]; [discriminate|]. intros ->. apply Nd. rewrite Eb. now left. }
        destruct (Up _ _ _ Eb A3) as [[-> ->]|Ne]; [left|now right]. f_equal. apply (key_unique tr); try assumption. unfold s_key. rewrite Ed, Es, Pf, Eb, app_nil_r. reflexivity.
    + intros dir n d A Nd Mn. destruct (Src dir n d A Nd Mn) as (_ & _ & s & Is & Ed & Es & Ds & Un).
      exists (entry_of pr w s), (s_out s). split; [now apply in_combine_map|]. split; [exact Ed|]. split; [exact Es|]. split; [exact Ds|exact Un].
    + intros f If Hf. apply in_map_iff in If. destruct If as (s & <- & Is). cbn [entry_of n_dir n_name n_data] in *. destruct (Tr s Is) as (A & _).
      apply SA in A; [apply A|exact Hf].
Qed.
Lemma package_built pr K w args o name lib r l : Sane w -> CopiesAll w -> PlainLves w ->
  Request w args o name lib -> encrypted o = true -> package pr K w args = Ok r -> k_code r = 0 ->
  k_archive r = Some (archive_name name, l) -> Built pr K w name lib l.
Proof.
  intros Sa W Pl Rq En H Cd Ea.
  destruct (archive_inv _ _ _ _ _ _ _ _ _ _ Sa Rq H Ea) as (_ & _ & t & p & st & doc & lib1 & dot2 & L & lib2 & Sl & D & St & PL & P2 & Pk & Ec & _).
  destruct Ec as [(_ & tbl & tr & T & Gd)|(He' & _)]; [|congruence]. rewrite Cd, En in Pk.
  assert (X : ExactCopies w) by (intros f g d; destruct W as (Wc & _); rewrite Wc; now left).
  exists L, lib2, tbl, tr. split; [exact P2|]. split.
  { destruct Rq as (_ & _ & _ & p0 & p1 & _ & _ & (pre & tl0 & _ & _ & Hs & _) & _). exact Hs. }
  split; [exact Pk|]. split; [exact T|]. split; [exact Gd|]. split; [exact (staged_origin _ _ _ _ _ _ _ _ _ _ X Pl D St)|exact (staged_at _ _ _ _ _ _ _ _ _ _ W Sa D St)].
Qed.
Lemma packed_library pr K w args o name lib r base l : GoodPrimitives pr -> length K = 32 -> Sane w -> CopiesAll w -> PlainLves w ->
  Request w args o name lib -> encrypted o = true -> Tidy w lib (base + 1 + length name) -> package pr K w args = Ok r -> k_code r = 0 ->
  k_archive r = Some (archive_name name, l) -> Shipped pr K name lib base l.
Proof.
  intros G LK Sa W Pl Rq En Td H Cd Ea. apply (built_library pr K w name lib base l G); [apply Sa|apply W|exact Td|].
  exact (package_built pr K w args o name lib r l Sa W Pl Rq En H Cd Ea).
Qed.


(** ** Decryption of the unpacked files *)

Definition request : Type := list bytes * bytes * bytes * bytes.
Lemma shipped_decrypt pr K name lib base l disk : GoodPrimitives pr -> length K = 32 -> Shipped pr K name lib (length base) l -> Unpacked base l disk ->
  (forall dir n d, Wanted lib dir n d -> exists out, In (slashed (name :: dir ++ [n ++ B "c"]), out) l) /\
  forall reqs : list request, (forall dir n d out, In (dir, n, d, out) reqs -> Wanted lib dir n d /\ In (slashed (name :: dir ++ [n ++ B "c"]), out) l) ->
  decrypt_all pr K disk (base ++ [SLASH] ++ name) [] (map (fun '(dir, n, _, out) => (slashed (dir ++ [n ++ B "c"]), out)) reqs) = Ok (map (fun '(_, _, d, _) => Some d) reqs).
Proof.
  intros G LK Sh (U1 & U2).
  destruct Sh as (fs & outs & GL & PF & Ee & I1 & I2 & Ln & Wa & _).
  split.
  { intros dir n d Wd. destruct (Wa dir n d Wd) as (f & out & I & _ & <- & <- & _). exists out. apply I1 in I.
    change (name :: n_dir f ++ [n_name f ++ B "c"]) with ((name :: n_dir f) ++ [n_name f ++ B "c"]). now rewrite slashed_path. }
  intros reqs Hr. destruct (round_trip pr K fs G LK GL PF) as (outs' & Ee' & _ & RT). assert (outs' = outs) as -> by congruence.
  assert (Fx : exists reqs', (forall f out, In (f, out) reqs' -> In (f, out) (combine fs outs) /\ Readable fs f) /\
    map (fun '(dir, n, _, out) => (slashed (dir ++ [n ++ B "c"]), out)) reqs = map (fun '(f, out) => (moc_path f, out)) reqs' /\
    map (fun '(_, _, d, _) => Some d) reqs = map (fun '(f, _) => Some (n_data f)) reqs').
  { clear - Hr Wa. induction reqs as [|[[[dir n] d] out] reqs IH]; [exists []; split; [intros f out []|now split]|].
    destruct IH as (reqs' & R1 & R2 & R3); [intros dir' n' d' out' I; apply Hr; now right|]. destruct (Hr dir n d out (or_introl eq_refl)) as [Wd Io].
    destruct (Wa dir n d Wd) as (f & out2 & If & Rf & Ed & Es & Ds & U). rewrite (U out Io) in *. exists ((f, out2) :: reqs'). split; [|split].
    - intros f' out' [E|I]; [injection E as <- <-; now split|now apply R1].
    - cbn [map]. rewrite R2. f_equal. unfold moc_path. now rewrite slashed_path, Ed, Es.
    - cbn [map]. now rewrite R3, Ds. }
  destruct Fx as (reqs' & R1 & -> & ->). apply RT; [| | |exact R1].
  - intros f If. rewrite !app_length. cbn [length]. specialize (Ln f If). lia.
  - intros f out I. rewrite <- !app_assoc. apply U1. now apply I1.
  - intros d Nd NP. rewrite <- !app_assoc. apply U2. intros x. now apply I2.
Qed.
Lemma ship_decrypt pr K w args o name lib r base l disk : GoodPrimitives pr -> length K = 32 -> Sane w -> CopiesAll w -> PlainLves w ->
  Request w args o name lib -> encrypted o = true -> Tidy w lib (length base + 1 + length name) -> package pr K w args = Ok r -> k_code r = 0 ->
  k_archive r = Some (archive_name name, l) -> Unpacked base l disk ->
  (forall dir n d, Wanted lib dir n d -> exists out, In (slashed (name :: dir ++ [n ++ B "c"]), out) l) /\
  forall reqs : list request, (forall dir n d out, In (dir, n, d, out) reqs -> Wanted lib dir n d /\ In (slashed (name :: dir ++ [n ++ B "c"]), out) l) ->
  decrypt_all pr K disk (base ++ [SLASH] ++ name) [] (map (fun '(dir, n, _, out) => (slashed (dir ++ [n ++ B "c"]), out)) reqs) = Ok (map (fun '(_, _, d, _) => Some d) reqs).
Proof.
  intros G LK Sa W Pl Rq En Td H Cd Ea. apply (shipped_decrypt pr K name lib base l disk G LK).
  exact (packed_library pr K w args o name lib r (length base) l G LK Sa W Pl Rq En Td H Cd Ea).
Qed.

(** An empty package file: the first request for a file beside it fails, the second succeeds. *)
Lemma ship_empty pr K w args o name lib r base l disk dir n d out : GoodPrimitives pr -> length K = 32 -> Sane w -> CopiesAll w -> PlainLves w ->
  Request w args o name lib -> encrypted o = true -> Tidy w lib (length base + 1 + length name) -> package pr K w args = Ok r -> k_code r = 0 ->
  k_archive r = Some (archive_name name, l) -> Unpacked base l disk ->
  At (Folder lib) (dir ++ [n]) (Reg d) -> ~ In DOT_LIBRARY dir -> Modelica n -> n <> PACKAGE_MO ->
  At (Folder lib) (dir ++ [PACKAGE_MO]) (Reg []) ->
  (forall a b p, dir = a ++ b -> At (Folder lib) (a ++ [PACKAGE_MO]) (Reg p) -> b = [] \/ p <> []) ->
  In (slashed (name :: dir ++ [n ++ B "c"]), out) l -> (forall data, ~ Authentic pr K out data) ->
  decrypt_all pr K disk (base ++ [SLASH] ++ name) [] [(slashed (dir ++ [n ++ B "c"]), out); (slashed (dir ++ [n ++ B "c"]), out)] = Ok [None; Some d].
Proof.
  intros G LK Sa W Pl Rq En Td H Cd Ea (U1 & U2) A Nd Mn Np Ap Up Io Na.
  destruct (packed_library pr K w args o name lib r (length base) l G LK Sa W Pl Rq En Td H Cd Ea) as (fs & outs & GL & PF & Ee & I1 & I2 & Ln & _ & Src & Or).
  destruct (encrypt_library pr K fs G LK GL PF) as (outs' & E' & F2). assert (outs' = outs) as -> by congruence. clear E'.
  destruct (Src dir n d A Nd Mn) as (f & o1 & If & Ed & Es & Ds & Un). rewrite <- (Un out Io) in *.
  assert (Mp : Modelica PACKAGE_MO) by now apply is_modelica_spec.
  destruct (Src dir PACKAGE_MO [] Ap Nd Mp) as (p & o2 & Ip & Pd & Pn & Pe & _).
  set (moc := fun g => match disk (base ++ [SLASH] ++ name ++ [SLASH] ++ moc_path g) with Some x => x | None => [] end).
  assert (Mc : forall g x, In (g, x) (combine fs outs) -> disk (base ++ [SLASH] ++ name ++ [SLASH] ++ moc_path g) = Some x /\ moc g = x).
  { intros g x I. pose proof (U1 _ _ (I1 _ _ I)) as E. split; [exact E|]. unfold moc. now rewrite E. }
  assert (Ins : Installed pr K fs (base ++ [SLASH] ++ name) disk moc).
  { split; [|split].
    - intros g Ig. rewrite !app_length. cbn [length]. specialize (Ln g Ig). lia.
    - intros g Ig. destruct (forall2_in _ _ _ F2 g Ig) as (x & Ix). destruct (Mc g x Ix) as [E1 E2]. rewrite <- !app_assoc, E2. split; [|exact E1].
      exact (forall2_combine _ _ _ F2 g x Ix).
    - intros q Nq NP. rewrite <- !app_assoc. apply U2. intros x. now apply I2. }
  assert (Ep : slashed (dir ++ [n ++ B "c"]) = moc_path f) by (unfold moc_path; now rewrite slashed_path, Ed, Es).
  rewrite Ep, <- Ds. destruct (Mc f out If) as [_ <-].
  apply (empty_package pr K fs (base ++ [SLASH] ++ name) disk moc f p G LK GL Ins).
  - exact (in_combine_l _ _ _ _ If).
  - unfold IsPackage. rewrite Es. exact Np.
  - exact (in_combine_l _ _ _ _ Ip).
  - exact Pn.
  - congruence.
  - exact Pe.
  - intros q Iq Pq (b & Eb). rewrite Ed in Eb.
    assert (A3 : At (Folder lib) (n_dir q ++ [n_name q]) (Reg (n_data q))).
    { apply Or; [exact Iq|]. unfold IsPackage in Pq. rewrite Pq. destruct (n_dir q) as [|c x] eqn:Eq; cbn [app hd]; [discriminate|]. intros ->. apply Nd. rewrite Eb. now left. }
    rewrite Pq in A3. destruct (Up _ _ _ Eb A3) as [-> | Ne]; [left|now right].
    apply (moc_path_inj (pr := pr) fs); [exact GL|exact Iq|exact (in_combine_l _ _ _ _ Ip)|]. unfold moc_path. unfold IsPackage in Pq.
    rewrite Pq, Pn, Pd, Eb, app_nil_r. reflexivity.
  - exact Na.
Qed.
