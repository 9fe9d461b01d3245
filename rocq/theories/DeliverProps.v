(** C102: a library is packaged, shipped and read; and what becomes of links (C38). *)
From Verif Require Import Base BaseProofs ParseModel WireModel WireSpec LveModel LveSpec LveSteps LveHist LveProps ToolModel ToolSpec
  SessionModel SessionSpec SessionProofs SessionProps CryptModel CryptSpec CryptProofs CryptProps LibraryModel LibrarySpec LibraryProofs
  ArgsModel ArgsSpec ManifestModel ManifestSpec PackageModel PackageSpec TreeProofs PackageProofs ShipProofs ShipSpec ShipSession PackageExamples PackageProps ShipProps
  LiveSpec LiveProofs LiveProps DeliverSpec DeliverProofs.

(** ** C102 *)

(** A vendor packages a library with encryption while nothing fails.  This succeeds.  The archive is
    unpacked by a customer, whose tool has a listed key and names the directory; the licence of the
    library, if there is one, is granted.  Then all calls of the tool are answered, calls for
    encrypted Modelica files give the sources as the vendor wrote them, and calls for other files give
    these files.  Missing from the full statement: what [Packable], [Encryptable] and [Tidy] exclude,
    Modelica files outside packages or below an empty package file (C30, C31), files that are called
    like encrypted ones. *)
Theorem C102_delivered_partial : forall pr K w args o name lib base, GoodPrimitives pr -> length K = 32 -> Sane w -> Works w -> Request w args o name lib ->
  Packable w o name lib -> encrypted o = true -> Encryptable w name lib -> Tidy w lib (length base + 1 + length name) ->
  exists r l, package pr K w args = Ok r /\ k_code r = 0 /\ k_staging r = None /\ k_archive r = Some (archive_name name, l) /\
  forall cfg key kv kl min max p lp cs,
    In key (cfg_keys cfg) -> (1 <= max)%Z -> LveSpec.Trimmed p lp -> cstr lp = base ++ [SLASH] ++ name ->
    Forall (fun '(k, c) => FairLink k /\ FairCall c) ((kv, Version min max) :: (kl, LibPath p) :: cs) ->
    (forall g, cfg_global cfg = Some g ->
       e_lic_new (k_env kl) (Some (cstr lp)) = Granted /\ e_checkout (k_env kl) g = Granted) ->
    Forall (fun '(k, c) => Serves (k_env k) base l /\ AsksForSource lib c) cs ->
    exists d1 d2 ds s,
      tool_session cfg (Some key)
        (map (fun '(k, c) => (link_with pr K k, c)) ((kv, Version min max) :: (kl, LibPath p) :: cs))
        = Ok (d1 :: d2 :: ds, s, []) /\
      Forall2 (fun '(k, c) d => Answered (k_alloc k) c d /\ SourceDelivered lib c d /\ PlainDelivered lib c d) cs ds.
Proof.
  intros pr K w args o name lib base G LK Sa Wk Rq Pk En Ec Td.
  destruct (C98_succeeds_partial pr K w args o name lib G LK Sa Wk Rq Pk (fun _ => Ec)) as (r & l & H & Cd & Ks & Ea). exists r, l.
  split; [exact H|]. split; [exact Cd|]. split; [exact Ks|]. split; [exact Ea|]. intros cfg key kv kl min max p lp cs.
  exact (ship_everything pr K w args o name lib r base l cfg key kv kl min max p lp cs G LK Sa (proj1 Wk) (proj1 (proj2 Ec)) Rq En Td H Cd Ea).
Qed.
Print Assumptions C102_delivered_partial.

(** The library of C98_ex; its archive, unpacked in /opt. *)
Definition live_result : packed :=
  match package toy toy_key live (live_args YES) with Ok r => r | _ => {| k_code := 1; k_staging := None; k_archive := None |} end.
Definition live_entries : list (bytes * bytes) := archive_entries live_result.
Lemma live_run : package toy toy_key live (live_args YES) = Ok live_result.
Proof. vm_compute. reflexivity. Qed.
Definition live_disk_of (p : bytes) : option bytes :=
  match find (fun pd => beq (B "/opt/" ++ fst pd) p) live_entries with Some pd => Some (snd pd) | None => None end.
Definition customer_world : env unit :=
  {| e_alloc := fun _ => true; e_cr_create := fun _ => Some tt; e_decrypt := fun d _ _ => Ok (d, None);
     e_lic_new := fun _ => Granted; e_checkout := fun _ => Granted; e_checkin := fun _ => Granted;
     e_stat := e_stat LveProps.world;
     e_file := fun p => match live_disk_of p with Some o => Content (zlen o) o None | None => NoOpen (B "No such file or directory") end |}.
Definition customer_link : link unit := {| k_env := customer_world; k_alloc := fun _ => true; k_cut := tls_records |}.
Lemma customer_fair : FairLink customer_link.
Proof.
  split; [|split; [intros n; reflexivity|exact tls_fair]].
  split; [intros n; reflexivity|]. split; [discriminate|]. split.
  { intros d p f. exists d, None. split; [reflexivity|discriminate]. }
  split; [intros p; exact I|]. split; [intros p; exact I|]. split; [intros p; exact I|].
  intros p. cbn [customer_link k_env customer_world e_file]. unfold live_disk_of. destruct (find _ _) as [[q o]|] eqn:E; [|exact I]. cbn [snd].
  apply find_some in E. destruct E as [E _]. assert (H : forallb (fun pd => (zlen (snd pd) <? 2^60)%Z) live_entries = true) by (vm_compute; reflexivity).
  rewrite forallb_forall in H. apply Z.ltb_lt. exact (H _ E).
Qed.
Lemma customer_serves : Serves customer_world (B "/opt") live_entries.
Proof.
  assert (Nd : NoDup (map fst live_entries)) by (apply distinct_nodup; vm_compute; reflexivity). split.
  - intros p d I. exists None. cbn [customer_world e_file]. unfold live_disk_of. destruct (find _ _) as [[q e]|] eqn:F.
    + apply find_some in F. destruct F as [I2 E]. cbn [fst] in E. apply beq_true in E. cbn [snd]. assert (q = p) as -> by (apply (app_inv_head (B "/opt/")); exact E).
      now rewrite (entry_unique _ _ _ _ Nd I2 I).
    + exfalso. apply (find_none _ _ F) in I. cbn [fst] in I. change (B "/opt" ++ [SLASH] ++ p) with (B "/opt/" ++ p) in I. rewrite beq_refl in I. discriminate I.
  - intros p No. eexists. cbn [customer_world e_file]. unfold live_disk_of. destruct (find _ _) as [[q e]|] eqn:F; [exfalso|reflexivity]. apply find_some in F. destruct F as [I2 E].
    cbn [fst] in E. apply beq_true in E. assert (q = p) as -> by (apply (app_inv_head (B "/opt/")); exact E). exact (No e I2).
Qed.
Definition customer_calls : list (link unit * call) := map (pair customer_link) [File (B "Resources/data.txt"); File (B "Sub/B.MOc"); File (B "icon.png"); Feature (B "gold"); File (B "package.moc")].
Example C102_ex :
  GoodPrimitives toy /\ length toy_key = 32 /\ Sane live /\ Works live /\ Request live (live_args YES) (live_options YES) (B "MyLib") my_lib /\ Packable live (live_options YES) (B "MyLib") my_lib /\
  encrypted (live_options YES) = true /\ Encryptable live (B "MyLib") my_lib /\ Tidy live my_lib (length (B "/opt") + 1 + length (B "MyLib")) /\
  k_archive live_result = Some (archive_name (B "MyLib"), live_entries) /\
  Forall (fun '(k, c) => Serves (k_env k) (B "/opt") live_entries /\ AsksForSource my_lib c) customer_calls /\
  Forall (fun '(k, c) => FairLink k /\ FairCall c) ((customer_link, Version 1 1) :: (customer_link, LibPath (B "/opt/MyLib/")) :: customer_calls) /\
  LveSpec.Trimmed (B "/opt/MyLib/") (B "/opt/MyLib") /\
  (do (ds, _, q) <- tool_session vendor (Some (B "key2"))
     (map (fun '(k, c) => (link_with toy toy_key k, c)) ((customer_link, Version 1 1) :: (customer_link, LibPath (B "/opt/MyLib/")) :: customer_calls)) ;
   Ok (map (fun d => match d_result d with Some (Contents h) => fc_cell h | _ => None end) ds, q)) =
  Ok ([None; None; Some (B "1 2 3"); Some (B "within MyLib.Sub; model B end B;"); Some (B "PNG"); None; Some (B "package MyLib end MyLib;")], []).
Proof.
  destruct (C98_ex YES (or_introl eq_refl)) as (H1 & H2 & H3 & H4 & H5 & H6 & H7 & H8 & _). destruct my_wanted as [W1 W2]. do 9 (split; [first [assumption|reflexivity]|]).
  split; [vm_compute; reflexivity|]. split; [|split; [|split; [|vm_compute; reflexivity]]].
  - unfold customer_calls. cbn [map]. repeat (apply Forall_cons; [split; [exact customer_serves|]|]); try apply Forall_nil.
    + intros p [= <-] M. apply LveSteps.is_moc_spec in M. vm_compute in M. discriminate.
    + intros p [= <-] _. now exists [B "Sub"], (B "B.MO"), (B "within MyLib.Sub; model B end B;").
    + intros p [= <-] M. apply LveSteps.is_moc_spec in M. vm_compute in M. discriminate.
    + discriminate.
    + intros p [= <-] _. now exists [], (B "package.mo"), (B "package MyLib end MyLib;").
  - unfold customer_calls. cbn [map]. repeat (apply Forall_cons; [split; [exact customer_fair|]|]); try apply Forall_nil;
      cbn [FairCall]; try (vm_compute; discriminate); split; vm_compute; discriminate.
  - destruct C54_session_ex as (_ & _ & T & _). exact T.
Qed.

(** ** C38: links *)

(** Links, and what they lead to, are not in the archive; the program does not mention it.  (The same
    holds for everything on file systems that do not tell readdir the kind of an entry.)  Excluded
    are names that the encryption of another file has. *)
Theorem C38_link_refuted : forall pr K w args o name lib r z l dir n, Sane w -> CopiesAll w -> Request w args o name lib ->
  package pr K w args = Ok r -> k_archive r = Some (z, l) -> At (Folder lib) (dir ++ [n]) Other -> hd [] (dir ++ [n]) <> B ".library" ->
  (forall m e, n = m ++ B "c" -> ~ At (Folder lib) (dir ++ [m]) (Reg e)) -> (forall e, ~ At (Folder lib) (dir ++ [n ++ B "c"]) (Reg e)) ->
  (forall q d, Forall FileName q -> ~ In (slashed (name :: dir ++ [n] ++ q), d) l) /\ (forall d, ~ In (slashed (name :: dir ++ [n]) ++ B "c", d) l).
Proof. exact link_lost. Qed.
Print Assumptions C38_link_refuted.
(** The program ends with code 0 for this library. *)
Example C38_link_ex : Sane (machine odd_lib no_faults) /\ CopiesAll (machine odd_lib no_faults) /\
  Request (machine odd_lib no_faults) (pack_args YES ICON) (pack_options YES ICON) (B "MyLib") odd_lib /\
  package toy toy_key (machine odd_lib no_faults) (pack_args YES ICON) = Ok odd_result /\ k_code odd_result = 0 /\ k_archive odd_result <> None /\
  At (Folder odd_lib) ([] ++ [B "link.mo"]) Other.
Proof.
  destruct C38_odd_ex as (S0 & W0 & R0 & E0 & C0 & _). split; [exact S0|]. split; [exact (proj1 W0)|]. split; [exact R0|]. split; [exact E0|]. split; [exact C0|].
  split; [vm_compute; discriminate|]. now apply find_path_at.
Qed.
