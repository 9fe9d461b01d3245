(** C53: a tool reads an encrypted library. *)
From Verif Require Import Base BaseProofs ParseModel WireModel WireSpec LveModel LveSpec LveSteps LveHist LveProps ToolModel ToolSpec
  SessionModel SessionSpec SessionProofs SessionProps CryptModel CryptSpec CryptProps LibraryModel LibrarySpec LibraryProofs.

(** ** C53 *)

(** A library is encrypted and its files are put on a disk.  A tool whose key is compiled into the LVE opens a
    session, names the directory and makes any calls.  Every call is answered, and each call for an encrypted
    file of the library delivers what was in this file before it was encrypted.  Missing: files that cannot be
    decrypted (C30, C31), and other files that end in .moc. *)
Theorem C53_library_delivered_partial : forall pr K fs outs cfg key kv kl min max p lib cs,
  GoodPrimitives pr -> length K = 32 -> GoodLibrary pr fs -> PackageFirst fs ->
  encrypt_all pr K [] (map source_of fs) = Ok (Some outs) ->
  In key (cfg_keys cfg) -> (1 <= max)%Z -> Trimmed p lib ->
  Forall (fun '(k, c) => FairLink k /\ FairCall c) ((kv, Version min max) :: (kl, LibPath p) :: cs) ->
  (forall g, cfg_global cfg = Some g ->
     e_lic_new (k_env kl) (Some (cstr lib)) = Granted /\ e_checkout (k_env kl) g = Granted) ->
  (forall f, In f fs -> length (cstr lib) + length (path_of (n_dir f) (n_name f)) <= 4000) ->
  Forall (fun '(k, c) => OnDisk (k_env k) (cstr lib) fs outs /\ AsksForEntry fs c) cs ->
  exists d1 d2 ds s,
    tool_session cfg (Some key)
      (map (fun '(k, c) => (link_with pr K k, c)) ((kv, Version min max) :: (kl, LibPath p) :: cs))
      = Ok (d1 :: d2 :: ds, s, []) /\
    Forall2 (fun '(k, c) d => Answered (k_alloc k) c d /\ Delivered fs c d) cs ds.
Proof. exact library_session. Qed.
Print Assumptions C53_library_delivered_partial.

(** ** Example *)

(** A world with the toy library in /lib. *)
Definition library_world : env unit :=
  {| e_alloc := fun _ => true; e_cr_create := fun _ => Some tt; e_decrypt := fun d _ _ => Ok (d, None);
     e_lic_new := fun _ => Granted; e_checkout := fun _ => Granted; e_checkin := fun _ => Granted;
     e_stat := e_stat world;
     e_file := fun p => match CryptProps.disk_of (B "/lib") toy_library toy_outs p with
                        | Some o => Content (zlen o) o None
                        | None => NoOpen (B "No such file or directory")
                        end |}.
Definition library_link : link unit := {| k_env := library_world; k_alloc := fun _ => true; k_cut := tls_records |}.

Lemma toy_outs_small p o : CryptProps.disk_of (B "/lib") toy_library toy_outs p = Some o -> InMemory o.
Proof.
  unfold CryptProps.disk_of. destruct (find _ _) as [[f o']|] eqn:F; [|discriminate]. intros [= <-].
  apply find_some in F. destruct F as [F _]. apply in_combine_r in F.
  assert (H : forallb (fun o => (zlen o <? 2^60)%Z) toy_outs = true) by (vm_compute; reflexivity).
  rewrite forallb_forall in H. apply Z.ltb_lt. now apply H.
Qed.

Lemma library_link_fair : FairLink library_link.
Proof.
  split; [|split; [intros n; reflexivity|exact tls_fair]].
  split; [intros n; reflexivity|]. split; [discriminate|]. split.
  { intros d p f. exists d, None. split; [reflexivity|discriminate]. }
  split; [intros p; exact I|]. split; [intros p; exact I|]. split; [intros p; exact I|].
  intros p. cbn [library_link k_env library_world e_file].
  destruct (CryptProps.disk_of _ _ _ p) as [o|] eqn:E; [exact (toy_outs_small p o E)|exact I].
Qed.

Definition reads_all : list (link unit * call) :=
  map (pair library_link) [File (B "Sub/N.moc"); Feature (B "gold"); File (B "Sub/package.moc"); File (B "M.moc"); File (B "none.mo"); File (B "package.moc"); File (B "Sub/Deep/O.moc")].

Example C53_ex :
  (do (ds, _, q) <- tool_session vendor (Some (B "key2"))
     (map (fun '(k, c) => (link_with toy toy_key k, c)) ((library_link, Version 1 1) :: (library_link, LibPath (B "/lib/")) :: reads_all)) ;
   Ok (map (fun d => match d_result d with Some (Contents h) => fc_cell h | _ => None end) ds, q)) =
  Ok ([None; None; Some []; None; Some (n_data sub_package); Some (n_data top_model); None; Some (n_data top_package); Some (n_data deep_model)], []).
Proof. vm_compute. reflexivity. Qed.

(** The hypotheses about the disk and the calls hold in this example. *)
Example C53_hypotheses :
  Forall (fun '(k, c) => OnDisk (k_env k) (cstr (B "/lib")) toy_library toy_outs /\ AsksForEntry toy_library c) reads_all /\
  Forall (fun '(k, c) => FairLink k /\ FairCall c) ((library_link, Version 1 1) :: (library_link, LibPath (B "/lib/")) :: reads_all).
Proof.
  assert (O : OnDisk library_world (cstr (B "/lib")) toy_library toy_outs).
  { change (cstr (B "/lib")) with (B "/lib"). destruct toy_installed as (moc & (_ & _ & Gone) & _). split.
    - intros f out I. exists None. cbn [library_world e_file]. now rewrite (in_lib (B "/lib") _ _ f out toy_library_good I).
    - intros d Nd Np. eexists. cbn [library_world e_file]. rewrite (Gone d Nd Np). reflexivity. }
  assert (R : forall f, In f toy_library -> Readable toy_library f).
  { intros f If. split.
    - cbn [toy_library In] in If.
      destruct If as [<-|[<-|[<-|[<-|[<-|[<-|[]]]]]]];
        first [exists (n_mask top_package); apply (has_mask toy_library top_package); [cbn; tauto|reflexivity]
              |exists (n_mask sub_package); apply (has_mask toy_library sub_package); [cbn; tauto|reflexivity]
              |exists (n_mask deep_package); apply (has_mask toy_library deep_package); [cbn; tauto|reflexivity]].
    - intros p I P A. right. cbn [toy_library In] in I. destruct I as [<-|[<-|[<-|[<-|[<-|[<-|[]]]]]]]; discriminate. }
  assert (E : forall f, In f toy_library -> AsksForEntry toy_library (File (moc_path f))).
  { intros f If p [= <-] _. exists f. split; [reflexivity|]. split; [exact If|now apply R]. }
  split.
  - unfold reads_all. cbn [map]. repeat (apply Forall_cons; [split; [exact O|]|]); try apply Forall_nil.
    + apply (E sub_model). cbn; tauto.
    + discriminate.
    + apply (E sub_package). cbn; tauto.
    + apply (E top_model). cbn; tauto.
    + intros p [= <-] M. apply is_moc_spec in M. vm_compute in M. discriminate.
    + apply (E top_package). cbn; tauto.
    + apply (E deep_model). cbn; tauto.
  - unfold reads_all. cbn [map].
    repeat (apply Forall_cons; [split; [exact library_link_fair|]|]); try apply Forall_nil;
      cbn [FairCall]; try (vm_compute; discriminate); split; vm_compute; discriminate.
Qed.

(** A file in a directory without package file is delivered without as many bytes at its end as the product key has;
    if it is shorter than that, the LVE reads memory before a buffer. *)
Theorem C53_outside_refuted : forall pr K fs outs cfg key kv kl kf min max p lib f,
  GoodPrimitives pr -> length K = 32 -> GoodLibrary pr fs -> PackageFirst fs ->
  encrypt_all pr K [] (map source_of fs) = Ok (Some outs) ->
  In key (cfg_keys cfg) -> (1 <= max)%Z -> Trimmed p lib ->
  Forall (fun '(k, c) => FairLink k /\ FairCall c) [(kv, Version min max); (kl, LibPath p); (kf, File (moc_path f))] ->
  (forall g, cfg_global cfg = Some g ->
     e_lic_new (k_env kl) (Some (cstr lib)) = Granted /\ e_checkout (k_env kl) g = Granted) ->
  (forall f, In f fs -> length (cstr lib) + length (path_of (n_dir f) (n_name f)) <= 4000) ->
  OnDisk (k_env kf) (cstr lib) fs outs -> In f fs -> MocFile (moc_path f) -> NoPackage fs (n_dir f) ->
  (forall q, In q fs -> IsPackage q -> Above (n_dir q) (n_dir f) -> n_data q <> []) ->
  12 <= length (path_of (n_dir f) (n_name f)) -> length (cstr lib) + length (path_of (n_dir f) (B "package.moc")) <= 4000 ->
  let result := tool_session cfg (Some key) (map (fun '(k, c) => (link_with pr K k, c)) [(kv, Version min max); (kl, LibPath p); (kf, File (moc_path f))]) in
  if length (n_data f) <? p_len pr then result = UB OobRead
  else exists d1 d2 d h s, result = Ok ([d1; d2; d], s, []) /\ d_result d = Some (Contents h) /\
         Opened (firstn (length (n_data f) - p_len pr) (n_data f)) h.
Proof. exact outside_session. Qed.
Print Assumptions C53_outside_refuted.

(** [outside] and a short file beside it, in /lib/Resources without package file. *)
Definition short_file := file [B "Resources"] (B "Short.mo") (B "model Short end Short;") 6.
Definition loose_library := [top_package; outside; short_file].
Definition loose_outs := Eval vm_compute in match encrypt_all toy toy_key [] (map source_of loose_library) with Ok (Some o) => o | _ => [] end.
Definition loose_link : link unit :=
  {| k_env := {| e_alloc := fun _ => true; e_cr_create := fun _ => Some tt; e_decrypt := fun d _ _ => Ok (d, None);
       e_lic_new := fun _ => Granted; e_checkout := fun _ => Granted; e_checkin := fun _ => Granted; e_stat := e_stat world;
       e_file := fun p => match CryptProps.disk_of (B "/lib") loose_library loose_outs p with
                          | Some o => Content (zlen o) o None
                          | None => NoOpen (B "No such file or directory")
                          end |};
     k_alloc := fun _ => true; k_cut := tls_records |}.
Example C53_outside_ex :
  encrypt_all toy toy_key [] (map source_of loose_library) = Ok (Some loose_outs) /\
  OnDisk (k_env loose_link) (B "/lib") loose_library loose_outs /\ GoodLibrary toy loose_library /\
  NoPackage loose_library [B "Resources"] /\
  (do (ds, _, q) <- tool_session vendor (Some (B "key2"))
     (map (fun '(k, c) => (link_with toy toy_key k, c)) [(loose_link, Version 1 1); (loose_link, LibPath (B "/lib/")); (loose_link, File (moc_path outside))]) ;
   Ok (map (fun d => match d_result d with Some (Contents h) => fc_cell h | _ => None end) ds, q)) =
  Ok ([None; None; Some (B "model Extra Real x;")], []) /\
  tool_session vendor (Some (B "key2"))
     (map (fun '(k, c) => (link_with toy toy_key k, c)) [(loose_link, Version 1 1); (loose_link, LibPath (B "/lib/")); (loose_link, File (moc_path short_file))]) = UB OobRead.
Proof.
  assert (GL : GoodLibrary toy loose_library).
  { split.
    - repeat (apply Forall_cons; [apply good_file; try reflexivity; try (apply name_check; reflexivity); repeat (apply Forall_cons; [apply name_check; reflexivity|]); apply Forall_nil|]). apply Forall_nil.
    - cbn [map loose_library n_dir n_name file top_package outside short_file].
      repeat constructor; cbn [In]; intros H; repeat destruct H as [H|H]; try discriminate H; exact H. }
  assert (PF : PackageFirst loose_library) by (intros pre f post E P g Ig; exact (package_first_ok loose_library [] eq_refl pre f post E P g Ig)).
  split; [vm_compute; reflexivity|]. split; [|split; [exact GL|split; [|split; vm_compute; reflexivity]]].
  - split.
    + intros f out I. exists None. cbn [loose_link k_env e_file]. now rewrite (in_lib (B "/lib") _ _ f out GL I).
    + intros d Nd Np. eexists. cbn [loose_link k_env e_file].
      destruct (disk_of_installed toy toy_key (B "/lib") loose_library loose_outs toy_good eq_refl GL PF) as (moc & (_ & _ & Gone) & _); [vm_compute; reflexivity| |].
      { intros f I. cbn [loose_library In] in I. destruct I as [<-|[<-|[<-|[]]]]; apply Nat.leb_le; reflexivity. }
      rewrite (Gone d Nd Np). reflexivity.
  - intros m (f & If & P & D & _). cbn [loose_library In] in If. destruct If as [<-|[<-|[<-|[]]]]; cbn in *; discriminate.
Qed.
