(** C25-C33: encryption and decryption of libraries. *)
From Verif Require Import Base BaseProofs WireModel CryptModel CryptSpec CbcProofs MaskProofs DemaskProofs CryptProofs.

(** ** Primitives and a library for the examples *)

Definition toy : primitives := {|
  p_enc := fun k b => xor b (firstn 16 k);
  p_dec := fun k b => xor b (firstn 16 k);
  p_mac := fun k d => xor (firstn 32 (k ++ repeat NUL 32)) (firstn 32 (d ++ repeat NUL 32));
  p_len := 30 |}.
Lemma toy_good : GoodPrimitives toy.
Proof.
  split; [|split; [|cbn; lia]].
  - intros k b Lk Lb. cbn [p_enc p_dec toy]. split; [apply xor_invol|]. now rewrite xor_length.
  - intros k d. cbn [p_mac toy]. rewrite xor_length, !firstn_length, !app_length, repeat_length. lia.
Qed.

Lemma authentic_mac pr key file data : GoodPrimitives pr -> Authentic pr key file data ->
  Mac pr key (firstn 16 file ++ data) = skipn (length file - 32) file.
Proof.
  intros G (iv & ct & L & ->). rewrite firstn_app, L, Nat.sub_diag, (firstn_all2 iv) by lia. cbn [firstn]. rewrite app_nil_r.
  pose proof (proj1 (proj2 G) (firstn (p_len pr) key) (iv ++ data)) as Lm. fold (Mac pr key (iv ++ data)) in Lm. set (mac := Mac pr key (iv ++ data)) in *.
  rewrite (app_assoc iv). replace (length ((iv ++ ct) ++ mac) - 32) with (length (iv ++ ct)) by (rewrite (app_length (iv ++ ct)), Lm; lia).
  rewrite skipn_app, skipn_all, Nat.sub_diag. reflexivity.
Qed.

Definition toy_key : bytes := repeat (ch 7) 32.
Definition file (dir : list bytes) (name data : bytes) (seed : nat) : entry :=
  {| n_dir := dir; n_name := name; n_data := data; n_iv := repeat (ch seed) 16; n_mask := repeat (ch (seed + 100)) 30 |}.
Definition top_package := file [] (B "package.mo") (B "package P end P;") 1.
Definition top_model := file [] (B "M.mo") (B "within P; model M end M;") 2.
Definition sub_package := file [B "Sub"] (B "package.mo") (B "within P; package Sub end Sub;") 3.
Definition sub_model := file [B "Sub"] (B "N.mo") [] 4.
Definition deep_package := file [B "Sub"; B "Deep"] (B "package.mo") (B "within P.Sub; package Deep end Deep;") 5.
Definition deep_model := file [B "Sub"; B "Deep"] (B "O.mo") (B "model O end O;") 6.
Definition toy_library : list entry := [top_package; top_model; sub_package; sub_model; deep_package; deep_model].

Lemma good_file dir name data seed : Forall Name dir -> Name name ->
  forallb (fun d => negb (caseeq d (B "package.mo")) && negb (caseeq d (B "package.moc"))) dir = true ->
  beq name (B "package.mo") || negb (caseeq name (B "package.mo")) = true ->
  length (path_of dir name) <=? 4000 = true -> (zlen data <? 2^31 - 256)%Z = true -> GoodEntry toy (file dir name data seed).
Proof.
  intros Fd Fn D C L Z. split; [exact Fd|]. split; [exact Fn|]. split.
  { rewrite forallb_forall in D. apply Forall_forall. intros d I. specialize (D d I). apply andb_prop in D. destruct D as [D1 D2].
    apply negb_true_iff in D1. apply negb_true_iff in D2. now split. }
  split. { cbn [n_name file]. unfold IsPackage. cbn [n_name file]. intros E. rewrite E in C. cbn [negb] in C. rewrite orb_false_r in C. now apply beq_true. }
  split; [now apply Nat.leb_le|]. cbn [n_iv n_mask n_data file]. rewrite !repeat_length. split; [reflexivity|]. split; [reflexivity|].
  now apply Z.ltb_lt.
Qed.
Lemma name_check n : negb (beq n []) && forallb (fun c => negb (Ascii.eqb c SLASH) && negb (Ascii.eqb c BSLASH) && negb (Ascii.eqb c NUL)) n = true -> Name n.
Proof.
  intros H. apply andb_prop in H. destruct H as [N F]. rewrite forallb_forall in F.
  split; [intros ->; discriminate|].
  split; [|split]; intros I; specialize (F _ I); rewrite Ascii.eqb_refl in F; cbn in F; rewrite ?andb_false_r in F; discriminate.
Qed.
Lemma toy_library_good : GoodLibrary toy toy_library.
Proof.
  split.
  - repeat (apply Forall_cons; [apply good_file; try reflexivity; try (apply name_check; reflexivity); repeat (apply Forall_cons; [apply name_check; reflexivity|]); apply Forall_nil|]). apply Forall_nil.
  - cbn [map toy_library n_dir n_name file top_package top_model sub_package sub_model deep_package deep_model].
    repeat constructor; cbn [In]; intros H; repeat destruct H as [H|H]; try discriminate H; exact H.
Qed.
(** A list decision of [PackageFirst]. *)
Fixpoint prefix_of (a b : list bytes) : bool :=
  match a, b with
  | [], _ => true
  | x :: a', y :: b' => beq x y && prefix_of a' b'
  | _, _ => false
  end.
Lemma prefix_above a : forall b, Above a b -> prefix_of a b = true.
Proof. induction a as [|x a IH]; intros b (c & ->); [reflexivity|]. cbn [app prefix_of]. rewrite beq_refl. apply IH. now exists c. Qed.
Fixpoint package_first (pre fs : list entry) : bool :=
  match fs with
  | [] => true
  | f :: r => (negb (beq (n_name f) (B "package.mo")) || forallb (fun g => negb (prefix_of (n_dir f) (n_dir g))) pre)
              && package_first (pre ++ [f]) r
  end.
Lemma package_first_ok : forall fs pre, package_first pre fs = true ->
  forall a f post, fs = a ++ f :: post -> IsPackage f -> forall g, In g (pre ++ a) -> ~ Above (n_dir f) (n_dir g).
Proof.
  induction fs as [|h fs IH]; intros pre H a f post E P g Ig A; [destruct a; discriminate|].
  cbn [package_first] in H. apply andb_prop in H. destruct H as [H1 H2]. destruct a as [|h' a].
  - injection E as -> ->. rewrite P in H1. rewrite beq_refl in H1. cbn [negb orb] in H1. rewrite forallb_forall in H1.
    rewrite app_nil_r in Ig. specialize (H1 g Ig). rewrite (prefix_above _ _ A) in H1. discriminate.
  - injection E as -> ->. apply (IH (pre ++ [h']) H2 a f post eq_refl P g); [|exact A]. now rewrite <- app_assoc.
Qed.
Lemma toy_library_order : PackageFirst toy_library.
Proof. intros pre f post E P g Ig. exact (package_first_ok toy_library [] eq_refl pre f post E P g Ig). Qed.

Lemma has_mask fs f : In f fs -> IsPackage f -> HasMask fs (n_dir f) (n_mask f).
Proof. intros I P. exists f. auto. Qed.
Definition toy_outs : list bytes :=
  match encrypt_all toy toy_key [] (map source_of toy_library) with Ok (Some o) => o | _ => [] end.
Definition disk_of (base : bytes) (fs : list entry) (outs : list bytes) (p : bytes) : option bytes :=
  match find (fun '(f, _) => beq (base ++ [SLASH] ++ moc_path f) p) (combine fs outs) with
  | Some (_, o) => Some o
  | None => None
  end.

Lemma in_lib {pr : primitives} base (fs : list entry) (outs : list bytes) f out : GoodLibrary pr fs -> In (f, out) (combine fs outs) ->
  disk_of base fs outs (base ++ [SLASH] ++ moc_path f) = Some out.
Proof.
  intros GL I. unfold disk_of.
  destruct (find _ _) as [[g o]|] eqn:F.
  - apply find_some in F. destruct F as [Ig E]. apply beq_true in E. apply app_inv_head, app_inv_head in E.
    assert (g = f) as ->.
    { apply (moc_path_inj (pr := pr) fs); [exact GL|now apply in_combine_l in Ig|now apply in_combine_l in I|exact E]. }
    f_equal. destruct GL as [_ ND]. clear - I Ig ND. revert outs I Ig.
    induction fs as [|h fs IH]; intros [|b outs] I Ig; try contradiction. cbn [map] in ND. inversion ND as [|x l Nx ND']; subst.
    destruct I as [I|I], Ig as [Ig|Ig].
    + congruence.
    + injection I as -> ->. apply in_combine_l in Ig. destruct Nx. exact (in_map (fun f => (n_dir f, n_name f)) fs f Ig).
    + injection Ig as -> ->. apply in_combine_l in I. destruct Nx. exact (in_map (fun f => (n_dir f, n_name f)) fs f I).
    + exact (IH ND' outs I Ig).
  - apply find_none with (x := (f, out)) in F; [|exact I]. rewrite beq_refl in F. discriminate.
Qed.
(** [disk_of] is a disk as [Installed] wants it, for every library. *)
Lemma disk_of_installed pr K base fs outs : GoodPrimitives pr -> length K = 32 -> GoodLibrary pr fs -> PackageFirst fs ->
  encrypt_all pr K [] (map source_of fs) = Ok (Some outs) ->
  (forall f, In f fs -> length base + length (path_of (n_dir f) (n_name f)) <= 4000) ->
  exists moc, Installed pr K fs base (disk_of base fs outs) moc /\ forall f out, In (f, out) (combine fs outs) -> moc f = out.
Proof.
  intros G LK GL PF Enc Lb. destruct (encrypt_library pr K fs G LK GL PF) as (outs' & E & F2).
  assert (outs' = outs) by congruence. subst outs'.
  exists (fun f => match disk_of base fs outs (base ++ [SLASH] ++ moc_path f) with Some o => o | None => [] end).
  split; [|intros f out I; now rewrite (in_lib base fs outs f out GL I)].
  split; [exact Lb|]. split.
  - intros f If. destruct (forall2_in _ _ _ F2 f If) as (out & Io). rewrite (in_lib base fs outs f out GL Io).
    split; [exact (forall2_combine _ _ _ F2 f out Io)|reflexivity].
  - intros d Nd Np. unfold disk_of. destruct (find _ _) as [[f o]|] eqn:F; [exfalso|reflexivity].
    apply find_some in F. destruct F as [I E0]. apply beq_true in E0. apply app_inv_head, app_inv_head in E0.
    apply in_combine_l in I. destruct GL as [GF _]. rewrite Forall_forall in GF. destruct (GF f I) as (Fd & Fn & _).
    apply path_of_inj in E0; [|exact Fd|exact Nd|now apply noslash_moc, name_noslash|exact noslash_package].
    destruct E0 as [Ed En]. change (B "package.moc") with (B "package.mo" ++ B "c") in En. apply app_inv_tail in En.
    apply (Np (n_mask f)). exists f. auto.
Qed.

(** ** C25 *)

(** Encrypting all files of a library, package files first, succeeds; from a disk with the
    results every file of a directory with a package file is read back exactly, whatever the
    order and number of requests.  Not covered: files of directories without package file
    (C30), package files without contents above the file (C31), and the spelling of package
    files (below). *)
Theorem C25_round_trip_partial : forall pr K fs,
  GoodPrimitives pr -> length K = 32 -> GoodLibrary pr fs -> PackageFirst fs ->
  exists outs, encrypt_all pr K [] (map source_of fs) = Ok (Some outs) /\ length outs = length fs /\
  forall basedir disk,
    (forall f, In f fs -> length basedir + length (path_of (n_dir f) (n_name f)) <= 4000) ->
    (forall f out, In (f, out) (combine fs outs) -> disk (basedir ++ [SLASH] ++ moc_path f) = Some out) ->
    (forall d, Forall Name d -> NoPackage fs d -> disk (basedir ++ [SLASH] ++ path_of d (B "package.moc")) = None) ->
    forall reqs, (forall f out, In (f, out) reqs -> In (f, out) (combine fs outs) /\ Readable fs f) ->
    decrypt_all pr K disk basedir [] (map (fun '(f, out) => (moc_path f, out)) reqs)
      = Ok (map (fun '(f, _) => Some (n_data f)) reqs).
Proof. exact round_trip. Qed.
Print Assumptions C25_round_trip_partial.

Example C25_ex :
  GoodLibrary toy toy_library /\ PackageFirst toy_library /\ Readable toy_library deep_model /\
  length toy_outs = 6 /\
  decrypt_all toy toy_key (disk_of (B "/lib") toy_library toy_outs) (B "/lib") []
    (map (fun '(f, out) => (moc_path f, out)) (rev (combine toy_library toy_outs)))
  = Ok [Some (n_data deep_model); Some (n_data deep_package); Some []; Some (n_data sub_package); Some (n_data top_model); Some (n_data top_package)].
Proof.
  split; [exact toy_library_good|]. split; [exact toy_library_order|]. split.
  - split; [exists (n_mask deep_package); apply (has_mask toy_library deep_package); [cbn; tauto|reflexivity]|].
    intros p I P A. cbn [toy_library In] in I. destruct I as [<-|[<-|[<-|[<-|[<-|[<-|[]]]]]]]; first [discriminate|right; discriminate].
  - split; vm_compute; reflexivity.
Qed.

(** A package file spelt "Package.mo" is encrypted as one, but it is not found when another file
    of its directory is decrypted: that file cannot be read. *)
Definition capital := [file [] (B "Package.mo") (B "package P end P;") 1; file [] (B "M.mo") (B "model M end M;") 2].
Theorem C25_case_refuted : exists outs,
  encrypt_all toy toy_key [] (map source_of capital) = Ok (Some outs) /\ length outs = 2 /\
  decrypt_all toy toy_key (disk_of (B "/lib") capital outs) (B "/lib") []
    (map (fun '(f, out) => (moc_path f, out)) (rev (combine capital outs))) = Ok [None; Some (B "package P end P;")].
Proof. eexists. split; [vm_compute; reflexivity|]. split; vm_compute; reflexivity. Qed.
Print Assumptions C25_case_refuted.

(** ** C26 *)

(** What a request yields does not depend on the requests before it. *)
Theorem C26_any_order_partial : forall pr K fs basedir disk moc,
  GoodPrimitives pr -> length K = 32 -> GoodLibrary pr fs -> Installed pr K fs basedir disk moc ->
  exists alone,
    (forall f, In f fs -> Readable fs f -> decrypt_all pr K disk basedir [] [(moc_path f, moc f)] = Ok [alone f]) /\
    (forall reqs, (forall f, In f reqs -> In f fs /\ Readable fs f) ->
       decrypt_all pr K disk basedir [] (map (fun f => (moc_path f, moc f)) reqs) = Ok (map alone reqs)).
Proof.
  intros pr K fs basedir disk moc G LK GL Ins. exists (fun f => Some (n_data f)).
  assert (H : forall reqs, (forall f, In f reqs -> In f fs /\ Readable fs f) ->
       decrypt_all pr K disk basedir [] (map (fun f => (moc_path f, moc f)) reqs) = Ok (map (fun f => Some (n_data f)) reqs)).
  { intros reqs R. apply (decrypt_session pr K fs basedir disk moc G LK GL Ins); [exact R|]. intros a m _ X. discriminate. }
  split; [|exact H]. intros f I Rd. apply (H [f]). intros g [<-|[]]. now split.
Qed.
Print Assumptions C26_any_order_partial.

(** The encrypted toy library on a disk is installed. *)
Lemma toy_installed : exists moc, Installed toy toy_key toy_library (B "/lib") (disk_of (B "/lib") toy_library toy_outs) moc /\
  forall f out, In (f, out) (combine toy_library toy_outs) -> moc f = out.
Proof.
  apply disk_of_installed; [exact toy_good|reflexivity|exact toy_library_good|exact toy_library_order|vm_compute; reflexivity|].
  intros f I. cbn [toy_library In] in I. destruct I as [<-|[<-|[<-|[<-|[<-|[<-|[]]]]]]]; apply Nat.leb_le; reflexivity.
Qed.
Example C26_ex : (exists moc, Installed toy toy_key toy_library (B "/lib") (disk_of (B "/lib") toy_library toy_outs) moc) /\
  Readable toy_library deep_model /\ Readable toy_library top_model.
Proof.
  split; [destruct toy_installed as (moc & H & _); now exists moc|]. split.
  - exact (proj1 (proj2 (proj2 C25_ex))).
  - split; [exists (n_mask top_package); apply (has_mask toy_library top_package); [cbn; tauto|reflexivity]|].
    intros p I P A. cbn [toy_library In] in I. destruct I as [<-|[<-|[<-|[<-|[<-|[<-|[]]]]]]]; first [discriminate|right; discriminate].
Qed.

(** ** C27 *)

(** Whatever the contents and the order of the files, encryption stays in its buffers, and each
    file written is the IV, the CBC encryption of the padded plaintext (with the mask for package
    files) as a whole, and the MAC of IV and plaintext. *)
Theorem C27_whole_file : forall pr K fs,
  GoodPrimitives pr -> length K = 32 -> Forall (GoodEntry pr) fs ->
  exists r, encrypt_all pr K [] (map source_of fs) = Ok r /\
  forall outs, r = Some outs ->
    Forall2 (fun f out => exists key data, length key = 32 /\ Payload f data /\ Sealed pr key (n_iv f) data out) fs outs.
Proof. intros pr K fs G LK GF. apply (encrypt_all_sealed pr K G LK fs [] GF). intros p v X. discriminate. Qed.
Print Assumptions C27_whole_file.

Example C27_ex : (* exactly two read buffers: one more read returns nothing *)
  exists out, encrypt_with toy toy_key (repeat (ch 1) 16) (repeat (ch 65) 512) None = Ok out /\
  length out = 16 + 528 + 32.
Proof. eexists. split; [vm_compute; reflexivity|]. reflexivity. Qed.

(** ** C28 *)

(** For a path in a given state of the session there is one key; only files whose MAC is right
    under this key yield plaintext. *)
Theorem C28_authentic : forall pr K disk basedir t rel, GoodPrimitives pr ->
  exists key, forall file t' data, cr_decrypt pr K disk basedir t rel file = Ok (t', Some data) ->
  exists extra, Authentic pr key file (data ++ extra) /\ (extra = [] \/ length extra = p_len pr).
Proof. exact cr_decrypt_authentic. Qed.
Print Assumptions C28_authentic.

(** In an installed library this key is the file's own: contents of at least 15 bytes that are not authentic
    under it are refused, whatever was requested before. *)
Theorem C28_tampered : forall pr K fs basedir disk moc reqs f file,
  GoodPrimitives pr -> length K = 32 -> GoodLibrary pr fs -> Installed pr K fs basedir disk moc ->
  (forall g, In g reqs -> In g fs /\ Readable fs g) -> In f fs -> Readable fs f -> 15 <= length file ->
  exists key, FileKey pr fs K f key /\
  (decrypt_all pr K disk basedir [] (map (fun g => (moc_path g, moc g)) reqs ++ [(moc_path f, file)])
     = Ok (map (fun g => Some (n_data g)) reqs ++ [None]) \/
   exists data, Authentic pr key file data /\
     (~ IsPackage f -> decrypt_all pr K disk basedir [] (map (fun g => (moc_path g, moc g)) reqs ++ [(moc_path f, file)])
                       = Ok (map (fun g => Some (n_data g)) reqs ++ [Some data])) /\
     (IsPackage f -> p_len pr <= length data -> decrypt_all pr K disk basedir [] (map (fun g => (moc_path g, moc g)) reqs ++ [(moc_path f, file)])
                       = Ok (map (fun g => Some (n_data g)) reqs ++ [Some (firstn (length data - p_len pr) data)]))).
Proof. exact tampered. Qed.
Print Assumptions C28_tampered.

Example C28_ex :
  let outs := toy_outs in
  let bad := match outs with _ :: m :: _ => removelast m ++ [ch 0] | _ => [] end in
  length bad = 80 /\
  decrypt_all toy toy_key (disk_of (B "/lib") toy_library outs) (B "/lib") [] [(moc_path top_model, bad)] = Ok [None].
Proof. split; vm_compute; reflexivity. Qed.

(** ** C29 *)

(** Decryption always ends; it leaves its buffers only if the file, or a file read from the disk for its mask, is
    shorter than 15 bytes or authentic under some key. *)
Theorem C29_safe_partial : forall pr K disk basedir t rel file, GoodPrimitives pr -> length rel <= 4083 ->
  match cr_decrypt pr K disk basedir t rel file with
  | Ok _ => True
  | UB _ => exists c, (c = file \/ exists p, disk p = Some c) /\ (length c < 15 \/ exists key data, Authentic pr key c data)
  | Blocked => False
  end.
Proof.
  intros pr K disk basedir t rel file G L. pose proof (cr_decrypt_fine pr K disk basedir t rel file G L) as F.
  destruct (cr_decrypt pr K disk basedir t rel file); [exact F| |exact F].
  destruct F as [R|(p & c & D & R)]; [exists file; split; [now left|exact R]|exists c; split; [right; now exists p|exact R]].
Qed.
Print Assumptions C29_safe_partial.

(** The IV of a file shorter than 15 bytes is read beyond the end of its buffer. *)
Theorem C29_short_file_refuted : forall pr K fs basedir disk moc reqs f file,
  GoodPrimitives pr -> length K = 32 -> GoodLibrary pr fs -> Installed pr K fs basedir disk moc ->
  (forall g, In g reqs -> In g fs /\ Readable fs g) -> In f fs -> Readable fs f -> length file < 15 ->
  decrypt_all pr K disk basedir [] (map (fun g => (moc_path g, moc g)) reqs ++ [(moc_path f, file)]) = UB OobRead.
Proof. exact short_file. Qed.
Print Assumptions C29_short_file_refuted.

(** A directory name that leaves no room for "/package.moc" makes the path buffer overflow. *)
Theorem C29_long_path_refuted : forall pr K disk basedir d n file,
  Name d -> Name n -> caseeq n (B "package.moc") = false -> 4084 <= length d -> length d + length n <= 4095 ->
  cr_decrypt pr K disk basedir [] (path_of [d] n) file = UB OobWrite.
Proof. exact long_path. Qed.
Print Assumptions C29_long_path_refuted.
Example C29_ex :
  cr_decrypt toy toy_key (disk_of (B "/lib") toy_library toy_outs) (B "/lib") [] (B "M.moc") (B "too short") = UB OobRead.
Proof. vm_compute. reflexivity. Qed.

(** ** C30 *)

(** A file in a directory without package file loses as many bytes at its end as the product key has; if it is
    shorter than that, memory before the buffer is read. *)
Theorem C30_outside_refuted : forall pr K fs basedir disk moc f,
  GoodPrimitives pr -> length K = 32 -> GoodLibrary pr fs -> Installed pr K fs basedir disk moc ->
  In f fs -> NoPackage fs (n_dir f) ->
  (forall p, In p fs -> IsPackage p -> Above (n_dir p) (n_dir f) -> n_data p <> []) ->
  12 <= length (path_of (n_dir f) (n_name f)) ->
  length basedir + length (path_of (n_dir f) (B "package.moc")) <= 4000 ->
  if length (n_data f) <? p_len pr
  then cr_decrypt pr K disk basedir [] (moc_path f) (moc f) = UB OobRead
  else exists t, cr_decrypt pr K disk basedir [] (moc_path f) (moc f) = Ok (t, Some (firstn (length (n_data f) - p_len pr) (n_data f))).
Proof. exact outside_package. Qed.
Print Assumptions C30_outside_refuted.

Definition outside := file [B "Resources"] (B "Extra.mo") (B "model Extra Real x; equation x = time; end Extra;") 5.
Definition outside_library := [top_package; outside].
Example C30_ex : exists o1 o2 t,
  encrypt_all toy toy_key [] (map source_of outside_library) = Ok (Some [o1; o2]) /\
  cr_decrypt toy toy_key (disk_of (B "/lib") outside_library [o1; o2]) (B "/lib") [] (moc_path outside) o2 =
    Ok (t, Some (B "model Extra Real x;")).
Proof. do 3 eexists. split; [vm_compute; reflexivity|]. vm_compute. reflexivity. Qed.

(** ** C31 *)

(** With an empty package file, the first request for another file of its directory fails; the same
    request succeeds when it is made again. *)
Theorem C31_empty_package_refuted : forall pr K fs basedir disk moc f p,
  GoodPrimitives pr -> length K = 32 -> GoodLibrary pr fs -> Installed pr K fs basedir disk moc ->
  In f fs -> ~ IsPackage f -> In p fs -> IsPackage p -> n_dir p = n_dir f -> n_data p = [] ->
  (forall q, In q fs -> IsPackage q -> Above (n_dir q) (n_dir f) -> q = p \/ n_data q <> []) ->
  (forall data, ~ Authentic pr K (moc f) data) ->
  decrypt_all pr K disk basedir [] [(moc_path f, moc f); (moc_path f, moc f)] = Ok [None; Some (n_data f)].
Proof. exact empty_package. Qed.
Print Assumptions C31_empty_package_refuted.

Definition hollow_library := [file [] (B "package.mo") [] 1; top_model].
Example C31_ex : exists o1 o2,
  encrypt_all toy toy_key [] (map source_of hollow_library) = Ok (Some [o1; o2]) /\
  (forall data, ~ Authentic toy toy_key o2 data) /\
  decrypt_all toy toy_key (disk_of (B "/lib") hollow_library [o1; o2]) (B "/lib") []
    [(B "M.moc", o2); (B "M.moc", o2)] = Ok [None; Some (n_data top_model)].
Proof.
  do 2 eexists. split; [vm_compute; reflexivity|]. split; [|vm_compute; reflexivity].
  intros data A. apply (authentic_mac toy _ _ _ toy_good) in A.
  apply (f_equal (fun l => nth 0 l NUL)) in A. vm_compute in A. discriminate A.
Qed.

(** ** C32 *)

(** A package file encrypted after another file of its directory makes the run fail, whatever was
    encrypted before, between and after. *)
Theorem C32_late_package : forall pr K pre f mid p post,
  GoodPrimitives pr -> length K = 32 -> Forall (GoodEntry pr) (pre ++ f :: mid ++ p :: post) ->
  IsPackage p -> n_dir f = n_dir p ->
  encrypt_all pr K [] (map source_of (pre ++ f :: mid ++ p :: post)) = Ok None.
Proof. intros pr K pre f mid p post G LK GF P E. apply late_package; try assumption. intros q v X. discriminate. Qed.
Print Assumptions C32_late_package.
Example C32_ex : encrypt_all toy toy_key [] (map source_of [sub_package; top_model; sub_model; top_package]) = Ok None.
Proof. vm_compute. reflexivity. Qed.

(** Not so for files further down: the package file of a subdirectory, if it is the first file
    encrypted, is forgotten as far as the directory above is concerned.  The run succeeds, and
    the package file of the subdirectory cannot be decrypted any more. *)
Theorem C32_below_refuted : exists o1 o2,
  encrypt_all toy toy_key [] (map source_of [sub_package; top_package]) = Ok (Some [o1; o2]) /\
  decrypt_all toy toy_key (disk_of (B "/lib") [sub_package; top_package] [o1; o2]) (B "/lib") []
    [(moc_path sub_package, o1)] = Ok [None].
Proof. do 2 eexists. split; [vm_compute; reflexivity|]. vm_compute. reflexivity. Qed.
Print Assumptions C32_below_refuted.

(** ** C33 *)

(** Each file is encrypted with the product key and the mask of the nearest package file, and package
    files contain their mask. *)
Theorem C33_nearest_mask : forall pr K fs,
  GoodPrimitives pr -> length K = 32 -> GoodLibrary pr fs -> PackageFirst fs ->
  exists outs, encrypt_all pr K [] (map source_of fs) = Ok (Some outs) /\ Forall2 (EncryptedAs pr K fs) fs outs.
Proof. exact encrypt_library. Qed.
Print Assumptions C33_nearest_mask.

(** The encrypted form of a file is the same in all libraries that agree on the nearest mask. *)
Theorem C33_other_masks : forall pr K fs fs' f out out',
  GoodPrimitives pr -> GoodLibrary pr fs -> GoodLibrary pr fs' ->
  EncryptedAs pr K fs f out -> EncryptedAs pr K fs' f out' ->
  (forall d m, (n_dir f = d /\ ~ IsPackage f) \/ (IsPackage f /\ exists c, n_dir f = d ++ [c]) ->
     Nearest pr fs d m -> Nearest pr fs' d m) ->
  out = out'.
Proof. exact other_masks. Qed.
Print Assumptions C33_other_masks.
Example C33_ex :
  Nearest toy toy_library [B "Sub"] (n_mask sub_package) /\ Nearest toy [sub_package; sub_model] [B "Sub"] (n_mask sub_package) /\
  nth 3 toy_outs [] = match encrypt_all toy toy_key [] (map source_of [sub_package; sub_model]) with Ok (Some [_; o]) => o | _ => [] end.
Proof.
  split; [apply Near_here; apply (has_mask toy_library sub_package); [cbn; tauto|reflexivity]|].
  split; [apply Near_here; apply (has_mask [sub_package; sub_model] sub_package); [cbn; tauto|reflexivity]|].
  vm_compute. reflexivity.
Qed.
