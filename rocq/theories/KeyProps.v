(** Product keys drawn by the random key tool, used for encryption: C25 for them, whatever bytes were drawn. *)
From Verif Require Import Base EmbedModel EmbedSpec EmbedProofs CryptModel CryptSpec CryptProps.

(** The functions of OpenSSL with the key length a header declares. *)
Definition with_length (pr : primitives) (m : macros) : primitives :=
  {| p_enc := p_enc pr; p_dec := p_dec pr; p_mac := p_mac pr; p_len := Z.to_nat (m_length m) |}.

(** A library encrypted with a drawn key is read back, also if the declared length is less than 32 (C44). *)
Theorem C44_round_trip : forall d draw out name key,
  Identifier name -> draw 32 = Some key -> length key = 32 -> dk_writable d out = true ->
  exists h m k, randomize_key d draw [out; name] = Ok (0%Z, Some (out, h)) /\ read_header name h = Some m /\
    (forall mem, Declared m mem -> initialize m mem = Some k) /\ 32 <= length k /\ (0 <= m_length m <= 32)%Z /\
  forall pr fs, GoodPrimitives pr -> GoodLibrary (with_length pr m) fs -> PackageFirst fs ->
  exists outs, encrypt_all (with_length pr m) (firstn 32 k) [] (map source_of fs) = Ok (Some outs) /\ length outs = length fs /\
  forall basedir disk,
    (forall f, In f fs -> length basedir + length (path_of (n_dir f) (n_name f)) <= 4000) ->
    (forall f out, In (f, out) (combine fs outs) -> disk (basedir ++ [SLASH] ++ moc_path f) = Some out) ->
    (forall d, Forall Name d -> NoPackage fs d -> disk (basedir ++ [SLASH] ++ path_of d (B "package.moc")) = None) ->
    forall reqs, (forall f out, In (f, out) reqs -> In (f, out) (combine fs outs) /\ Readable fs f) ->
    decrypt_all (with_length pr m) (firstn 32 k) disk basedir [] (map (fun '(f, out) => (moc_path f, out)) reqs)
      = Ok (map (fun '(f, _) => Some (n_data f)) reqs).
Proof.
  intros d draw out name key I R L W. exists (header name key), (meaning key), (kept key ++ [NUL]).
  assert (Lu : length (unix key) <= 32).
  { clear - L. rewrite <- L. clear L. induction key as [|c key IH]; [apply le_n|]. cbn [unix filter length].
    fold (unix key). destruct (negb (Ascii.eqb c CR)); cbn [length]; lia. }
  assert (Lk : length (kept key ++ [NUL]) = 33) by (rewrite app_length, kept_length, L; reflexivity).
  split; [|split; [now apply header_reads|]].
  { unfold randomize_key, create_header_file. change KEY_LENGTH with 32. now rewrite R, W. }
  split; [intros mem D; now apply header_initializes|]. split; [rewrite Lk; lia|].
  split; [cbn [meaning m_length]; lia|].
  intros pr fs (G1 & G2 & _) GL PF.
  apply C25_round_trip_partial; [|rewrite firstn_length, Lk; reflexivity|exact GL|exact PF].
  split; [exact G1|]. split; [exact G2|]. cbn [with_length p_len meaning m_length]. rewrite Nat2Z.id. exact Lu.
Qed.
Print Assumptions C44_round_trip.

(** A draw with two bytes 13: the key of the toy library, which is for keys of 30 bytes. *)
Example C44_round_trip_ex :
  let key := repeat "k"%char 20 ++ [CR] ++ repeat "l"%char 10 ++ [CR] in
  length key = 32 /\ In CR key /\ Z.to_nat (m_length (meaning key)) = 30 /\ GoodLibrary (with_length toy (meaning key)) toy_library.
Proof.
  split; [reflexivity|]. split; [apply in_or_app; right; now left|]. split; [vm_compute; reflexivity|]. exact toy_library_good.
Qed.
