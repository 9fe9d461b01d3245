(** What a tool relies on for a whole session. *)
From Verif Require Import Base ParseModel ParseSpec WireModel WireSpec LveModel LveSpec
  ToolModel ToolSpec SessionModel.

(** TLS keeps a message of at most 16384 bytes in one record and cuts longer ones
    somewhere behind the header. *)
Definition FairCut (cut : bytes -> list bytes) : Prop :=
  (forall m, m <> [] -> (zlen m <= 16384)%Z -> cut m = [m]) /\
  (forall al c data m, Sent al c data m -> exists first more,
     cut m = first :: more /\ CutIntoRecords m first more).

(** Nothing outside of the two programs misbehaves. *)
Definition FairLink {D} (k : link D) : Prop :=
  Healthy (k_env k) /\ (forall n, k_alloc k n = true) /\ FairCut (k_cut k).

(** Arguments that fit one record; the library path is not empty. *)
Definition FairCall (c : call) : Prop :=
  match c with
  | Version min max => (LONG_MIN <= max <= LONG_MAX)%Z
  | LibPath s => s <> [] /\ (zlen s <= 16000)%Z
  | Feature s | ReturnFeature s | License s | ReturnLicense s | File s => (zlen s <= 16000)%Z
  end.

(** A call was answered by exactly one reply [c], [data] to exactly its own request, and
    its result is the one for this reply. *)
Definition Answered (al : alloc) (k : call) (d : done) : Prop :=
  exists req m a b al' c data,
    request al k = Ok [req] /\
    d_events d = Recv req :: a ++ Reply m :: b /\ Forall internal a /\ Forall internal b /\
    Sent al' c data m /\
    ((exists v, d_result d = Some v) <-> Positive k c) /\
    ((exists v, d_result d = Some v) <-> d_error d = None) /\
    (c_id c = C_ERROR -> Says (d_error d) (firstn 2047 (B "Got ERROR command with message: " ++ cstr data))) /\
    (c_id c = C_NO -> match k with Feature _ | License _ => Says (d_error d) (firstn 2047 (cstr data)) | _ => True end) /\
    (forall p h, k = File p -> d_result d = Some (Contents h) -> Opened data h).

(** The contents of file [f] of library [lib] as a tool should see them: the file as it
    is, or what the decryptor makes of it if it is encrypted. *)
Definition Plaintext {D} (e : env D) (lib f b : bytes) : Prop :=
  InMemory b /\ exists raw err, e_file e (file_path lib (cstr f)) = Content (zlen raw) raw err /\
    (MocFile (cstr f) -> forall cr, exists cr', e_decrypt e cr (cstr f) raw = Ok (cr', Some b)) /\
    (~ MocFile (cstr f) -> b = raw).
