(** Encrypted libraries, without reference to the code that makes or reads them. *)
From Verif Require Import Base WireModel CryptModel.

(** ** Primitives *)

(** Decryption of a block undoes encryption; sizes are those of AES-256 and SHA-256; the length declared for the product key is at
    most 32. *)
Definition GoodPrimitives (pr : primitives) : Prop :=
  (forall k b, length k = 32 -> length b = 16 -> p_dec pr k (p_enc pr k b) = b /\ length (p_enc pr k b) = 16) /\
  (forall k d, length (p_mac pr k d) = 32) /\ p_len pr <= 32.

(** ** Encrypted files *)

(** CBC mode: each block is combined with the previous ciphertext block. *)
Inductive Cbc (pr : primitives) (key : bytes) : bytes -> list bytes -> list bytes -> Prop :=
| Cbc_nil chain : Cbc pr key chain [] []
| Cbc_cons chain b bs cs :
    Cbc pr key (p_enc pr key (xor b chain)) bs cs ->
    Cbc pr key chain (b :: bs) (p_enc pr key (xor b chain) :: cs).

(** The blocks are the data followed by 1 to 16 bytes that hold their number. *)
Definition Padded (data : bytes) (blocks : list bytes) : Prop :=
  exists k, 1 <= k <= 16 /\ concat blocks = data ++ repeat (ch k) k /\ Forall (fun b => length b = 16) blocks.

(** The MAC uses as many bytes of the key as declared. *)
Definition Mac (pr : primitives) (key data : bytes) : bytes := p_mac pr (firstn (p_len pr) key) data.

(** IV, CBC encryption of the padded data, MAC of IV and data. *)
Definition Sealed (pr : primitives) (key iv data out : bytes) : Prop :=
  exists bs cs, Padded data bs /\ Cbc pr key iv bs cs /\ out = iv ++ concat cs ++ Mac pr key (iv ++ data).

(** ** Libraries *)

(** A name in a directory. *)
Definition Name (n : bytes) : Prop := n <> [] /\ ~ In SLASH n /\ ~ In BSLASH n /\ ~ In NUL n.
(** The path of a file from its directories and its name. *)
Fixpoint path_of (dir : list bytes) (name : bytes) : bytes :=
  match dir with
  | [] => name
  | d :: r => d ++ [SLASH] ++ path_of r name
  end.

(** A file of a library. *)
Record entry := { n_dir : list bytes; n_name : bytes; n_data : bytes; n_iv : bytes; n_mask : bytes }.
Definition source_of (f : entry) : source :=
  {| f_rel := path_of (n_dir f) (n_name f); f_data := n_data f; f_iv := n_iv f; f_mask := n_mask f |}.
Definition IsPackage (f : entry) : Prop := n_name f = B "package.mo".

(** Sizes and names for which the paths fit the buffers: names of directories are not those of
    package files, a package file is spelt in lower case. *)
Definition GoodEntry (pr : primitives) (f : entry) : Prop :=
  Forall Name (n_dir f) /\ Name (n_name f) /\
  Forall (fun d => caseeq d (B "package.mo") = false /\ caseeq d (B "package.moc") = false) (n_dir f) /\
  (caseeq (n_name f) (B "package.mo") = true -> IsPackage f) /\
  length (path_of (n_dir f) (n_name f)) <= 4000 /\
  length (n_iv f) = 16 /\ length (n_mask f) = p_len pr /\ (zlen (n_data f) < 2^31 - 256)%Z.

(** Directory [a] is [b] or contains it. *)
Definition Above (a b : list bytes) : Prop := exists c, b = a ++ c.

(** The package file of a directory comes before everything else in and below it. *)
Definition PackageFirst (fs : list entry) : Prop :=
  forall pre f post, fs = pre ++ f :: post -> IsPackage f ->
  forall g, In g pre -> ~ Above (n_dir f) (n_dir g).

(** The package file of a directory holds this mask. *)
Definition HasMask (fs : list entry) (d : list bytes) (m : bytes) : Prop :=
  exists f, In f fs /\ IsPackage f /\ n_dir f = d /\ n_mask f = m.
Definition NoPackage (fs : list entry) (d : list bytes) : Prop := forall m, ~ HasMask fs d m.

(** The mask of the nearest package file, looking from a directory upwards; no mask if there
    is none. *)
Inductive Nearest (pr : primitives) (fs : list entry) : list bytes -> bytes -> Prop :=
| Near_here d m : HasMask fs d m -> Nearest pr fs d m
| Near_up d c m : NoPackage fs (d ++ [c]) -> Nearest pr fs d m -> Nearest pr fs (d ++ [c]) m
| Near_top : NoPackage fs [] -> Nearest pr fs [] (repeat NUL (p_len pr)).

(** The key of a file: the product key with the mask of the nearest package file other
    than the file itself. *)
Inductive FileKey (pr : primitives) (fs : list entry) (product_key : bytes) (f : entry) : bytes -> Prop :=
| K_ordinary m : ~ IsPackage f -> Nearest pr fs (n_dir f) m -> FileKey pr fs product_key f (xor product_key m)
| K_package d c m : IsPackage f -> n_dir f = d ++ [c] -> Nearest pr fs d m ->
    FileKey pr fs product_key f (xor product_key m)
| K_top : IsPackage f -> n_dir f = [] -> FileKey pr fs product_key f product_key.
Arguments Near_here {pr}. Arguments Near_up {pr}. Arguments Near_top {pr}.
Arguments K_ordinary {pr}. Arguments K_package {pr}. Arguments K_top {pr}.

(** What is encrypted: package files carry their mask at the end. *)
Inductive Payload (f : entry) : bytes -> Prop :=
| P_ordinary : ~ IsPackage f -> Payload f (n_data f)
| P_package : IsPackage f -> Payload f (n_data f ++ n_mask f).

(** [out] is the encrypted form of [f] in the library [fs]. *)
Definition EncryptedAs (pr : primitives) (product_key : bytes) (fs : list entry) (f : entry) (out : bytes) : Prop :=
  exists key data, FileKey pr fs product_key f key /\ Payload f data /\ Sealed pr key (n_iv f) data out.

(** A library that can be encrypted file by file. *)
Definition GoodLibrary (pr : primitives) (fs : list entry) : Prop :=
  Forall (GoodEntry pr) fs /\ NoDup (map (fun f => (n_dir f, n_name f)) fs).

(** ** Installed libraries *)

Definition moc_path (f : entry) : bytes := path_of (n_dir f) (n_name f ++ B "c").

(** The disk holds the encrypted files under the library directory, and no package files
    besides them. *)
Definition Installed (pr : primitives) (product_key : bytes) (fs : list entry) (basedir : bytes)
  (disk : bytes -> option bytes) (moc : entry -> bytes) : Prop :=
  (forall f, In f fs -> length basedir + length (path_of (n_dir f) (n_name f)) <= 4000) /\
  (forall f, In f fs -> EncryptedAs pr product_key fs f (moc f) /\
                        disk (basedir ++ [SLASH] ++ moc_path f) = Some (moc f)) /\
  (forall d, Forall Name d -> NoPackage fs d -> disk (basedir ++ [SLASH] ++ path_of d (B "package.moc")) = None).

(** The file is in a directory that has a package file (or is one). *)
Definition InPackage (fs : list entry) (f : entry) : Prop := exists m, HasMask fs (n_dir f) m.
(** Files that can be decrypted: those of directories with a package file, if the package files
    above them (other than the file itself) have contents. *)
Definition Readable (fs : list entry) (f : entry) : Prop :=
  InPackage fs f /\ forall p, In p fs -> IsPackage p -> Above (n_dir p) (n_dir f) -> p = f \/ n_data p <> [].

(** The last 32 bytes of a file are the MAC of its first 16 and of [data]. *)
Definition Authentic (pr : primitives) (key file data : bytes) : Prop :=
  exists iv ct, length iv = 16 /\ file = iv ++ ct ++ Mac pr key (iv ++ data).
