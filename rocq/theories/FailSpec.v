(** Keys that open a file. *)
From Verif Require Import Base WireModel CryptModel CryptSpec.

(** CBC mode, read: each decrypted block is combined with the previous ciphertext block. *)
Inductive CbcOpen (pr : primitives) (key : bytes) : bytes -> list bytes -> list bytes -> Prop :=
| Open_nil chain : CbcOpen pr key chain [] []
| Open_cons chain c cs bs : CbcOpen pr key c cs bs -> CbcOpen pr key chain (c :: cs) (xor (p_dec pr key c) chain :: bs).
(** [key] opens [file]: padding and MAC are right for what it decrypts to. *)
Definition Opens (pr : primitives) (key file data : bytes) : Prop :=
  exists iv cs bs k, file = iv ++ concat cs ++ Mac pr key (iv ++ data) /\ length iv = 16 /\ Forall (fun c => length c = 16) cs /\
    CbcOpen pr key iv cs bs /\ 1 <= k <= 16 /\ concat bs = data ++ repeat (ch k) k.

(** Keys of a library: the product key, and the product key with the mask of a directory. *)
Inductive KeyFrom (fs : list entry) (product_key : bytes) : option (list bytes) -> bytes -> Prop :=
| From_product : KeyFrom fs product_key None product_key
| From_dir d m : HasMask fs d m -> KeyFrom fs product_key (Some d) (xor product_key m).

(** The nearest directory with a package file, looking upwards. *)
Inductive NearestDir (fs : list entry) : list bytes -> option (list bytes) -> Prop :=
| Dir_here d m : HasMask fs d m -> NearestDir fs d (Some d)
| Dir_up d c s : NoPackage fs (d ++ [c]) -> NearestDir fs d s -> NearestDir fs (d ++ [c]) s
| Dir_top : NoPackage fs [] -> NearestDir fs [] None.
(** The directory whose mask belongs to a file: the nearest one; for a package file the nearest one above its own. *)
Inductive MaskedBy (fs : list entry) (f : entry) : option (list bytes) -> Prop :=
| By_nearest s : ~ IsPackage f -> NearestDir fs (n_dir f) s -> MaskedBy fs f s
| By_above d c s : IsPackage f -> n_dir f = d ++ [c] -> NearestDir fs d s -> MaskedBy fs f s
| By_none : IsPackage f -> n_dir f = [] -> MaskedBy fs f None.

(** No file is opened with the mask of another directory (or without a mask that it needs). *)
Definition WrongKeysDetected (pr : primitives) (product_key : bytes) (fs : list entry) (moc : entry -> bytes) : Prop :=
  forall f s key data, In f fs -> KeyFrom fs product_key s key -> Opens pr key (moc f) data -> MaskedBy fs f s.
