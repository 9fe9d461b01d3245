(** Spellings of a path that Windows takes for the same. *)
From Verif Require Import Base CryptModel CryptSpec.

(** Separators of both kinds and letters of both cases are the same. *)
Definition folded (p : bytes) : bytes := map (fun c => if Ascii.eqb c BSLASH then SLASH else lower c) p.
(** A disk whose file system does not distinguish them. *)
Definition Insensitive (disk : bytes -> option bytes) : Prop := forall p q, folded p = folded q -> disk p = disk q.
(** Each directory of the library has one spelling in it. *)
Definition Distinct (fs : list entry) : Prop :=
  forall f g a b, In f fs -> In g fs -> Above a (n_dir f) -> Above b (n_dir g) ->
  folded (path_of a (B "package.moc")) = folded (path_of b (B "package.moc")) -> a = b.

(** As Installed of CryptSpec: the disk holds the encrypted files under the library directory, and no package files besides them,
    in whatever spelling. *)
Definition Installed_folded (pr : primitives) (product_key : bytes) (fs : list entry) (basedir : bytes)
  (disk : bytes -> option bytes) (moc : entry -> bytes) : Prop :=
  (forall f, In f fs -> length basedir + length (path_of (n_dir f) (n_name f)) <= 4000) /\
  (forall f, In f fs -> EncryptedAs pr product_key fs f (moc f) /\
                        disk (basedir ++ [SLASH] ++ moc_path f) = Some (moc f)) /\
  (forall d, Forall Name d ->
     (forall p, In p fs -> IsPackage p -> folded (path_of (n_dir p) (B "package.moc")) <> folded (path_of d (B "package.moc"))) ->
     disk (basedir ++ [SLASH] ++ path_of d (B "package.moc")) = None).
