(** Use of the programs for single files, without reference to how they work. *)
From Verif Require Import Base WireModel CryptModel CryptSpec CliModel.

(** Runs of encrypt_file one after the other, each in its own process, that all exit with 0. *)
Inductive Runs (pr : primitives) (K : bytes) : store -> list (externals * list bytes) -> store -> Prop :=
| Runs_nil d : Runs pr K d [] d
| Runs_cons d o args d1 r d2 : encrypt_file pr K o d args = Ok (0%Z, d1) -> Runs pr K d1 r d2 -> Runs pr K d ((o, args) :: r) d2.

(** Where an encrypted file is put. *)
Definition under (basedir : bytes) (f : entry) : bytes := basedir ++ [SLASH] ++ moc_path f.

(** What RAND_bytes yields in a run is what the entry says, the output can be opened. *)
Definition RunOf (o : externals) (basedir : bytes) (f : entry) : Prop :=
  o_iv o = n_iv f /\ o_mask o = n_mask f /\ length (o_junk o) = 32 /\ o_writable o (under basedir f) = true.

(** Package files above other files have contents. *)
Definition FilledAbove (fs : list entry) : Prop :=
  forall p g, In p fs -> IsPackage p -> In g fs -> p <> g -> Above (n_dir p) (n_dir g) -> n_data p <> [].

(** The part of a path after the last separator. *)
Definition LastPart (p n : bytes) : Prop :=
  exists pre, p = pre ++ n /\ Name n /\ (pre = [] \/ exists q c, pre = q ++ [c] /\ (c = SLASH \/ c = BSLASH)).

(** The cleartext is not written into the library. *)
Definition Elsewhere (fs : list entry) (basedir clear : bytes) : Prop :=
  (forall g, In g fs -> clear <> under basedir g) /\ (forall d, Forall Name d -> clear <> basedir ++ [SLASH] ++ path_of d (B "package.moc")).
