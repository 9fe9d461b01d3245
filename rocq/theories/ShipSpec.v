(** A tool that reads an unpacked archive. *)
From Verif Require Import Base WireModel LveModel LveSpec ToolModel ToolSpec SessionModel SessionSpec CryptModel CryptSpec PackageModel PackageSpec.

(** The operating system of an LVE: below [base] there are the files of the archive, and nothing else. *)
Definition Serves {D} (w : env D) (base : bytes) (l : list (bytes * bytes)) : Prop :=
  (forall p d, In (p, d) l -> exists err, e_file w (base ++ [SLASH] ++ p) = Content (zlen d) d err) /\
  (forall p, (forall d, ~ In (p, d) l) -> exists t, e_file w (base ++ [SLASH] ++ p) = NoOpen t).

(** Encrypted files are asked for only by the names of files of the library, with 'c' appended. *)
Definition AsksForSource (lib : list (bytes * tree)) (c : call) : Prop :=
  forall p, c = File p -> MocFile (cstr p) -> exists dir n d, p = slashed (dir ++ [n ++ B "c"]) /\ Wanted lib dir n d.

(** The call delivered the contents of the file before it was encrypted. *)
Definition SourceDelivered (lib : list (bytes * tree)) (c : call) (d : done) : Prop :=
  forall dir n x, c = File (slashed (dir ++ [n ++ B "c"])) -> Wanted lib dir n x ->
  exists h, d_result d = Some (Contents h) /\ Opened x h.
