(** What a tool relies on when it reads an encrypted library. *)
From Verif Require Import Base WireModel LveModel LveSpec ToolModel ToolSpec SessionModel SessionSpec CryptModel CryptSpec.

(** During a call the disk holds the files [outs], which the encryption of the library [fs]
    wrote, below the directory [dir], and no package files besides them. *)
Definition OnDisk {D} (w : env D) (dir : bytes) (fs : list entry) (outs : list bytes) : Prop :=
  (forall f out, In (f, out) (combine fs outs) -> exists err,
     e_file w (dir ++ [SLASH] ++ moc_path f) = Content (zlen out) out err) /\
  (forall d, Forall Name d -> NoPackage fs d -> exists t, e_file w (dir ++ [SLASH] ++ path_of d (B "package.moc")) = NoOpen t).

(** Encrypted files are asked for only by their names in the library. *)
Definition AsksForEntry (fs : list entry) (c : call) : Prop :=
  forall p, c = File p -> MocFile (cstr p) -> exists f, p = moc_path f /\ In f fs /\ Readable fs f.

(** The call delivered the contents of a file of the library if it asked for one. *)
Definition Delivered (fs : list entry) (c : call) (d : done) : Prop :=
  forall f, c = File (moc_path f) -> MocFile (moc_path f) -> In f fs ->
  exists h, d_result d = Some (Contents h) /\ Opened (n_data f) h.
