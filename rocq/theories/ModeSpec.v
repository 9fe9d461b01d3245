(** Permissions of packaged files, without reference to the code.  From the model only the types are used. *)
From Coq Require Import NArith.
From Verif Require Import Base PackageSpec ModeModel.

(** A file with this mode and these contents at a path (a list of names). *)
Inductive HasFile : node -> list bytes -> N -> bytes -> Prop :=
| Has_here m d : HasFile (File m d) [] m d
| Has_below es n x p m d : In (n, x) es -> HasFile x p m d -> HasFile (Dir es) (n :: p) m d.
(** A directory at a path. *)
Inductive HasDir : node -> list bytes -> Prop :=
| Dir_here es : HasDir (Dir es) []
| Dir_below es n x p : In (n, x) es -> HasDir x p -> HasDir (Dir es) (n :: p).
(** The names in a directory differ. *)
Inductive Tidy : node -> Prop :=
| Tidy_file m d : Tidy (File m d)
| Tidy_link : Tidy Link
| Tidy_dir es : NoDup (map fst es) -> (forall n x, In (n, x) es -> Tidy x) -> Tidy (Dir es).

(** What the owner of a file may do with it. *)
Definition MayRead (u : user) (m : N) : Prop := u_root u = true \/ N.testbit m 8 = true.
Definition MayWrite (u : user) (m : N) : Prop := u_root u = true \/ N.testbit m 7 = true.
Definition MayRun (u : user) (m : N) : Prop :=
  if u_root u then exists k, In k [0; 3; 6]%N /\ N.testbit m k = true else N.testbit m 6 = true.

(** The twelve bits of the permissions are the same. *)
Definition SameMode (a b : N) : Prop := forall k, (k < 12)%N -> N.testbit a k = N.testbit b k.
(** The mode of a new file: reading and writing for all, as far as the mask allows. *)
Definition NewMode (u : user) (m : N) : Prop :=
  forall k, N.testbit m k = true <-> In k [1; 2; 4; 5; 7; 8]%N /\ N.testbit (u_umask u) k = false.

(** A name by which a file is encrypted: that of a Modelica file; of those that are spelled like package.mo up to case only
    package.mo itself. *)
Definition Encrypted (n : bytes) : Prop := n = B "package.mo" \/ (Modelica n /\ map lower n <> B "package.mo").
(** No folder on the way to a file is called package.mo, however that is spelled. *)
Definition Ordinary (dir : list bytes) : Prop := forall n, In n dir -> map lower n <> B "package.mo".

(** Unpacking an archive on a POSIX system (.ZIP File Format Specification 4.4.2, 4.4.15): the upper byte of "version made by" is the
    system; if that is UNIX (3), the upper two bytes of the external attributes are the mode; otherwise there is none and a file gets the mode
    of a new file. *)
Definition Unpacked (u : user) (h : header) (m : N) : Prop :=
  ((h_made_by h / 256 = 3)%N /\ m = (h_attributes h / 65536)%N) \/ ((h_made_by h / 256 <> 3)%N /\ NewMode u m).
