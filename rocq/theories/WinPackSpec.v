(** Packaging on Windows, without reference to the code that does it.  From the model only the types are used: [tree], [world] and
    [copy_calls] (what the operating system gives). *)
From Verif Require Import Base CryptSpec PackageModel PackageSpec PackCopyModel.

(** A path as a string, with backslashes. *)
Fixpoint backslashed (p : list bytes) : bytes :=
  match p with
  | [] => []
  | [n] => n
  | n :: r => n ++ [BSLASH] ++ backslashed r
  end.
(** Names of files on Windows. *)
Inductive WinNames : tree -> Prop :=
| Win_reg d : WinNames (Reg d)
| Win_other : WinNames Other
| Win_folder es : (forall n x, In (n, x) es -> ~ In BSLASH n /\ WinNames x) -> WinNames (Folder es).

(** Something is a directory. *)
Definition IsFolder (t : tree) : Prop := exists es, t = Folder es.

(** Nothing fails for a file of this size. *)
Definition Fine (c : copy_calls) (d : bytes) : Prop :=
  y_open_read c = true /\ y_stat c = true /\ y_calloc c = true /\ length d <= y_read c /\ y_open_write c = true /\ length d <= y_write c.
(** Everything can be enumerated and made. *)
Definition Enumerates (w : world) : Prop := (forall k p, w_opendir w k p = true) /\ (forall p, w_mkdir w p = true).

(** A file of this name that comes before the first folder, or is so in that folder. *)
Inductive Seen (name : bytes) : list (bytes * tree) -> list bytes -> Prop :=
| Seen_file pre d post : Forall (fun e => ~ IsFolder (snd e)) pre -> Seen name (pre ++ (name, Reg d) :: post) [name]
| Seen_below pre n es post p : Forall (fun e => ~ IsFolder (snd e)) pre -> Seen name es p -> Seen name (pre ++ (n, Folder es) :: post) (n :: p).
(** Directories are listed by first characters; names begin with characters not before the digits, apart from one. *)
Definition first_byte (n : bytes) : nat := match n with c :: _ => nat_of_ascii c | [] => 0 end.
Inductive ByName : list (bytes * tree) -> Prop :=
| ByName_nil : ByName []
| ByName_cons e r : (forall e', In e' r -> first_byte (fst e) <= first_byte (fst e')) -> ByName r -> ByName (e :: r).
Definition Ordinary (except : bytes) (es : list (bytes * tree)) : Prop :=
  forall n x, In (n, x) es -> n = except \/ 48 <= first_byte n.

(** Files that belong into an archive: in an encrypted library, those without Modelica code. *)
Definition Shown (encrypted : bool) (n : bytes) : Prop := encrypted = true -> ~ Modelica n.
(** Every directory holds such a file or a directory. *)
Inductive Filled (encrypted : bool) : tree -> Prop :=
| Filled_reg d : Filled encrypted (Reg d)
| Filled_other : Filled encrypted Other
| Filled_folder es n x : In (n, x) es -> (IsFolder x \/ ((exists d, x = Reg d) /\ Shown encrypted n)) ->
    (forall m y, In (m, y) es -> Filled encrypted y) -> Filled encrypted (Folder es).

(** Nothing but files and directories. *)
Inductive Plain : tree -> Prop :=
| Plain_reg d : Plain (Reg d)
| Plain_folder es : (forall n x, In (n, x) es -> Plain x) -> Plain (Folder es).

(** Package files are spelt in lower case; other files do not have their name. *)
Inductive Spelt : tree -> Prop :=
| Spelt_reg d : Spelt (Reg d)
| Spelt_other : Spelt Other
| Spelt_folder es : (forall n x, In (n, x) es -> (caseeq n (B "package.mo") = true -> n = B "package.mo") /\ Spelt x) -> Spelt (Folder es).
(** Two systems on which everything can be opened and the same is drawn for each file, whatever the separator of paths. *)
Definition SameDraws (w v : world) : Prop :=
  (forall p, w_open w p = true) /\ (forall p, w_open v p = true) /\
  (forall p, w_opendir w Encrypting p = true) /\ (forall p, w_opendir v Encrypting p = true) /\
  (forall p, Forall Name p -> w_iv v (backslashed p) = w_iv w (slashed p) /\ w_mask v (backslashed p) = w_mask w (slashed p) /\
     w_encrypts v (backslashed p) = w_encrypts w (slashed p)).
(** Result and tree of an encryption. *)
Definition result_of {A : Type} (o : outcome (bool * A * tree)) : outcome (bool * tree) :=
  match o with Ok (ok, _, t) => Ok (ok, t) | UB u => UB u | Blocked => Blocked end.
