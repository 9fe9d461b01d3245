(** Command lines of the packaging tool, without reference to the code. *)
From Verif Require Import Base ArgsModel.

(** The options listed in the help text. *)
Definition KnownOption (k : bytes) : Prop :=
  In k [B "language"; B "librarypath"; B "version"; B "build"; B "copyright"; B "date"; B "dependencies";
        B "description"; B "enabled"; B "encrypt"; B "icon"; B "license"; B "title"; B "tools"].

(** A command line and the values it gives: known options, each given once and with a value.  [P]
    says which characters may stand in front of an option. *)
Inductive CommandLine (P : byte -> Prop) : list bytes -> list (bytes * bytes) -> Prop :=
| CL_nil : CommandLine P [] []
| CL_cons c k v l o :
    P c -> KnownOption k -> v <> [] -> ~ In k (map fst o) -> CommandLine P l o ->
    CommandLine P ((c :: k) :: v :: l) ((k, v) :: o).
Definition Dash (c : byte) : Prop := c = MINUS.
Definition AnyByte (c : byte) : Prop := True.

(** [p] without the slashes and backslashes at its end; if there is nothing else its first
    character stays. *)
Definition Trimmed (p p' : bytes) : Prop :=
  exists tail, p = p' ++ tail /\ Forall (fun c => c = SLASH \/ c = BSLASH) tail /\
  ((exists q c, p' = q ++ [c] /\ c <> SLASH /\ c <> BSLASH) \/ length p' = 1).

(** The conditions on the values: mandatory ones are there, the library is a directory, the other
    files exist, and there is an LVE if encryption is wanted. *)
Definition Acceptable (st : stats) (lves : nat) (o : list (bytes * bytes)) : Prop :=
  (exists v, In (B "version", v) o) /\ (exists v, In (B "language", v) o) /\
  (exists p p', In (B "librarypath", p) o /\ Trimmed p p' /\ st p' = Some true) /\
  (forall v, In (B "encrypt", v) o -> map lower v = B "true" -> lves <> 0) /\
  (forall k v, In (k, v) o -> In k [B "tools"; B "dependencies"; B "icon"] -> st v <> None).

(** What is known of the values afterwards: the library path without slashes at its end, encrypt in
    lower case, the others as given. *)
Definition Kept (o : list (bytes * bytes)) (get : bytes -> option bytes) : Prop :=
  forall k, KnownOption k ->
    match get k with
    | None => ~ In k (map fst o)
    | Some w => exists v, In (k, v) o /\
        ((k = B "librarypath" /\ Trimmed v w) \/ (k = B "encrypt" /\ w = map lower v) \/
         (k <> B "librarypath" /\ k <> B "encrypt" /\ w = v))
    end.

(** The last component of a path that may end with slashes. *)
Definition LastComponent (p name : bytes) : Prop :=
  exists pre tail, p = pre ++ name ++ tail /\ name <> [] /\ ~ In SLASH name /\
    Forall (fun c => c = SLASH) tail /\ (pre = [] \/ exists q, pre = q ++ [SLASH]).
