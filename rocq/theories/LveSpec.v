(** What a user of the LVE relies on, stated over the observable trace. *)
From Verif Require Import Base ParseModel ParseSpec WireModel WireSpec LveModel.

(** ** Messages *)

(** The text of a reply as the protocol documents it. *)
Definition error_message (code : Z) (text : bytes) : bytes :=
  B "ERROR " ++ print_dec code ++ B " " ++ print_dec (zlen text) ++ [LF] ++ text.
Definition length_message (word : bytes) (data : bytes) : bytes :=
  word ++ B " " ++ print_dec (zlen data) ++ [LF] ++ data.
Definition filecont_message (data : bytes) : bytes := length_message (B "FILECONT") data.

(** A reply that hands out file contents. *)
Definition CarriesFile (m : bytes) : Prop := exists r, m = B "FILECONT" ++ r.

(** The record is a valid command line with this command word / this command. *)
Definition Asks (r : bytes) (id : cmd_id) : Prop := exists c, ValidLine (cstr r) c /\ c_id c = id.

(** The record asks for a protocol version the LVE supports. *)
Definition AsksVersion (r : bytes) : Prop :=
  exists c, ValidLine (cstr r) c /\ c_id c = C_VERSION /\ (1 <= c_number c)%Z.

(** The record is a request with a complete payload [d] behind the header line. *)
Definition Request (r : bytes) (id : cmd_id) (d : bytes) : Prop :=
  exists c h, ValidLine (cstr r) c /\ c_id c = id /\ HeaderThen r h d /\ zlen d = c_length c.

(** ** Sessions *)

(** Which command is allowed at which point of a session. *)
Inductive Allowed : phase -> cmd_id -> Prop :=
| A_version : Allowed P_VERSION C_VERSION
| A_tools : Allowed P_TOOLS C_TOOLS
| A_lib1 : Allowed P_TOOLS C_LIB
| A_lib2 : Allowed P_LIB C_LIB
| A_feature : Allowed P_LICENSE C_FEATURE
| A_returnfeature : Allowed P_LICENSE C_RETURNFEATURE
| A_license : Allowed P_LICENSE C_LICENSE
| A_returnlicense : Allowed P_LICENSE C_RETURNLICENSE
| A_file : Allowed P_LICENSE C_FILE.

(** The states an LVE can be in while it waits for the next record. *)
Definition Reachable {D} (cfg : config) (s : lve D) : Prop :=
  exists key ts es, session cfg key ts = (es, Ok s).

(** Everything except the scratch buffer for error texts is the same. *)
Definition SameSession {D} (s s' : lve D) : Prop :=
  s_phase s' = s_phase s /\ s_lib s' = s_lib s /\ s_approved s' = s_approved s /\
  s_err s' = s_err s /\ s_errmsg s' = s_errmsg s /\ s_lic s' = s_lic s /\ s_cr s' = s_cr s.

(** The record is not a command, or not one that is allowed now. *)
Definition NotAcceptable {D} (s : lve D) (r : bytes) : Prop :=
  (exists g, Rejected (cstr r) g) \/
  (exists c, ValidLine (cstr r) c /\ ~ Allowed (s_phase s) (c_id c)).

(** ** Environments *)

(** Every allocation succeeds. *)
Definition AllocOk {D} (e : env D) : Prop := forall n, e_alloc e n = true.

(** A byte string that fits the address space. *)
Definition InMemory (b : bytes) : Prop := (zlen b < 2^60)%Z.

(** A licence manager that explains its refusals. *)
Definition Explains (r : lic_res) : Prop :=
  match r with Granted => True | Refused None => False | Refused (Some t) => InMemory t end.

(** A world in which nothing outside the LVE misbehaves. *)
Definition Healthy {D} (e : env D) : Prop :=
  AllocOk e /\
  (forall p, e_cr_create e p <> None) /\
  (forall d p f, exists d' o, e_decrypt e d p f = Ok (d', o) /\
                              forall b, o = Some b -> InMemory b) /\
  (forall p, Explains (e_lic_new e p)) /\
  (forall f, Explains (e_checkout e f)) /\ (forall f, Explains (e_checkin e f)) /\
  (forall p, match e_file e p with Content _ b _ => InMemory b | _ => True end).

(** A request with all of its payload and nothing more, and with a path if it is a
    LIB command. *)
Definition GoodRequest (r : bytes) : Prop :=
  InMemory r /\
  forall c, ValidLine (cstr r) c -> form_of (c_id c) = F_LENGTH ->
    (exists h d, HeaderThen r h d /\ zlen d = c_length c) /\
    (c_id c = C_LIB -> c_length c <> 0%Z).

(** ** Traces *)

(** Events between the LVE and others than the tool. *)
Definition internal (e : event) : Prop :=
  match e with Recv _ | Reply _ => False | _ => True end.

(** Every record is answered by exactly one reply, before the next one is taken. *)
Inductive OneReplyEach : list bytes -> list event -> Prop :=
| ORE_nil : OneReplyEach [] []
| ORE_cons r m a b rs es : Forall internal a -> Forall internal b -> OneReplyEach rs es ->
    OneReplyEach (r :: rs) (Recv r :: a ++ Reply m :: b ++ es).

(** The records a session takes: up to the first one after which TLS reports a
    shutdown. *)
Fixpoint taken {D} (ts : list (turn D)) : list bytes :=
  match ts with
  | [] => []
  | t :: r => t_record t :: (if t_shutdown t then [] else taken r)
  end.

(** ** Encrypted files *)

(** The text behind the last dot is "moc" in any case. *)
Definition MocFile (p : bytes) : Prop :=
  exists a x, p = a ++ DOT :: x /\ ~ In DOT x /\ caseeq x (B "moc") = true.

(** The LVE has accepted a version in this history. *)
Definition AcceptedVersion (h : list event) : Prop :=
  exists a v b, h = a ++ Recv v :: Reply (B "VERSION 1" ++ [LF]) :: b /\ AsksVersion v.

(** A LIB command came after that. *)
Definition LibAfterVersion (h : list event) : Prop :=
  exists a l b, h = a ++ Recv l :: b /\ AcceptedVersion a /\ Asks l C_LIB.

(** ** Files *)

(** The path of a file in the library. *)
Definition file_path (lib rel : bytes) : bytes := cstr lib ++ [SLASH] ++ rel.

(** Texts for files that cannot be read. *)
Inductive Unreadable {D} (e : env D) (path : bytes) : bytes -> Prop :=
| U_open t : e_file e path = NoOpen t ->
    Unreadable e path (B "Couldn't open file " ++ path ++ B ". The error message was: " ++ t)
| U_stat t : e_file e path = NoStat t ->
    Unreadable e path (B "Couldn't find file size for " ++ path ++ B ". The error message was: " ++ t)
| U_read size b t : e_file e path = Content size b (Some t) -> (zlen b < size)%Z ->
    Unreadable e path (B "I/O error while reading file " ++ path ++ B ". The error message was: " ++ t).

(** ** Licences *)

(** The licence manager was set up before or can be set up now. *)
Definition ManagerThere {D} (e : env D) (s : lve D) : Prop :=
  s_lic s = true \/ e_lic_new e (option_map cstr (s_lib s)) = Granted.

(** ** Texts *)

(** The text for a protocol version the LVE does not support. *)
Definition version_low_text : bytes := B "Minimum supported protocol version is 1".

(** ** Library path *)

(** [lib] is [raw] without trailing slashes, but never empty. *)
Definition Trimmed (raw lib : bytes) : Prop :=
  exists slashes, raw = lib ++ slashes /\ (forall c, In c slashes -> c = SLASH \/ c = BSLASH) /\
  lib <> [] /\
  (length lib = 1 \/ forall l c, lib = l ++ [c] -> c <> SLASH /\ c <> BSLASH).

(** ** Paths in a file system without links *)

(** Components of a path. *)
Fixpoint split_slash (s : bytes) : list bytes :=
  match s with
  | [] => [[]]
  | x :: r => if Ascii.eqb x SLASH then [] :: split_slash r
              else match split_slash r with w :: ws => (x :: w) :: ws | [] => [[x]] end
  end.

(** Walk from directory [here] (outermost component first, reversed) along a path:
    empty components and "." stay, ".." goes up (at the root it stays). *)
Definition walk1 (here : list bytes) (comp : bytes) : list bytes :=
  if beq comp [] || beq comp (B ".") then here
  else if beq comp (B "..") then tl here else comp :: here.
Definition walk (here : list bytes) (comps : list bytes) : list bytes := fold_left walk1 comps here.

(** The directory or file an absolute path denotes ([cwd] for relative paths). *)
Definition denotes (cwd : list bytes) (path : bytes) : list bytes :=
  match path with
  | c :: _ => if Ascii.eqb c SLASH then walk [] (split_slash path) else walk cwd (split_slash path)
  | [] => cwd
  end.

(** [f] lies inside directory [d] (reversed component lists). *)
Definition Inside (d f : list bytes) : Prop := exists below, f = below ++ d.
