(** The command-line grammar of the protocol, written without reference to the
    parser.  Source of the grammar: /repo/doc and the message forms listed in
    /repo/src/common/mlle_protocol.c:29-54; the treatment of blank lines, repeated
    spaces and trailing characters is what strtok_r and sscanf("%ld") define. *)
From Verif Require Import Base ParseModel.

(** [line] is the first non-empty line of [s]: leading newlines are ignored, the
    line ends at the next newline or at the end. *)
Definition FirstLine (s line : bytes) : Prop :=
  exists nls rest,
    s = nls ++ line ++ rest /\ (forall c, In c nls -> c = LF) /\
    line <> [] /\ ~ In LF line /\ (rest = [] \/ exists r, rest = LF :: r).

(** [ws] are the maximal space-free blocks of [line], left to right. *)
Inductive Words : bytes -> list bytes -> Prop :=
| W_end : Words [] []
| W_space l ws : Words l ws -> Words (SP :: l) ws
| W_word w rest ws :
    w <> [] -> ~ In SP w -> (rest = [] \/ exists r, rest = SP :: r) ->
    Words rest ws -> Words (w ++ rest) (w :: ws).

(** The decimal digits and their values. *)
Definition digit_table : list (string * Z) :=
  [("0",0);("1",1);("2",2);("3",3);("4",4);("5",5);("6",6);("7",7);("8",8);("9",9)]%string%Z.
Definition Digit (c : byte) (v : Z) : Prop := In (String c EmptyString, v) digit_table.

(** [ds] is a non-empty string of digits denoting [z]. *)
Inductive Decimal : bytes -> Z -> Prop :=
| D_one c v : Digit c v -> Decimal [c] v
| D_more ds z c v : Decimal ds z -> Digit c v -> Decimal (ds ++ [c]) (10 * z + v).

(** White space characters of the C locale. *)
Definition White (c : byte) : Prop :=
  In (nat_of_ascii c) [9; 10; 11; 12; 13; 32].

(** The nearest value that fits a 64-bit signed integer. *)
Definition saturate (z : Z) : Z := Z.max (-(2^63)) (Z.min (2^63 - 1) z).

(** [f] starts with an integer (optional white space, optional sign, digits) whose
    saturated value is [z]; anything may follow the digits. *)
Definition IntField (f : bytes) (z : Z) : Prop :=
  exists sp sign ds rest v,
    f = sp ++ sign ++ ds ++ rest /\ (forall c, In c sp -> White c) /\
    (sign = [] \/ sign = B "+" \/ sign = B "-") /\
    Decimal ds v /\ (forall c r, rest = c :: r -> forall d, ~ Digit c d) /\
    z = saturate (if beq sign (B "-") then - v else v)%Z.

(** The command words by message form. *)
Definition simple_words : list (string * cmd_id) :=
  [("NOTSIMPLE", C_NOTSIMPLE); ("TOOLS", C_TOOLS); ("YES", C_YES)]%string.
Definition number_words : list (string * cmd_id) := [("VERSION", C_VERSION)]%string.
Definition length_words : list (string * cmd_id) :=
  [("FEATURE", C_FEATURE); ("FILE", C_FILE); ("FILECONT", C_FILECONT); ("LIB", C_LIB);
   ("LICENSE", C_LICENSE); ("NO", C_NO); ("RETURNFEATURE", C_RETURNFEATURE);
   ("RETURNLICENSE", C_RETURNLICENSE); ("TOOLLIST", C_TOOLLIST)]%string.
Definition number_and_length_words : list (string * cmd_id) := [("ERROR", C_ERROR)]%string.

(** [w] is a command word for [id] that takes [n] fields. *)
Definition InForm (l : list (string * cmd_id)) (w : bytes) (id : cmd_id) : Prop :=
  exists s, w = B s /\ In (s, id) l.
Definition Known (w : bytes) (n : nat) : Prop :=
  exists id,
    (InForm simple_words w id /\ n = 0) \/ (InForm number_words w id /\ n = 1) \/
    (InForm length_words w id /\ n = 1) \/ (InForm number_and_length_words w id /\ n = 2).

(** The words of the command line ([] if there is no line). *)
Definition LineWords (s : bytes) (ws : list bytes) : Prop :=
  (ws = [] /\ forall c, In c s -> c = LF) \/
  (exists line, FirstLine s line /\ Words line ws).

(** A valid command line and what it says. *)
Inductive ValidLine (s : bytes) : command -> Prop :=
| V_simple w id : LineWords s [w] -> InForm simple_words w id ->
    ValidLine s {| c_id := id; c_number := 0; c_length := 0 |}
| V_number w f id n : LineWords s [w; f] -> InForm number_words w id -> IntField f n ->
    ValidLine s {| c_id := id; c_number := n; c_length := 0 |}
| V_length w f id n : LineWords s [w; f] -> InForm length_words w id -> IntField f n ->
    (0 <= n)%Z -> ValidLine s {| c_id := id; c_number := 0; c_length := n |}
| V_number_length w f g id m n : LineWords s [w; f; g] ->
    InForm number_and_length_words w id -> IntField f m -> IntField g n ->
    (0 <= n)%Z -> ValidLine s {| c_id := id; c_number := m; c_length := n |}.

(** The reason a line is rejected. *)
Inductive Rejected (s : bytes) : grammar -> Prop :=
| R_no_tokens : LineWords s [] -> Rejected s NO_TOKENS
| R_unknown w fs : LineWords s (w :: fs) -> (forall n, ~ Known w n) -> Rejected s UNKNOWN_CMD
| R_many w fs n : LineWords s (w :: fs) -> Known w n -> n < length fs ->
    Rejected s TOO_MANY_TOKENS
| R_few w fs n : LineWords s (w :: fs) -> Known w n -> length fs < n ->
    Rejected s TOO_FEW_TOKENS
| R_not_int w fs f : LineWords s (w :: fs) -> Known w (length fs) -> In f fs ->
    (forall z, ~ IntField f z) -> Rejected s NOT_AN_INT
| R_negative w fs f z : LineWords s (w :: fs) -> Known w (length fs) ->
    (forall g, In g fs -> exists y, IntField g y) ->
    (forall id, ~ InForm number_words w id) -> (exists l, fs = l ++ [f]) ->
    IntField f z -> (z < 0)%Z -> Rejected s NEGATIVE_LENGTH.

(** How a command is used, for the texts of error messages. *)
Inductive Usage (w : bytes) : bytes -> Prop :=
| U_simple id : InForm simple_words w id -> Usage w w
| U_number id : InForm number_words w id -> Usage w (w ++ B " <number>")
| U_length id : InForm length_words w id -> Usage w (w ++ B " <length>")
| U_number_length id : InForm number_and_length_words w id -> Usage w (w ++ B " <number> <length>").

(** A field of white space only. *)
Definition Blank (f : bytes) : Prop := forall c, In c f -> White c.

(** The text that explains why a line is rejected. *)
Inductive Complaint (s : bytes) : grammar -> bytes -> Prop :=
| T_no_tokens : LineWords s [] -> Complaint s NO_TOKENS (B "No tokens in message.")
| T_unknown w fs : LineWords s (w :: fs) -> (forall n, ~ Known w n) ->
    Complaint s UNKNOWN_CMD (B "Unknown command " ++ w ++ B ".")
| T_many w fs n u : LineWords s (w :: fs) -> Known w n -> n < length fs -> Usage w u ->
    Complaint s TOO_MANY_TOKENS (B "Too many arguments for command " ++ w ++ B ". Expected form is " ++ u)
| T_few w fs n u : LineWords s (w :: fs) -> Known w n -> length fs < n -> Usage w u ->
    Complaint s TOO_FEW_TOKENS (B "Too few arguments for command " ++ w ++ B ". Expected form is " ++ u)
| T_not_int w a f b : LineWords s (w :: a ++ f :: b) -> Known w (length (a ++ f :: b)) ->
    (forall g, In g a -> exists z, IntField g z) -> (forall z, ~ IntField f z) ->
    Complaint s NOT_AN_INT (B "Parse error. Argument " ++ f ++ B " to command " ++ w ++ B " is not an integer.")
| T_negative w l f z : LineWords s (w :: l ++ [f]) -> Known w (length (l ++ [f])) ->
    IntField f z -> (z < 0)%Z ->
    Complaint s NEGATIVE_LENGTH (B "Parse error. Length argument " ++ print_dec z ++ B " to command " ++ w ++ B " is negative.").
