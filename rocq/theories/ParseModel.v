(** Model of the command table and the command parser:
    /repo/src/common/mlle_protocol.{h,c}, /repo/src/common/mlle_parse_command.{h,c}. *)
From Verif Require Import Base.

(** enum mlle_protocol_command_id, common/mlle_protocol.h:45-64. *)
Inductive cmd_id :=
| C_UNDEFINED | C_NOTSIMPLE | C_TOOLS | C_YES | C_VERSION | C_FEATURE | C_FILE
| C_FILECONT | C_LIB | C_LICENSE | C_NO | C_RETURNFEATURE | C_RETURNLICENSE
| C_TOOLLIST | C_ERROR.

(** enum mlle_protocol_msg_form, common/mlle_protocol.h:34-43. *)
Inductive msg_form := F_UNDEFINED | F_SIMPLE | F_NUMBER | F_LENGTH | F_NUMBER_AND_LENGTH.

(** The table mlle_command_info, common/mlle_protocol.c:29-54, in table order. *)
Definition command_info : list (cmd_id * msg_form * bytes) :=
  [ (C_UNDEFINED,     F_UNDEFINED, B "[unknown_command]");
    (C_NOTSIMPLE,     F_SIMPLE, B "NOTSIMPLE");
    (C_TOOLS,         F_SIMPLE, B "TOOLS");
    (C_YES,           F_SIMPLE, B "YES");
    (C_VERSION,       F_NUMBER, B "VERSION");
    (C_FEATURE,       F_LENGTH, B "FEATURE");
    (C_FILE,          F_LENGTH, B "FILE");
    (C_FILECONT,      F_LENGTH, B "FILECONT");
    (C_LIB,           F_LENGTH, B "LIB");
    (C_LICENSE,       F_LENGTH, B "LICENSE");
    (C_NO,            F_LENGTH, B "NO");
    (C_RETURNFEATURE, F_LENGTH, B "RETURNFEATURE");
    (C_RETURNLICENSE, F_LENGTH, B "RETURNLICENSE");
    (C_TOOLLIST,      F_LENGTH, B "TOOLLIST");
    (C_ERROR,         F_NUMBER_AND_LENGTH, B "ERROR") ].

(** Decidable equality of command ids (C `==` on the enum). *)
Definition cmd_id_eqb (a b : cmd_id) : bool :=
  match a, b with
  | C_UNDEFINED, C_UNDEFINED | C_NOTSIMPLE, C_NOTSIMPLE | C_TOOLS, C_TOOLS
  | C_YES, C_YES | C_VERSION, C_VERSION | C_FEATURE, C_FEATURE | C_FILE, C_FILE
  | C_FILECONT, C_FILECONT | C_LIB, C_LIB | C_LICENSE, C_LICENSE | C_NO, C_NO
  | C_RETURNFEATURE, C_RETURNFEATURE | C_RETURNLICENSE, C_RETURNLICENSE
  | C_TOOLLIST, C_TOOLLIST | C_ERROR, C_ERROR => true
  | _, _ => false
  end.

(** mlle_command_info[id].name; the table is indexed by the enum value and the
    rows are in enum order (common/mlle_protocol.c:29-54). *)
Fixpoint info_name (t : list (cmd_id * msg_form * bytes)) (id : cmd_id) : bytes :=
  match t with
  | [] => []
  | (i, _, n) :: r => if cmd_id_eqb i id then n else info_name r id
  end.
(** Name of a command in the table above (common/mlle_protocol.c:29-54). *)
Definition cmd_name (id : cmd_id) : bytes := info_name command_info id.

(** mlle_nbr_tokens_for_form, common/mlle_protocol.c:24-26. *)
Definition nbr_tokens (f : msg_form) : nat :=
  match f with
  | F_UNDEFINED => 0 | F_SIMPLE => 1 | F_NUMBER => 2 | F_LENGTH => 2
  | F_NUMBER_AND_LENGTH => 3
  end.

(** MLLE_PROTOCOL_MAX_TOKENS_PER_MSG, common/mlle_protocol.h:30. *)
Definition max_tokens : nat := 3.

(** struct mlle_command without the payload pointer, common/mlle_protocol.h:88-93.
    [c_length] is a size_t that was assigned from a long. *)
Record command := { c_id : cmd_id; c_number : Z; c_length : Z }.

(** Initial value, common/mlle_parse_command.c:146-149. *)
Definition undefined_command : command :=
  {| c_id := C_UNDEFINED; c_number := 0; c_length := 0 |}.

(** enum mlle_grammar_error_t, common/mlle_parse_command.h:28-38. *)
Inductive grammar :=
| VALID_GRAMMAR | UNKNOWN_ERROR | NO_TOKENS | TOO_MANY_TOKENS | TOO_FEW_TOKENS
| UNKNOWN_CMD | NOT_AN_INT | NEGATIVE_LENGTH.

(** First half of strtok_r(3): skip leading delimiters. *)
Fixpoint skip_delim (d : byte) (s : bytes) : bytes :=
  match s with
  | [] => []
  | x :: r => if Ascii.eqb x d then skip_delim d r else s
  end.

(** Second half of strtok_r(3): the token up to the next delimiter and what
    is left behind that delimiter. *)
Fixpoint take_token (d : byte) (s : bytes) : bytes * bytes :=
  match s with
  | [] => ([], [])
  | x :: r => if Ascii.eqb x d then ([], r)
              else let '(t, rest) := take_token d r in (x :: t, rest)
  end.

(** strtok_r(3) with a one-character delimiter set, as called in
    common/mlle_parse_command.c:77,80,94. [None] is the NULL result. *)
Definition strtok (d : byte) (s : bytes) : option (bytes * bytes) :=
  match skip_delim d s with
  | [] => None
  | s' => Some (take_token d s')
  end.

(** The loop of mlle_tokenize, common/mlle_parse_command.c:80-95.  [room] is the
    number of free entries of the token array.  Result: the tokens stored and
    whether the loop ended with MLLE_PROTOCOL_TOO_MANY_TOKENS. *)
Fixpoint tok_loop (room : nat) (s : bytes) : list bytes * bool :=
  match strtok SP s with
  | None => ([], false)
  | Some (t, rest) =>
      match room with
      | O => ([], true)
      | S room' => let '(l, many) := tok_loop room' rest in (t :: l, many)
      end
  end.

(** mlle_tokenize, common/mlle_parse_command.c:60-98.  The argument is the C
    string in the buffer (a NULL pointer is not passed by any caller). When
    the string has only newlines the second strtok_r continues at the end of
    the string and yields no token. *)
Definition tokenize (s : bytes) : list bytes * bool :=
  match s with
  | [] => ([], false)
  | _ => match strtok LF s with
         | None => ([], false)
         | Some (line, _) => tok_loop max_tokens line
         end
  end.

(** isspace(3) in the C locale (used by sscanf). *)
Definition is_space (c : byte) : bool :=
  let n := nat_of_ascii c in ((9 <=? n) && (n <=? 13)) || (n =? 32).

(** isdigit(3). *)
Definition is_digit (c : byte) : bool :=
  let n := nat_of_ascii c in (48 <=? n) && (n <=? 57).

(** Value of a decimal digit. *)
Definition digit_val (c : byte) : Z := Z.of_nat (nat_of_ascii c) - 48.

(** Longest run of digits at the start of a string. *)
Fixpoint digit_run (s : bytes) : bytes :=
  match s with
  | [] => []
  | x :: r => if is_digit x then x :: digit_run r else []
  end.

(** Decimal value of a run of digits, left to right. *)
Definition dec_val (ds : bytes) : Z :=
  fold_left (fun acc c => acc * 10 + digit_val c)%Z ds 0%Z.

(** LONG_MIN and LONG_MAX on LP64. *)
Definition LONG_MAX : Z := 9223372036854775807.
Definition LONG_MIN : Z := -9223372036854775808.

(** strtol saturates at the ends of the range of long. *)
Definition clamp_long (z : Z) : Z :=
  if (z <? LONG_MIN)%Z then LONG_MIN
  else if (LONG_MAX <? z)%Z then LONG_MAX else z.

(** Skip leading white space. *)
Fixpoint skip_space (s : bytes) : bytes :=
  match s with
  | [] => []
  | x :: r => if is_space x then skip_space r else s
  end.

(** Results of sscanf(s, "%ld", n): EOF (-1), 0 conversions, 1 conversion. *)
Inductive scan := ScanEOF | ScanFail | ScanOk (n : Z).

(** sscanf(token, "%ld", n) of glibc, as called in common/mlle_parse_command.c:112:
    white space is skipped, one sign is accepted, then decimal digits; what
    follows the digits is ignored; out-of-range values saturate. *)
Definition scan_ld (s : bytes) : scan :=
  match skip_space s with
  | [] => ScanEOF
  | x :: r =>
      let '(neg, body) := if Ascii.eqb x MINUS then (true, r)
                          else if Ascii.eqb x PLUS then (false, r)
                          else (false, x :: r) in
      match digit_run body with
      | [] => ScanFail
      | ds => ScanOk (clamp_long (if neg then - dec_val ds else dec_val ds)%Z)
      end
  end.

(** Digits of a non-negative number, least significant first; [fuel] bounds
    the number of digits. *)
Fixpoint digits_rev (fuel : nat) (n : Z) : bytes :=
  match fuel with
  | O => []
  | S f => if (n <? 10)%Z then [ch (48 + Z.to_nat n)]
           else ch (48 + Z.to_nat (n mod 10)) :: digits_rev f (n / 10)
  end.

(** printf("%ld") / printf("%lu"): decimal notation with '-' for negative
    numbers.  Used in common/mlle_io.c:193-283, common/mlle_parse_command.c:231.
    The fuel is the number of binary digits, which is enough (see
    ParseProofs.print_dec_scan). *)
Definition print_dec (z : Z) : bytes :=
  let digits n := rev (digits_rev (S (Z.to_nat (Z.log2 n))) n) in
  if (z <? 0)%Z then MINUS :: digits (- z)%Z else digits z.

(** expected_form_template, common/mlle_parse_command.c:36-42, with the command
    word substituted for %s. *)
Definition expected_form (f : msg_form) (w : bytes) : bytes :=
  match f with
  | F_UNDEFINED => B "[This should never be used.]"
  | F_SIMPLE => w
  | F_NUMBER => w ++ B " <number>"
  | F_LENGTH => w ++ B " <length>"
  | F_NUMBER_AND_LENGTH => w ++ B " <number> <length>"
  end.

(** Look up the first token, common/mlle_parse_command.c:159-165 (the loop starts
    after the UNDEFINED row). *)
Fixpoint lookup_word (t : list (cmd_id * msg_form * bytes)) (w : bytes)
  : option (cmd_id * msg_form) :=
  match t with
  | [] => None
  | (i, f, n) :: r => if beq w n then Some (i, f) else lookup_word r w
  end.

(** Result of the parser: the returned code, the command structure, and the text
    written to error_msg ([None]: the buffer is left as it was). *)
Definition parse_result := (grammar * command * option bytes)%type.

(** parse_int, common/mlle_parse_command.c:102-122: the value, or the text written
    (nothing is written when sscanf returns EOF). *)
Definition parse_int (tok word : bytes) : Z + option bytes :=
  match scan_ld tok with
  | ScanOk n => inl n
  | ScanFail => inr (Some (B "Parse error. Argument " ++ tok ++ B " to command " ++ word
                           ++ B " is not an integer."))
  | ScanEOF => inr None
  end.

(** Effect of writing a text into a buffer of [elen] bytes with snprintf. *)
Definition put (elen : nat) (m : bytes) : option bytes := Some (snprintf elen m).

(** The text written by the two snprintf calls of
    common/mlle_parse_command.c:179-185.  Writing at offset print_length beyond
    the buffer would be undefined; ParseProofs.arity_text_fits shows that it is
    not reached for buffers of at least 128 bytes. *)
Definition arity_text (many : bool) (f : msg_form) (w : bytes) : bytes :=
  B "Too " ++ (if many then B "many" else B "few") ++ B " arguments for command " ++ w
  ++ B ". Expected form is ".

(** mlle_parse_command, common/mlle_parse_command.c:132-246. [elen] is the size of the
    error_msg buffer. *)
Definition parse_command (elen : nat) (s : bytes) : parse_result :=
  let '(toks, many) := tokenize s in
  match toks with
  | [] => (NO_TOKENS, undefined_command, put elen (B "No tokens in message."))
  | w :: args =>
    match lookup_word (tl command_info) w with
    | None => (UNKNOWN_CMD, undefined_command,
               put elen (B "Unknown command " ++ w ++ B "."))
    | Some (id, form) =>
      if many || (nbr_tokens form <? length toks) then
        (TOO_MANY_TOKENS, undefined_command,
         put elen (arity_text true form w ++ expected_form form w))
      else if length toks <? nbr_tokens form then
        (TOO_FEW_TOKENS, undefined_command,
         put elen (arity_text false form w ++ expected_form form w))
      else match form with
      | F_SIMPLE => (VALID_GRAMMAR, {| c_id := id; c_number := 0; c_length := 0 |}, None)
      | F_UNDEFINED => (UNKNOWN_ERROR, undefined_command, None)
      | _ =>
        match parse_int (nth 0 args []) w with
        | inr m => (NOT_AN_INT, undefined_command, option_map (snprintf elen) m)
        | inl n1 =>
          match form with
          | F_NUMBER => (VALID_GRAMMAR, {| c_id := id; c_number := n1; c_length := 0 |}, None)
          | F_LENGTH =>
            if (n1 <? 0)%Z then
              (NEGATIVE_LENGTH, undefined_command,
               put elen (B "Parse error. Length argument " ++ print_dec n1 ++ B " to command "
                         ++ w ++ B " is negative."))
            else (VALID_GRAMMAR, {| c_id := id; c_number := 0; c_length := n1 |}, None)
          | _ =>
            match parse_int (nth 1 args []) w with
            | inr m => (NOT_AN_INT, undefined_command, option_map (snprintf elen) m)
            | inl n2 =>
              if (n2 <? 0)%Z then
                (NEGATIVE_LENGTH, undefined_command,
                 put elen (B "Parse error. Length argument " ++ print_dec n2 ++ B " to command "
                           ++ w ++ B " is negative."))
              else (VALID_GRAMMAR, {| c_id := id; c_number := n1; c_length := n2 |}, None)
            end
          end
        end
      end
    end
  end.

(* Keep these folded in proofs. *)
Arguments cmd_name : simpl never.
Arguments print_dec : simpl never.
