(** Common vocabulary of the model: bytes, outcomes, C library functions.

    Everything here models libc / C language behaviour that the sources in
    /repo/src rely on; each definition names the call sites it stands for. *)
From Coq Require Export Ascii String.
From Coq Require Export List Arith ZArith NArith Bool Lia.
Export ListNotations.
Open Scope list_scope.

(** A byte and a byte buffer.  Models `char` / `unsigned char` and arrays of
    them, used throughout /repo/src (e.g. common/mlle_protocol.h:88-93). *)
Notation byte := ascii (only parsing).
Notation bytes := (list ascii) (only parsing).

(** String literals of the C sources as byte lists (without the final NUL). *)
Definition B (s : string) : bytes := list_ascii_of_string s.
Arguments B s%string_scope.

(** The byte with a given code, e.g. '\n' is [ch 10]. *)
Definition ch (n : nat) : byte := ascii_of_nat n.

(** Characters used by the protocol (common/mlle_parse_command.c:77,80;
    common/mlle_utils.c:55) and by path handling
    (lve/mlle_lve_libpath.c:78, lve/mlle_lve_file.c:58,66). *)
Definition NUL : byte := Ascii.zero.
Definition LF : byte := ch 10.
Definition CR : byte := ch 13.
Definition SP : byte := ch 32.
Definition SLASH : byte := ch 47.
Definition BSLASH : byte := ch 92.
Definition DOT : byte := ch 46.
Definition MINUS : byte := ch 45.
Definition PLUS : byte := ch 43.

(** Reasons for undefined behaviour.  C11 6.5.6, 7.24.1, 7.1.4: the model never
    continues past one of these. *)
Inductive ub :=
| OobRead        (* read outside an object *)
| OobWrite       (* write outside an object *)
| NullDeref      (* NULL passed where an object is required *)
| UninitRead     (* value of a never written heap byte used *)
| UseAfterFree   (* pointer to a released object used, or double free *)
| NegativeSize.  (* negative int converted to size_t for memcpy *)

(** Result of running a C function: it returns normally, it has undefined
    behaviour, or it waits forever for input that never comes. *)
Inductive outcome (A : Type) :=
| Ok (a : A)
| UB (r : ub)
| Blocked.
Arguments Ok {A} a.
Arguments UB {A} r.
Arguments Blocked {A}.

(** Sequencing of C statements. *)
Definition bind {A C} (o : outcome A) (f : A -> outcome C) : outcome C :=
  match o with
  | Ok a => f a
  | UB r => UB r
  | Blocked => Blocked
  end.
Notation "'do' x <- o ; f" := (bind o (fun x => f))
  (at level 200, x pattern, o at level 100, f at level 200).

(** Equality of byte strings; models `strcmp(a,b) == 0` on NUL-free strings
    (e.g. common/mlle_parse_command.c:160, lve/mlle_lve_pubkey.c:77). *)
Fixpoint beq (a b : bytes) : bool :=
  match a, b with
  | [], [] => true
  | x :: a', y :: b' => Ascii.eqb x y && beq a' b'
  | _, _ => false
  end.

(** Index of the first occurrence; models `strchr`/`strstr(_, "\n")` restricted
    to a NUL-free prefix (common/mlle_utils.c:55, packagetool/manifest.c:413). *)
Fixpoint find_byte (c : byte) (s : bytes) : option nat :=
  match s with
  | [] => None
  | x :: r => if Ascii.eqb x c then Some 0
              else match find_byte c r with Some i => Some (S i) | None => None end
  end.

(** Index of the last occurrence; models `strrchr`
    (lve/mlle_lve_file.c:66, packagetool/arguments.c:397-433). *)
Fixpoint rfind_byte (c : byte) (s : bytes) : option nat :=
  match s with
  | [] => None
  | x :: r => match rfind_byte c r with
              | Some i => Some (S i)
              | None => if Ascii.eqb x c then Some 0 else None
              end
  end.

(** The C string stored at the start of a buffer: bytes before the first NUL
    (strlen/strcpy/%s view of a buffer). *)
Fixpoint cstr (s : bytes) : bytes :=
  match s with
  | [] => []
  | x :: r => if Ascii.eqb x NUL then [] else x :: cstr r
  end.

(** Membership test. *)
Fixpoint has_byte (c : byte) (s : bytes) : bool :=
  match s with
  | [] => false
  | x :: r => Ascii.eqb x c || has_byte c r
  end.

(** `tolower` in the C locale, used by `strcasecmp` (lve/mlle_lve_file.c:72,
    decryptors/default/src/mlle_cr_decrypt.c:70-186) and by stringToLower in
    packagetool/utils.c. *)
Definition lower (c : byte) : byte :=
  let n := nat_of_ascii c in
  if (65 <=? n) && (n <=? 90) then ascii_of_nat (n + 32) else c.

(** `strcasecmp(a,b) == 0`. *)
Definition caseeq (a b : bytes) : bool := beq (map lower a) (map lower b).

(** Last element. Models `s[len-1]` for len > 0. *)
Definition last_byte (s : bytes) : option byte :=
  match rev s with [] => None | x :: _ => Some x end.

(** snprintf into a buffer of [size] bytes keeps at most size-1 characters. *)
Definition snprintf (size : nat) (s : bytes) : bytes := firstn (size - 1) s.

(* Keep the character constants folded in proofs. *)
Arguments NUL : simpl never.
Arguments LF : simpl never.
Arguments CR : simpl never.
Arguments SP : simpl never.
Arguments SLASH : simpl never.
Arguments BSLASH : simpl never.
Arguments DOT : simpl never.
Arguments MINUS : simpl never.
Arguments PLUS : simpl never.
