(** The generated headers as a C compiler takes them: a reader of the few forms of macros that occur,
    and what the macros do.  From the model nothing is used. *)
From Verif Require Import Base.

(** ** Reading *)

Notation "'want' x <- o ; f" := (match o with Some x => f | None => None end)
  (at level 200, x pattern, o at level 100, f at level 200).

(** A fixed text. *)
Fixpoint eat (p s : bytes) : option bytes :=
  match p, s with
  | [], _ => Some s
  | a :: p', b :: s' => if Ascii.eqb a b then eat p' s' else None
  | _, [] => None
  end.

(** Numbers: as many digits as there are, at least one. *)
Definition digit_of (base : Z) (c : byte) : option Z :=
  let n := Z.of_nat (nat_of_ascii c) in
  let v := if (48 <=? n)%Z && (n <=? 57)%Z then (n - 48)%Z
           else if (97 <=? n)%Z && (n <=? 102)%Z then (n - 87)%Z
           else if (65 <=? n)%Z && (n <=? 70)%Z then (n - 55)%Z else base in
  if (v <? base)%Z then Some v else None.
Fixpoint more_digits (base acc : Z) (s : bytes) : Z * bytes :=
  match s with
  | [] => (acc, [])
  | c :: r => match digit_of base c with Some d => more_digits base (acc * base + d) r | None => (acc, s) end
  end.
Definition number (base : Z) (s : bytes) : option (Z * bytes) :=
  match s with
  | [] => None
  | c :: _ => want _ <- digit_of base c ; Some (more_digits base 0 s)
  end.

(** Identifiers. *)
Definition id_char (c : byte) : bool :=
  let n := nat_of_ascii c in
  ((48 <=? n) && (n <=? 57)) || ((65 <=? n) && (n <=? 90)) || ((97 <=? n) && (n <=? 122)) || (n =? 95).
Definition Identifier (n : bytes) : Prop :=
  n <> [] /\ forallb id_char n = true /\ (forall c r, n = c :: r -> digit_of 10 c = None).
Fixpoint word (s : bytes) : bytes * bytes :=
  match s with
  | [] => ([], [])
  | c :: r => if id_char c then let (w, t) := word r in (c :: w, t) else ([], s)
  end.

(** Character constants: a NUL, or a hexadecimal number of a byte. *)
Definition character (s : bytes) : option (byte * bytes) :=
  match eat (B "'\0'") s with
  | Some r => Some (NUL, r)
  | None => want s1 <- eat (B "'\x") s ;
            want (n, s2) <- number 16 s1 ;
            want s3 <- eat (B "'") s2 ;
            if (n <? 256)%Z then Some (ch (Z.to_nat n), s3) else None
  end.

(** Assignments to elements of the array: as many as there are (not more than [fuel]). *)
Fixpoint assignments (fuel : nat) (name s : bytes) : option (list (Z * byte) * bytes) :=
  match eat (name ++ B "[") s with
  | None => Some ([], s)
  | Some s1 =>
      match fuel with
      | 0 => None
      | S fuel => want (i, s2) <- number 10 s1 ;
                  want s3 <- eat (B "] = ") s2 ;
                  want (c, s4) <- character s3 ;
                  want s5 <- eat (B "; ") s4 ;
                  want (l, s6) <- assignments fuel name s5 ;
                  Some ((i, c) :: l, s6)
      end
  end.

(** The header of one key: the size of the array, its length as a key, the assignments. *)
Record macros := { m_size : Z; m_length : Z; m_assignments : list (Z * byte) }.
Definition line : bytes := [LF].
Definition read_header (name s : bytes) : option macros :=
  want s <- eat (B "#define DECLARE_" ++ name ++ B "() unsigned char " ++ name ++ B "[") s ;
  want (size, s) <- number 10 s ;
  want s <- eat (B "]" ++ line ++ B "#define " ++ name ++ B "_LEN (") s ;
  want (len, s) <- number 10 s ;
  want s <- eat (B ")" ++ line ++ B "#define INITIALIZE_" ++ name ++ B "() do { ") s ;
  want (l, s) <- assignments (length s) name s ;
  want s <- eat (B "} while (0)" ++ line ++ B "#define CLEAR_" ++ name ++ B "() memset(" ++ name ++ B ", 0, " ++ name ++ B "_LEN)" ++ line) s ;
  match s with [] => Some {| m_size := size; m_length := len; m_assignments := l |} | _ => None end.

(** ** Meaning *)

(** The array can have any contents when it is declared. *)
Definition Declared (m : macros) (mem : bytes) : Prop := Z.of_nat (length mem) = m_size m.
(** Assignments outside of the array have no defined effect. *)
Fixpoint assign (l : list (Z * byte)) (mem : bytes) : option bytes :=
  match l with
  | [] => Some mem
  | (i, c) :: r => if (0 <=? i)%Z && (i <? Z.of_nat (length mem))%Z
                   then assign r (firstn (Z.to_nat i) mem ++ [c] ++ skipn (Z.to_nat i + 1) mem)
                   else None
  end.
Definition initialize (m : macros) (mem : bytes) : option bytes := assign (m_assignments m) mem.
Definition clear (m : macros) (mem : bytes) : option bytes :=
  if (m_length m <=? Z.of_nat (length mem))%Z
  then Some (repeat NUL (Z.to_nat (m_length m)) ++ skipn (Z.to_nat (m_length m)) mem) else None.

(** The contents of a file without carriage returns. *)
Definition unix (data : bytes) : bytes := filter (fun c => negb (Ascii.eqb c CR)) data.
(** A carriage return before every line feed. *)
Definition dos (data : bytes) : bytes := flat_map (fun c => if Ascii.eqb c LF then [CR; LF] else [c]) data.

(** ** Headers of several keys *)

(** The words of a list, each between [before] and [after]. *)
Fixpoint words (fuel : nat) (before after s : bytes) : option (list bytes * bytes) :=
  match fuel with
  | 0 => None
  | S fuel =>
      match eat before s with
      | None => Some ([], s)
      | Some s1 => let (w, s2) := word s1 in
                   match w, eat after s2 with
                   | _ :: _, Some s3 => want (l, s4) <- words fuel before after s3 ; Some (w :: l, s4)
                   | _, _ => Some ([], s)
                   end
      end
  end.

Record tool_macros := { tm_num : Z; tm_includes : list bytes; tm_declared : list bytes; tm_keys : list bytes;
                        tm_initialized : list bytes; tm_cleared : list bytes }.
Definition read_tool_header (s : bytes) : option tool_macros :=
  let fuel := length s in
  want s <- eat (B "#define PUBLIC_KEY_TOOL_NUM ( ") s ;
  want (num, s) <- number 10 s ;
  want s <- eat (B " )" ++ line) s ;
  want (includes, s) <- words fuel (B "#include """) (B ".h""" ++ line) s ;
  want s <- eat (B "#define DECLARE_PUBLIC_KEY_TOOL()") s ;
  want (declared, s) <- words fuel (B "DECLARE_") (B "();") s ;
  want s <- eat (B "unsigned char* PUBLIC_KEY_TOOL[]={") s ;
  want (keys, s) <- words fuel [] (B ",") s ;
  want s <- eat (B "0}" ++ line ++ B "#define DECLARE_PUBLIC_KEY_TOOL_LEN() size_t PUBLIC_KEY_TOOL_LEN[]={") s ;
  want (lengths, s) <- words fuel [] (B ",") s ;
  want s <- eat (B "0}" ++ line ++ B "#define INITIALIZE_PUBLIC_KEY_TOOL() do {") s ;
  want (initialized, s) <- words fuel (B "INITIALIZE_") (B "();") s ;
  want s <- eat (B "} while (0)" ++ line ++ B "#define CLEAR_PUBLIC_KEY_TOOL() do {") s ;
  want (cleared, s) <- words fuel (B "CLEAR_") (B "();") s ;
  want s <- eat (B "} while (0)" ++ line) s ;
  match s with [] => Some {| tm_num := num; tm_includes := includes; tm_declared := declared; tm_keys := keys;
                             tm_initialized := initialized; tm_cleared := cleared |} | _ => None end.

(** The macros of an array, from the headers included. *)
Fixpoint macros_of (files : bytes -> option bytes) (includes : list bytes) (name : bytes) : option macros :=
  match includes with
  | [] => None
  | f :: r => match files (f ++ B ".h") with
              | None => None
              | Some h => match read_header name h with Some m => Some m | None => macros_of files r name end
              end
  end.

(** The arrays of the keys that are looked through once they have been initialized: each is declared,
    initialized and cleared once; their contents do not depend on what was there before. *)
Definition InitializedKeys (files : bytes -> option bytes) (s : bytes) (keys : list bytes) : Prop :=
  exists t, read_tool_header s = Some t /\ Z.of_nat (length (tm_keys t)) = tm_num t /\
    NoDup (tm_keys t) /\ tm_declared t = tm_keys t /\ tm_initialized t = tm_keys t /\ tm_cleared t = tm_keys t /\
    Forall2 (fun name k => exists m, macros_of files (tm_includes t) name = Some m /\
                           forall mem, Declared m mem -> initialize m mem = Some k) (tm_keys t) keys.
