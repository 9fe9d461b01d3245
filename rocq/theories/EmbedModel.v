(** Keys embedded into programs: the programs that generate C headers from key files and from random
    bytes, and the script that puts the keys of several tools together. *)
From Verif Require Import Base WireModel ParseModel.

(** data[j] = c. *)
Definition poke (j : nat) (c : byte) (s : bytes) : bytes := firstn j s ++ c :: skipn (S j) s.

(** The loop that removes carriage returns in place, embedfile/obfuscate_utils.c:74-80: [n] rounds are
    left, [i] and [j] are the variables. *)
Fixpoint strip_cr (n i j : nat) (data : bytes) : bytes * nat :=
  match n with
  | 0 => (data, j)
  | S n' =>
      let c := nth i data NUL in
      if Ascii.eqb c CR then strip_cr n' (S i) j data
      else strip_cr n' (S i) (S j) (if i =? j then data else poke j c data)
  end.

(** printf("%x") of a byte. *)
Definition hex_digit (n : nat) : byte := if n <? 10 then ch (48 + n) else ch (87 + n).
Definition print_hex (c : byte) : bytes :=
  let n := nat_of_ascii c in
  if n <? 16 then [hex_digit n] else [hex_digit (n / 16); hex_digit (n mod 16)].

(** write_initialize_key_macro_body of the obfuscator that does not obfuscate,
    obfuscators/dummy/src/obfuscator.c:21-31.  Simplified: [i] does not overflow (files of less than
    2 GB). *)
Fixpoint macro_body (name : bytes) (i : nat) (data : bytes) : bytes :=
  match data with
  | [] => []
  | c :: r => name ++ B "[" ++ print_dec (Z.of_nat i) ++ B "] = '\x" ++ print_hex c ++ B "'; " ++ macro_body name (S i) r
  end.

(** create_header_file, embedfile/obfuscate_utils.c:68-99: the text written; write_header_extra
    (obfuscators/dummy/src/obfuscator.c:33-35) writes nothing.  Simplified: the lengths printed with %d
    are less than 2^31. *)
Definition header (name data : bytes) : bytes :=
  let len := length data in
  let (stripped, j) := strip_cr len 0 0 data in
  let data := if j <? len then poke j NUL stripped else stripped in
  B "#define DECLARE_" ++ name ++ B "() unsigned char " ++ name ++ B "[" ++ print_dec (Z.of_nat (len + 1)) ++ B "]" ++ [LF] ++
  B "#define " ++ name ++ B "_LEN (" ++ print_dec (Z.of_nat j) ++ B ")" ++ [LF] ++
  B "#define INITIALIZE_" ++ name ++ B "() do { " ++ macro_body name 0 data ++
    name ++ B "[" ++ print_dec (Z.of_nat len) ++ B "] = '\0'; } while (0)" ++ [LF] ++
  B "#define CLEAR_" ++ name ++ B "() memset(" ++ name ++ B ", 0, " ++ name ++ B "_LEN)" ++ [LF].

(** What the programs ask of the file system: the contents of files that exist, whether they can be
    opened for reading, whether a file can be opened for writing. *)
Record disk := { dk_file : bytes -> option bytes; dk_readable : bytes -> bool; dk_writable : bytes -> bool }.

(** The exit code and the file written (name and contents), if any. *)
Definition made : Type := Z * option (bytes * bytes).

(** open_or_exit for the output (embedfile/obfuscate_utils.c:38-50) and create_header_file.
    Simplified: writing to an open file does not fail. *)
Definition create_header_file (d : disk) (name data out : bytes) : outcome made :=
  if dk_writable d out then Ok (0%Z, Some (out, header name data)) else Ok (1%Z, None).

(** read_file, embedfile/obfuscate.c:125-156: [None] is exit(1).  A file that does not exist makes
    fprintf read a string at an address made of the first character of the name (line 134; the empty
    name gives the null pointer, printed as "(null)").  fread of no bytes returns 0, which is taken for
    an error.  Simplified: memory suffices, the size of the file does not change while it is read. *)
Definition read_file (d : disk) (file : bytes) : outcome (option bytes) :=
  match dk_file d file with
  | None => match file with [] => Ok None | _ => UB OobRead end
  | Some data => if dk_readable d file then match data with [] => Ok None | _ => Ok (Some data) end else Ok None
  end.

(** main of obfuscate, embedfile/obfuscate.c:74-111; the arguments without the name of the program. *)
Definition obfuscate (d : disk) (args : list bytes) : outcome made :=
  match args with
  | [out; file; name; type] =>
      if beq type (B "TOOL_PUBLIC") || beq type (B "TOOL_PRIVATE") || beq type (B "LVE_PRIVATE") then
        do data <- read_file d file ;
        match data with
        | None => Ok (1%Z, None)
        | Some data => create_header_file d name data out
        end
      else Ok (1%Z, None)
  | _ => Ok (1%Z, None)
  end.

(** MLLE_CR_KEY_LENGTH, encrypt_decrypt/mlle_cr_crypt.h:41. *)
Definition KEY_LENGTH : nat := 32.

(** main of randomize_key, embedfile/randomize_key.c:74-102, with generate_random_bytes (113-126);
    [draw] is what RAND_bytes gives, [None] if it fails. *)
Definition randomize_key (d : disk) (draw : nat -> option bytes) (args : list bytes) : outcome made :=
  match args with
  | [out; name] =>
      match draw KEY_LENGTH with
      | None => Ok (1%Z, None)
      | Some data => create_header_file d name data out
      end
  | _ => Ok (1%Z, None)
  end.

(** The name of the variable and of the header for the key number [i], CMakeLists.txt:255-256 (in src). *)
Definition key_name (i : nat) : bytes := B "PUBLIC_KEY_TOOL" ++ print_dec (Z.of_nat i).
Definition key_file (i : nat) : bytes := B "public_key_tool" ++ print_dec (Z.of_nat i) ++ B ".h".

(** GenPublicKeyToolH.cmake:26-98: the header for [n] keys, [n] not 0 (CMakeLists.txt:249-251). *)
Definition tool_header (n : nat) : bytes :=
  let all f := concat (map f (seq 0 n)) in
  B "#define PUBLIC_KEY_TOOL_NUM ( " ++ print_dec (Z.of_nat n) ++ B " )" ++ [LF] ++
  all (fun i => B "#include """ ++ key_file i ++ B """" ++ [LF]) ++
  B "#define DECLARE_PUBLIC_KEY_TOOL()" ++ all (fun i => B "DECLARE_" ++ key_name i ++ B "();") ++
    B "unsigned char* PUBLIC_KEY_TOOL[]={" ++ all (fun i => key_name i ++ B ",") ++ B "0}" ++ [LF] ++
  B "#define DECLARE_PUBLIC_KEY_TOOL_LEN() size_t PUBLIC_KEY_TOOL_LEN[]={" ++ all (fun i => key_name i ++ B "_LEN,") ++ B "0}" ++ [LF] ++
  B "#define INITIALIZE_PUBLIC_KEY_TOOL() do {" ++ all (fun i => B "INITIALIZE_" ++ key_name i ++ B "();") ++ B "} while (0)" ++ [LF] ++
  B "#define CLEAR_PUBLIC_KEY_TOOL() do {" ++ all (fun i => B "CLEAR_" ++ key_name i ++ B "();") ++ B "} while (0)" ++ [LF].

(** The headers of the keys, CMakeLists.txt:253-269 (in src): one run of obfuscate for each key file,
    the keys being numbered from [i]. *)
Fixpoint key_headers (d : disk) (dir : bytes) (i : nat) (files : list bytes) : list (outcome made) :=
  match files with
  | [] => []
  | f :: r => obfuscate d [key_file i; dir ++ B "/" ++ f; key_name i; B "TOOL_PUBLIC"] :: key_headers d dir (S i) r
  end.

Arguments KEY_LENGTH : simpl never.
Arguments print_hex : simpl never.
