(** Model of the command line of the packaging tool:
    /repo/src/packagetool/arguments.c and the path check of utils.c (Linux branch).
    Strings are NUL-free byte lists.  What is printed on the terminal is not modelled.
    Changes made in place to the strings of argv are changes of the stored values. *)
From Verif Require Import Base.

(** validArguments, arguments.c:34-49, arguments.h:24-37. *)
Definition valid_arguments : list bytes :=
  [B "librarypath"; B "enabled"; B "title"; B "description"; B "version"; B "build"; B "date";
   B "language"; B "copyright"; B "license"; B "encrypt"; B "icon"; B "tools"; B "dependencies"].
(** mandatoryArguments, arguments.c:55-59. *)
Definition mandatory_arguments : list bytes := [B "librarypath"; B "version"; B "language"].
(** helpArguments, arguments.c:65-68, arguments.h:38-39. *)
Definition help_arguments : list bytes := [B "--help"; B "-h"].
(** MAX_ARGUMENTS, arguments.h:22. *)
Definition MAX_ARGUMENTS : nat := 14.

(** manifestData, arguments.c:73: the slots, in order, each with an argument and its value; an
    unused slot holds two empty strings. *)
Definition slots := list (bytes * bytes).
(** clearManifestArray, arguments.c:188-198. *)
Definition no_arguments : slots := repeat ([], []) MAX_ARGUMENTS.

(** getValueOf, arguments.c:78-91; None is the null pointer. *)
Fixpoint value_of (t : slots) (key : bytes) : option bytes :=
  match t with
  | [] => None
  | (k, v) :: r => if beq k key then Some v else value_of r key
  end.
(** containsKey, arguments.c:96-109. *)
Fixpoint contains_key (t : slots) (key : bytes) : bool :=
  match t with
  | [] => false
  | (k, _) :: r => if beq k key then true else contains_key r key
  end.
(** lookupArgument, arguments.c:123-137. *)
Fixpoint lookup_in (l : list bytes) (a : bytes) : bool :=
  match l with
  | [] => false
  | x :: r => if beq a x then true else lookup_in r a
  end.
Definition lookup_argument (a : bytes) : bool := lookup_in valid_arguments a.
(** addManifestData, arguments.c:146-164: the first empty slot is used; nothing happens if there
    is none. *)
Fixpoint add_argument (t : slots) (key value : bytes) : slots :=
  match t with
  | [] => []
  | (k, v) :: r => if beq k [] then (key, value) :: r else (k, v) :: add_argument r key value
  end.
(** A change of the string stored for a key (the pointer stays the same). *)
Fixpoint set_value (t : slots) (key value : bytes) : slots :=
  match t with
  | [] => []
  | (k, v) :: r => if beq k key then (k, value) :: r else (k, v) :: set_value r key value
  end.

(** The loop of validateArguments, arguments.c:213-249, on the arguments that are left; None if 0
    is returned.  The first character of an option is skipped without looking at it; for an empty
    argument the byte after its end is read. *)
Fixpoint validate_loop (t : slots) (args : list bytes) : outcome (option slots) :=
  match args with
  | [] => Ok (Some t)
  | [] :: _ => UB OobRead
  | (_ :: ptr) :: r =>
      if negb (beq ptr []) && lookup_argument ptr then
        if contains_key t ptr then Ok None
        else match r with
             | [] => Ok None
             | v :: r' => if beq v [] then Ok None else validate_loop (add_argument t ptr v) r'
             end
      else Ok None
  end.
(** validateArguments, arguments.c:206-252; [args]: argv without the program name. *)
Definition validate_arguments (args : list bytes) : outcome (option slots) := validate_loop no_arguments args.

(** helpRequested, arguments.c:438-458. *)
Definition help_requested (args : list bytes) : bool := existsb (fun a => lookup_in help_arguments a) args.

(** validateMandatoryArguments, arguments.c:285-300. *)
Definition validate_mandatory (t : slots) : bool := forallb (contains_key t) mandatory_arguments.

(** What stat() says of a path: nothing there, or a directory (true) or something else. *)
Definition stats := bytes -> option bool.
(** fileExists, utils.c:613-623. *)
Definition file_exists (st : stats) (p : bytes) : bool := match st p with Some _ => true | None => false end.

(** Removal of trailing slashes and backslashes, validatePath, utils.c:272-280, on the reversed
    path. *)
Fixpoint trim_rev (r : bytes) : bytes :=
  match r with
  | c :: ((_ :: _) as r') => if Ascii.eqb c BSLASH || Ascii.eqb c SLASH then trim_rev r' else r
  | _ => r
  end.
Definition trim_path (p : bytes) : bytes := rev (trim_rev (rev p)).
(** validatePath, utils.c:261-288, isDirectory, utils.c:231-248: result and the new contents of the
    path. *)
Definition validate_path (st : stats) (p : bytes) : bool * bytes :=
  match p with
  | [] => (false, p)
  | _ => let p' := trim_path p in ((match st p' with Some true => true | _ => false end), p')
  end.
(** validateLibraryPath, arguments.c:259-280. *)
Definition validate_library_path (st : stats) (t : slots) : bool * slots :=
  match value_of t (B "librarypath") with
  | None => (false, t)
  | Some p => let '(ok, p') := validate_path st p in (ok, set_value t (B "librarypath") p')
  end.

(** stringToLower, utils.c:293-302; tolower in the C locale leaves bytes from 128 on alone. *)
Definition to_lower (s : bytes) : bytes := map lower s.
(** validateEncryption, arguments.c:305-328; [lves]: countLVE(). *)
Definition validate_encryption (lves : nat) (t : slots) : bool * slots :=
  match value_of t (B "encrypt") with
  | None => (true, t)
  | Some v => (negb (beq (to_lower v) (B "true") && (lves =? 0)), set_value t (B "encrypt") (to_lower v))
  end.
(** usingEncryption, utils.c:1749-1756; the value is in lower case already when it is called. *)
Definition using_encryption (t : slots) : bool :=
  match value_of t (B "encrypt") with
  | Some v => beq (to_lower v) (B "true")
  | None => false
  end.
(** validateXmlFile, arguments.c:334-352, and validateIcon, arguments.c:358-391 (the search in the
    library is commented out). *)
Definition validate_file (st : stats) (t : slots) (key : bytes) : bool :=
  match value_of t key with
  | None => true
  | Some v => file_exists st v
  end.

(** The validation done by doWork, packagetool.c:64-76: the arguments if all checks succeed. *)
Definition validate (st : stats) (lves : nat) (args : list bytes) : outcome (option slots) :=
  do ot <- validate_arguments args ;
  match ot with
  | None => Ok None
  | Some t =>
      if validate_mandatory t then
        let '(ok1, t1) := validate_library_path st t in
        if ok1 then
          let '(ok2, t2) := validate_encryption lves t1 in
          if ok2 && validate_file st t2 (B "tools") && validate_file st t2 (B "dependencies") && validate_file st t2 (B "icon")
          then Ok (Some t2) else Ok None
        else Ok None
      else Ok None
  end.

(** getLibraryName, arguments.c:397-433: the name, and the library path, which loses a '/' at its
    end.  For an empty path the byte before it is read.  If the path is "/" the name is the empty
    string at its old end. *)
Definition library_name (t : slots) : outcome (option bytes * slots) :=
  match value_of t (B "librarypath") with
  | None => Ok (None, t)
  | Some p =>
      match last_byte p with
      | None => UB OobRead
      | Some c =>
          let p' := if Ascii.eqb c SLASH then removelast p else p in
          let name := match rfind_byte SLASH p with Some i => skipn (S i) p' | None => p' end in
          Ok (Some name, set_value t (B "librarypath") p')
      end
  end.
