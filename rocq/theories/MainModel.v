(** Model of the command line of the LVE, /repo/src/lve/lve.c. *)
From Verif Require Import Base ParseModel WireModel LveModel.

(** What is printed. *)
Inductive screen := VersionText | UsageText | SetTwice | NoMemory | Unexpected | NoLibpath.

(** How the option loop ends: with the options found, or with an exit status. *)
Inductive chosen := Chosen (feature lib : option bytes) | Stop (shown : screen) (success : bool).

Definition OPT_FEATURE : bytes := B "--checkout-feature".
Definition OPT_LIBPATH : bytes := B "--libpath".
Definition OPT_VERSION : bytes := B "--version".
Definition OPT_HELP : bytes := B "--help".

(** The option loop of main, lve/lve.c:226-278, over the arguments that are left
    (argv[argc] is NULL).  [solo]: argc == 2.  [f], [l]: checkout_feature, libpath. *)
Fixpoint options (al : alloc) (solo : bool) (f l : option bytes) (args : list bytes) : outcome chosen :=
  match args with
  | [] => Ok (Chosen f l)
  | a :: r =>
      if beq a OPT_FEATURE then
        match f with
        | Some _ => Ok (Stop SetTwice false)
        | None =>
            match r with
            | [] => UB NullDeref
            | v :: r' => if al (zlen v + 1)%Z then options al solo (Some v) l r' else Ok (Stop NoMemory false)
            end
        end
      else if beq a OPT_LIBPATH then
        match l with
        | Some _ => Ok (Stop SetTwice false)
        | None =>
            match r with
            | [] => UB NullDeref
            | v :: r' => if al (zlen v + 1)%Z then options al solo f (Some v) r' else Ok (Stop NoMemory false)
            end
        end
      else if beq a OPT_VERSION then Ok (Stop VersionText solo)
      else if beq a OPT_HELP then Ok (Stop UsageText solo)
      else Ok (Stop Unexpected false)
  end.

(** A command made from an argument: asprintf, strdup, mlle_parse_command and
    extract_data, lve/lve.c:107-140 and 142-172; [None]: one of them fails.  The value is
    the length and the data pointer of the command.  A failed asprintf leaves the
    pointer NULL (as glibc does). *)
Definition local_command (al : alloc) (id : cmd_id) (arg : bytes) : outcome (option (Z * payload)) :=
  let text := cmd_name id ++ [SP] ++ print_dec (zlen arg) ++ [LF] ++ arg in
  if al (zlen text + 1)%Z then
    match parse_command ERROR_SIZE text with
    | (VALID_GRAMMAR, c, _) =>
        do (d, _) <- extract_data al (c_length c) text ;
        match d with
        | Some p => Ok (Some (c_length c, p))
        | None => Ok None
        end
    | _ => Ok None
    end
  else Ok None.

(** Without a tool lve_ctx->ssl is NULL (lve/lve.c:218): a message that is sent
    nevertheless is SSL_write(NULL, ...). *)
Definition is_reply (e : event) : bool := match e with Reply _ => true | _ => false end.
Fixpoint before_reply (es : list event) : list event :=
  match es with
  | [] => []
  | e :: r => if is_reply e then [] else e :: before_reply r
  end.
Definition no_ssl {A} (m : M A) : M A :=
  if existsb is_reply (fst m) then (before_reply (fst m), UB NullDeref) else m.

(** _checkout_feature, lve/lve.c:85-198; the boolean is EXIT_SUCCESS. *)
Definition checkout_feature {D} (cfg : config) (e : env D) (feature lib : bytes) : M bool :=
  no_ssl (
    run lc <- lift (local_command (e_alloc e) C_LIB lib) ;
    match lc with
    | None => ret false
    | Some (len, data) =>
        run fc <- lift (local_command (e_alloc e) C_FEATURE feature) ;
        match fc with
        | None => ret false
        | Some (_, fdata) =>
            run (s1, ok) <- handle_lib cfg e true fresh len (Some data) ;
            if ok then
              run (_, ok2) <- handle_feature e true s1 (Some fdata) ;
              ret ok2
            else ret false
        end
    end).

(** How main ends: printing something, after a checkout, or after serving a tool. *)
Inductive ended := Stopped (shown : screen) (success : bool) | CheckedOut (success : bool) | Served.

(** main, lve/lve.c:215-305.  Serving a tool (mlle_lve_receive after the TLS handshake,
    284-296) is [session] of LveModel; here it is only named, it ends in EXIT_SUCCESS. *)
Definition lve_main {D} (cfg : config) (e : env D) (args : list bytes) : M ended :=
  run c <- lift (options (e_alloc e) (length args =? 1) None None args) ;
  match c with
  | Stop t ok => ret (Stopped t ok)
  | Chosen (Some _) None => ret (Stopped NoLibpath false)
  | Chosen (Some f) (Some l) => run ok <- checkout_feature cfg e f l ; ret (CheckedOut ok)
  | Chosen None _ => ret Served
  end.
