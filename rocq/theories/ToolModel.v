(** Model of the tool side API, /repo/src/tool/mlle_licensing.c:101-472. *)
From Verif Require Import Base ParseModel WireModel.

(** ** Error objects *)

(** struct mlle_error without the cause (which no function sets),
    common/mlle_error.c:38-43.  Simplified in this file: making an error object does
    not run out of memory.  See ErrorModel for the objects on the heap. *)
Record error := { err_domain : Z; err_code : Z; err_text : option bytes }.

(** mlle_error_new_literal, common/mlle_error.c:107-129. *)
Definition literal (domain code : Z) (text : option bytes) : error :=
  {| err_domain := domain; err_code := code; err_text := text |}.
(** mlle_error_new with the formatted text, common/mlle_error.c:47-88. *)
Definition formatted (domain code : Z) (text : bytes) : error :=
  {| err_domain := domain; err_code := code; err_text := Some (snprintf 2048 text) |}.

(** MLLE_ERROR_DOMAIN_TOOL and enum mlle_tool_error, tool/mlle_licensing.h:29,43-50. *)
Definition DOMAIN_TOOL : Z := 2.
Definition TOOL_PROTOCOL : Z := 1.
Definition TOOL_NO_LICENSE : Z := 3.
Definition TOOL_NOT_SIMPLIFIED : Z := 4.

(** ** Waiting for a reply *)

(** What a call leaves behind: its result ([None]: failure), the error object in
    the caller's `error` variable, which was NULL before, and the unread input. *)
Definition called (A : Type) : Type := outcome (option A * option error * list rd).

(** command->data used with "%s".  NULL is undefined behaviour by the C standard. *)
Definition data_text (p : option payload) : outcome bytes :=
  match p with
  | None => UB NullDeref
  | Some q => payload_str q
  end.

(** mlle_expect_command, tool/mlle_licensing.c:101-133. An error that is already
    there is overwritten. *)
Definition expect_command (al : alloc) (id : cmd_id) (rs : list rd)
  : called (command * option payload) :=
  do (r, rest) <- read_command al rs ;
  match r with
  | ReadFail m => Ok (None, Some (literal 1 1 (Some m)), rest)
  | ReadOk c p err =>
      if cmd_id_eqb (c_id c) C_ERROR then
        do t <- data_text p ;
        Ok (None, Some (formatted DOMAIN_TOOL 1 (B "Got ERROR command with message: " ++ t)), rest)
      else if cmd_id_eqb (c_id c) id then
        Ok (Some (c, p), option_map (fun m => literal 1 1 (Some m)) err, rest)
      else
        Ok (None, Some (formatted DOMAIN_TOOL 1
              (B "Unexpected command. Expected command " ++ cmd_name id ++
               B ", but got command " ++ cmd_name (c_id c) ++ B ".")), rest)
  end.

(** The text built in tool/mlle_licensing.c:168-184.  The first snprintf is limited
    to the buffer; the following ones are told the size of the whole buffer, so
    text that reaches its end is written beyond it. (Stricter than the code: also
    counted when only the first piece is too long, where snprintf would cut it.) *)
Definition unexpected_text (got : cmd_id) (ids : list cmd_id) : bytes :=
  B "Unexpected command " ++ cmd_name got ++ B ". Expected one of the following commands: " ++
  match ids with
  | [] => []
  | i :: r => cmd_name i ++ concat (map (fun j => B ", " ++ cmd_name j) r)
  end.
(** The allocation size, tool/mlle_licensing.c:170; MLLE_PROTOCOL_MAX_CMD_LENGTH is 17. *)
Definition unexpected_size (n : nat) : nat := 100 + (17 + 2) * (n + 1).
Definition unexpected_msg (al : alloc) (got : cmd_id) (ids : list cmd_id) : outcome (option bytes) :=
  let size := unexpected_size (length ids) in
  if al (Z.of_nat size) then
    let t := unexpected_text got ids in
    if size <=? length t then UB OobWrite else Ok (Some t)
  else Ok None.

(** mlle_expect_commands, tool/mlle_licensing.c:135-190. *)
Definition expect_commands (al : alloc) (ids : list cmd_id) (rs : list rd)
  : called (command * option payload) :=
  do (r, rest) <- read_command al rs ;
  match r with
  | ReadFail m => Ok (None, Some (literal 1 1 (Some m)), rest)
  | ReadOk c p err =>
      if cmd_id_eqb (c_id c) C_ERROR then
        do t <- data_text p ;
        Ok (None, Some (formatted DOMAIN_TOOL 1 (B "Got ERROR command with message: " ++ t)), rest)
      else if existsb (cmd_id_eqb (c_id c)) ids then
        Ok (Some (c, p), option_map (fun m => literal 1 1 (Some m)) err, rest)
      else
        do m <- unexpected_msg al (c_id c) ids ;
        Ok (None, Some (literal DOMAIN_TOOL 1 m), rest)
  end.

(** ** File contents *)

(** struct mlle_file_contents (tool/mlle_licensing.h:37-41) on the heap, with the
    buffer it points to and the caller's pointer to it.  [h_ptr]/[fc_ptr]: the
    pointer is not NULL; [h_live]: the structure is not freed; [fc_cell]: the bytes
    of the buffer, [None] once it is freed (or if there never was one). *)
Record handle := {
  h_ptr : bool; h_live : bool;
  fc_size : Z; fc_off : Z; fc_ptr : bool; fc_cell : option bytes }.

(** free(buffer); buffer = NULL. *)
Definition release_buffer (h : handle) : outcome handle :=
  match fc_cell h with
  | None => UB UseAfterFree
  | Some _ =>
      Ok {| h_ptr := h_ptr h; h_live := h_live h; fc_size := fc_size h; fc_off := fc_off h;
            fc_ptr := false; fc_cell := None |}
  end.

(** Assignment to read_offset. *)
Definition set_off (h : handle) (off : Z) : handle :=
  {| h_ptr := h_ptr h; h_live := h_live h; fc_size := fc_size h; fc_off := off;
     fc_ptr := fc_ptr h; fc_cell := fc_cell h |}.

(** mlle_file_contents_free, tool/mlle_licensing.c:425-436. *)
Definition file_contents_free (h : handle) : outcome handle :=
  if h_ptr h then
    if negb (h_live h) then UB UseAfterFree
    else
      do h1 <- (if fc_ptr h then release_buffer h else Ok h) ;
      Ok {| h_ptr := false; h_live := false; fc_size := fc_size h1; fc_off := fc_off h1;
            fc_ptr := fc_ptr h1; fc_cell := fc_cell h1 |}
  else Ok h.

(** mlle_tool_get_file_size, tool/mlle_licensing.c:438-442. *)
Definition get_file_size (h : handle) : outcome Z :=
  if negb (h_ptr h) then UB NullDeref else if negb (h_live h) then UB UseAfterFree
  else Ok (fc_size h).

(** memcpy(write_buffer, buffer + off, n): the n bytes must be in the buffer. *)
Definition copy_out (cell : option bytes) (off n : Z) : outcome bytes :=
  match cell with
  | None => UB UseAfterFree
  | Some b => if (zlen b <? off + n)%Z then UB OobRead
              else Ok (firstn (Z.to_nat n) (skipn (Z.to_nat off) b))
  end.

(** mlle_tool_read_bytes, tool/mlle_licensing.c:444-472.  [None]: (size_t)-1;
    otherwise the bytes copied to write_buffer (their number is the result). *)
Definition read_file_bytes (h : handle) (buffer_size : Z) : outcome (option bytes * handle) :=
  if negb (h_ptr h) then UB NullDeref
  else if negb (h_live h) then UB UseAfterFree
  else if negb (fc_ptr h) then Ok (None, set_off h (fc_size h))
  else if (fc_size h <=? fc_off h)%Z then do h1 <- release_buffer h ; Ok (None, h1)
  else
    let left := (fc_size h - fc_off h)%Z in
    let n := if (buffer_size <? left)%Z then buffer_size else left in
    do b <- copy_out (fc_cell h) (fc_off h) n ;
    let h1 := set_off h (fc_off h + n)%Z in
    do h2 <- (if (fc_size h1 <=? fc_off h1)%Z then release_buffer h1 else Ok h1) ;
    Ok (Some b, h2).

(** ** API calls *)

(** The calls a tool can make, tool/mlle_licensing.h:62-148; strings are C strings. *)
Inductive call :=
| Version (min max : Z)
| LibPath (path : bytes)
| Feature (name : bytes)
| ReturnFeature (name : bytes)
| License (package : bytes)
| ReturnLicense (package : bytes)
| File (path : bytes).

(** What each call hands to ssl_write_message: tool/mlle_licensing.c:215,262,297,328,
    352,385,405. *)
Definition request (al : alloc) (c : call) : outcome (list bytes) :=
  match c with
  | Version _ max => Ok [send_number C_VERSION max]
  | LibPath s => send_string al C_LIB s
  | Feature s => send_string al C_FEATURE s
  | ReturnFeature s => send_string al C_RETURNFEATURE s
  | License s => send_string al C_LICENSE s
  | ReturnLicense s => send_string al C_RETURNLICENSE s
  | File s => send_string al C_FILE s
  end.

(** Result of a call: 1, or a file. *)
Inductive value := One | Contents (h : handle).

(** mlle_tool_version after sending, tool/mlle_licensing.c:215-237; [written] is the
    result of mlle_send_number_form. *)
Definition tool_version (al : alloc) (written min max : Z) (rs : list rd) : called value :=
  if (written <? 0)%Z then Ok (None, None, rs)
  else
    do (r, err, rest) <- expect_command al C_VERSION rs ;
    match r with
    | None => Ok (None, err, rest)
    | Some (c, _) =>
        if (c_number c <? min)%Z then
          Ok (None, Some (formatted DOMAIN_TOOL 1 (B "Protocol version from LVE too low.")), rest)
        else if (max <? c_number c)%Z then
          Ok (None, Some (formatted DOMAIN_TOOL 1 (B "Protocol version from LVE too high.")), rest)
        else Ok (Some One, err, rest)
    end.

(** Calls that succeed on YES only: mlle_tool_libpath, tool/mlle_licensing.c:254-268,
    mlle_tool_returnfeature 319-336, mlle_tool_returnlicense 376-393. *)
Definition tool_yes (al : alloc) (rs : list rd) : called value :=
  do (r, err, rest) <- expect_command al C_YES rs ;
  match r with
  | None => Ok (None, err, rest)
  | Some _ => Ok (Some One, err, rest)
  end.

(** mlle_tool_feature, tool/mlle_licensing.c:285-317. *)
Definition tool_feature (al : alloc) (rs : list rd) : called value :=
  do (r, err, rest) <- expect_commands al [C_YES; C_NO] rs ;
  match r with
  | None => Ok (None, err, rest)
  | Some (c, p) =>
      if cmd_id_eqb (c_id c) C_YES then Ok (Some One, err, rest)
      else if cmd_id_eqb (c_id c) C_NO then
        do t <- data_text p ; Ok (None, Some (formatted DOMAIN_TOOL TOOL_NO_LICENSE t), rest)
      else Ok (None, err, rest)
  end.

(** mlle_tool_license, tool/mlle_licensing.c:338-374. *)
Definition tool_license (al : alloc) (rs : list rd) : called value :=
  do (r, err, rest) <- expect_commands al [C_YES; C_NOTSIMPLE; C_NO] rs ;
  match r with
  | None => Ok (None, err, rest)
  | Some (c, p) =>
      if cmd_id_eqb (c_id c) C_YES then Ok (Some One, err, rest)
      else if cmd_id_eqb (c_id c) C_NOTSIMPLE then
        Ok (None, Some (literal DOMAIN_TOOL TOOL_NOT_SIMPLIFIED
              (Some (B "Library vendor executable doesn't use simplified licensing, use command FEATURE instead."))), rest)
      else if cmd_id_eqb (c_id c) C_NO then
        do t <- data_text p ; Ok (None, Some (formatted DOMAIN_TOOL TOOL_NO_LICENSE t), rest)
      else Ok (None, err, rest)
  end.

(** mlle_tool_file, tool/mlle_licensing.c:395-422.  The structure is 24 bytes. *)
Definition tool_file (al : alloc) (rs : list rd) : called value :=
  do (r, err, rest) <- expect_command al C_FILECONT rs ;
  match r with
  | None => Ok (None, err, rest)
  | Some (c, p) =>
      if al 24%Z then
        Ok (Some (Contents
              {| h_ptr := true; h_live := true; fc_size := c_length c; fc_off := 0;
                 fc_ptr := match p with Some _ => true | None => false end;
                 fc_cell := option_map p_bytes p |}), err, rest)
      else Ok (None, Some (literal 1 1 (Some (B "Out of memory."))), rest)
  end.

(** The part of each call after its message was sent. *)
Definition await (al : alloc) (written : Z) (c : call) (rs : list rd) : called value :=
  match c with
  | Version min max => tool_version al written min max rs
  | LibPath _ | ReturnFeature _ | ReturnLicense _ => tool_yes al rs
  | Feature _ => tool_feature al rs
  | License _ => tool_license al rs
  | File _ => tool_file al rs
  end.
