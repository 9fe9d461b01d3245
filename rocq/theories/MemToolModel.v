(** Model of what the tool side API does with memory: /repo/src/common/mlle_utils.c:84-172,
    /repo/src/tool/mlle_licensing.c:101-472.  What the calls compute is in WireModel and
    ToolModel; here every block is followed. *)
From Verif Require Import Base ParseModel WireModel ToolModel MemModel.

(** Is a pointer not NULL (as in common/mlle_utils.c:64,152)? *)
Definition present {A} (p : option A) : bool := match p with Some _ => true | None => false end.

(** ssl_read_message, common/mlle_ssl.c:309-410, seen from its caller: a message comes in a
    new block (for the blocks in between see [m_ssl_read]); when it fails, a block in
    which a part of a message was collected may be left ([broken]) and the caller's
    pointer keeps its value. *)
Definition m_message (broken : bool) (r : rd) : T (option res) :=
  match r with
  | RMsg _ => malloc true
  | RErr _ => take _ <- malloc broken ; tret None
  end.

(** The loop reading the rest of the payload, common/mlle_utils.c:161-169: messageBuffer
    is overwritten by every message. *)
Fixpoint m_read_rest (broken : bool) (need : Z) (d : option res) (total : Z) (rs : list rd) : T unit :=
  if (total <? need)%Z then
    match rs with
    | RMsg b :: rs' =>
        take p <- m_message broken (RMsg b) ;
        take _ <- touch p ;
        take _ <- touch d ;
        m_read_rest broken need d (total + zlen b)%Z rs'
    | _ => tret tt
    end
  else tret tt.

(** mlle_read_command, common/mlle_utils.c:84-172: command->data and the error.  As in
    WireModel the two allocations of fixed size succeed. *)
Definition m_read_command (al : alloc) (broken : bool) (rs : list rd) : T (option res * option err_ptr) :=
  take first <- malloc true ;
  match rs with
  | [] => tret (None, None)
  | RErr text :: _ =>
      take _ <- m_message broken (RErr text) ;
      take x <- m_error_new ;
      tret (None, Some x)
  | RMsg b :: rs' =>
      take p <- m_message broken (RMsg b) ;
      if (SSL_RECORD_SIZE <? zlen b)%Z then take x <- m_error_new ; tret (None, Some x)
      else
        take token <- malloc true ;
        take _ <- touch p ;
        take _ <- touch token ;
        let '(g, c, _) := parse_command ERROR_SIZE (cstr (firstn (length b - 1) b)) in
        take _ <- release token ;
        match g with
        | VALID_GRAMMAR =>
            if has_payload (c_id c) then
              let data := match extract_data al (c_length c) b with Ok (d, _) => d | _ => None end in
              let total := match extract_data al (c_length c) b with Ok (_, n) => n | _ => 0%Z end in
              take _ <- touch p ;
              take d <- malloc (present data) ;
              take _ <- touch d ;
              take x <- match d with
                        | None => take e <- m_error_new ; tret (Some e)
                        | Some _ => tret None
                        end ;
              take _ <- m_read_rest broken (c_length c) d total rs' ;
              tret (d, x)
            else
              take _ <- m_read_rest broken (c_length c) None 0%Z rs' ;
              tret (None, None)
        | _ => take x <- m_error_new ; tret (None, Some x)
        end
  end.

(** mlle_error_set and mlle_error_set_literal, common/mlle_error.c:90-105,131-141: the
    caller's pointer gets a new object; one it had is forgotten (the assertion that it
    had none is compiled away).  Simplified: an error without text counts like one with a
    text. *)
Definition m_error_set (x : option err_ptr) : T (option err_ptr) :=
  take e <- m_error_new ; tret (Some e).

(** mlle_expect_command, tool/mlle_licensing.c:101-133, and mlle_expect_commands, 135-190
    ([many]): command->data and the error; the flag says whether it returned 1. *)
Definition m_expect (al : alloc) (broken : bool) (many : bool) (ids : list cmd_id) (rs : list rd)
  : T (bool * option res * option err_ptr) :=
  take (d, x) <- m_read_command al broken rs ;
  match read_command al rs with
  | Ok (ReadOk c _ _, _) =>
      if cmd_id_eqb (c_id c) C_ERROR then
        take _ <- touch d ;
        take x1 <- m_error_set x ;
        take _ <- release d ;
        tret (false, None, x1)
      else if existsb (cmd_id_eqb (c_id c)) ids then tret (true, d, x)
      else if many then
        take m <- malloc (al (Z.of_nat (unexpected_size (length ids)))) ;
        take _ <- touch m ;
        take x1 <- m_error_set x ;
        take _ <- release m ;
        tret (false, d, x1)
      else
        take x1 <- m_error_set x ;
        tret (false, d, x1)
  | _ => tret (false, d, x)
  end.

(** command.id of the command that was read, tool/mlle_licensing.c:301,357. *)
Definition got (al : alloc) (rs : list rd) : cmd_id :=
  match read_command al rs with Ok (ReadOk c _ _, _) => c_id c | _ => C_UNDEFINED end.

(** What a call hands to its caller: file contents (the structure and its buffer,
    tool/mlle_licensing.c:413-421) and an error object. *)
Definition handed : Type := (option (res * option res) * option err_ptr)%type.

(** Replies YES or NO (or NOTSIMPLE) with a text: mlle_tool_feature,
    tool/mlle_licensing.c:285-317, mlle_tool_license, 338-374. *)
Definition m_answer (al : alloc) (broken : bool) (ids : list cmd_id) (rs : list rd) : T handed :=
  take (ok, d, x) <- m_expect al broken true ids rs ;
  if ok then
    if cmd_id_eqb (got al rs) C_YES then tret (None, x)
    else if cmd_id_eqb (got al rs) C_NOTSIMPLE then take x1 <- m_error_set x ; tret (None, x1)
    else
      take _ <- touch d ;
      take x1 <- m_error_set x ;
      tret (None, x1)
  else tret (None, x).

(** The part of each call after its message was sent, as [await] in ToolModel;
    tool/mlle_licensing.c:207-422. *)
Definition m_await (al : alloc) (broken : bool) (written : Z) (c : call) (rs : list rd) : T handed :=
  match c with
  | Version min max =>
      if (written <? 0)%Z then tret (None, None)
      else
        take (ok, d, x) <- m_expect al broken false [C_VERSION] rs ;
        if ok then
          match read_command al rs with
          | Ok (ReadOk c _ _, _) =>
              if (c_number c <? min)%Z || (max <? c_number c)%Z
              then take x1 <- m_error_set x ; tret (None, x1)
              else tret (None, x)
          | _ => tret (None, x)
          end
        else tret (None, x)
  | LibPath _ | ReturnFeature _ | ReturnLicense _ =>
      take (ok, d, x) <- m_expect al broken false [C_YES] rs ;
      tret (None, x)
  | Feature _ => m_answer al broken [C_YES; C_NO] rs
  | License _ => m_answer al broken [C_YES; C_NOTSIMPLE; C_NO] rs
  | File _ =>
      take (ok, d, x) <- m_expect al broken false [C_FILECONT] rs ;
      if ok then
        take f <- malloc (al 24%Z) ;
        match f with
        | Some f0 =>
            take _ <- touch f ;
            tret (Some (f0, d), x)
        | None => take x1 <- m_error_set x ; tret (None, x1)
        end
      else tret (None, x)
  end.

(** The message that is sent, common/mlle_io.c:193-248: the output buffer of a command with
    a text is on the heap. *)
Definition m_request (al : alloc) (c : call) : T unit :=
  match c with
  | Version _ _ => tret tt
  | LibPath s | Feature s | ReturnFeature s | License s | ReturnLicense s | File s => m_send_length al s
  end.

(** A caller that is done with what it was handed: it reads the whole file
    ([all]; mlle_tool_read_bytes then frees the buffer and forgets it) or not, and calls
    mlle_file_contents_free and mlle_error_free; tool/mlle_licensing.c:424-472,
    common/mlle_error.c:143-157. *)
Definition m_caller (all : bool) (h : handed) : T unit :=
  take _ <- match fst h with
            | None => tret tt
            | Some (f, b) =>
                take _ <- touch (Some f) ;
                take _ <- touch b ;
                take b1 <- (if all then take _ <- release b ; tret None else tret b) ;
                take _ <- touch (Some f) ;
                take _ <- release b1 ;
                release (Some f)
            end ;
  m_error_free (snd h).

(** One call of the API (tool/mlle_licensing.h:62-148) with its circumstances. *)
Record use := { u_al : alloc; u_broken : bool; u_written : Z; u_call : call; u_all : bool }.

(** A tool that makes calls one after the other, each reading on where the last one
    stopped.  A call that does not come back ends the sequence. *)
Fixpoint m_calls (us : list use) (rs : list rd) : T unit :=
  match us with
  | [] => tret tt
  | u :: l =>
      match await (u_al u) (u_written u) (u_call u) rs with
      | Ok (_, _, rest) =>
          take _ <- m_request (u_al u) (u_call u) ;
          take h <- m_await (u_al u) (u_broken u) (u_written u) (u_call u) rs ;
          take _ <- m_caller (u_all u) h ;
          m_calls l rest
      | _ => tret tt
      end
  end.
(** The trace of such a tool; tool/mlle_licensing.c:207-472. *)
Definition calls_memory (us : list use) (rs : list rd) : list mem :=
  let '(t, _, _) := m_calls us rs 0 in t.

(** What the calls return, and what is left to read; [None] when one does not come back. *)
Fixpoint results (us : list use) (rs : list rd) : option (list (option value) * list rd) :=
  match us with
  | [] => Some ([], rs)
  | u :: l =>
      match await (u_al u) (u_written u) (u_call u) rs with
      | Ok (v, _, rest) =>
          match results l rest with
          | Some (vs, r) => Some (v :: vs, r)
          | None => None
          end
      | _ => None
      end
  end.
