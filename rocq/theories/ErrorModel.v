(** Model of the error objects on the heap, /repo/src/common/mlle_error.c. *)
From Verif Require Import Base.

(** Addresses of heap blocks. *)
Definition addr := nat.

(** struct mlle_error, common/mlle_error.c:38-43. *)
Record err_block := { eb_domain : Z; eb_code : Z; eb_cause : option addr; eb_message : option addr }.
(** A heap block: an error object or a string. *)
Inductive block := EBlock (e : err_block) | SBlock (text : bytes).
Definition heap := list (addr * block).

(** The block at an address, if it is allocated. *)
Fixpoint lookup (h : heap) (a : addr) : option block :=
  match h with
  | [] => None
  | (x, b) :: r => if x =? a then Some b else lookup r a
  end.
Definition remove (h : heap) (a : addr) : heap := filter (fun '(x, _) => negb (x =? a)) h.
(** Writing a block. *)
Definition store (h : heap) (a : addr) (b : block) : heap := (a, b) :: remove h a.
(** calloc/strdup return an address that is not in use. *)
Definition unused (h : heap) : addr := S (list_max (map fst h)).
(** free(3): NULL is fine, releasing what is not allocated is not. *)
Definition free_ptr (h : heap) (p : option addr) : outcome heap :=
  match p with
  | None => Ok h
  | Some a => match lookup h a with None => UB UseAfterFree | Some _ => Ok (remove h a) end
  end.
(** Reading an error object through a pointer. *)
Definition deref (h : heap) (p : option addr) : outcome err_block :=
  match p with
  | None => UB NullDeref
  | Some a => match lookup h a with Some (EBlock e) => Ok e | _ => UB UseAfterFree end
  end.

(** DEFAULT_MSG_SIZE, common/mlle_error.c:30. *)
Definition MSG_SIZE : nat := 2048.

(** An error object and, if [m] is given, its message block. *)
Definition new_object (h : heap) (domain code : Z) (m : option bytes) : heap * option addr :=
  let a := unused h in
  match m with
  | None => (store h a (EBlock {| eb_domain := domain; eb_code := code; eb_cause := None; eb_message := None |}), Some a)
  | Some t =>
      let h1 := store h a (EBlock {| eb_domain := domain; eb_code := code; eb_cause := None; eb_message := None |}) in
      let b := unused h1 in
      let h2 := store h1 b (SBlock t) in
      (store h2 a (EBlock {| eb_domain := domain; eb_code := code; eb_cause := None; eb_message := Some b |}), Some a)
  end.

(** mlle_error_new, mlle_error_new_valist, common/mlle_error.c:47-88: [text] is what the
    format stands for; [ok1] and [ok2]: the first and the second calloc succeed. *)
Definition error_new (ok1 ok2 : bool) (h : heap) (domain code : Z) (text : bytes) : heap * option addr :=
  if ok1 then new_object h domain code (if ok2 then Some (snprintf MSG_SIZE text) else None)
  else (h, None).

(** mlle_error_new_literal, common/mlle_error.c:107-129: [ok2]: strdup succeeds. *)
Definition error_new_literal (ok1 ok2 : bool) (h : heap) (domain code : Z) (text : option bytes)
  : heap * option addr :=
  if ok1 then new_object h domain code (match text with Some t => if ok2 then Some t else None | None => None end)
  else (h, None).

(** mlle_error_free, common/mlle_error.c:143-157, on the pointer stored in *error; the
    caller sets *error to NULL.  [fuel] bounds the depth of the recursion; running
    out of it is [Blocked]. *)
Fixpoint error_free (fuel : nat) (h : heap) (p : option addr) : outcome heap :=
  match p, fuel with
  | None, _ => Ok h
  | Some _, O => Blocked
  | Some a, S f =>
      do e <- deref h (Some a) ;
      do h1 <- match eb_cause e with
               | None => Ok h
               | Some c =>
                   do h' <- error_free f h (Some c) ;
                   do e' <- deref h' (Some a) ;
                   Ok (store h' a (EBlock {| eb_domain := eb_domain e'; eb_code := eb_code e';
                                             eb_cause := None; eb_message := eb_message e' |}))
               end ;
      do e1 <- deref h1 (Some a) ;
      do h2 <- free_ptr h1 (eb_message e1) ;
      free_ptr h2 (Some a)
  end.
(** With as much depth as there are blocks. *)
Definition free_error (h : heap) (p : option addr) : outcome heap := error_free (length h) h p.

(** mlle_error_get_domain/code/cause/message, common/mlle_error.c:171-193. *)
Definition get_domain (h : heap) (p : option addr) : outcome Z := do e <- deref h p ; Ok (eb_domain e).
Definition get_code (h : heap) (p : option addr) : outcome Z := do e <- deref h p ; Ok (eb_code e).
Definition get_cause (h : heap) (p : option addr) : outcome (option addr) := do e <- deref h p ; Ok (eb_cause e).
Definition get_message (h : heap) (p : option addr) : outcome (option addr) := do e <- deref h p ; Ok (eb_message e).

(** ** Programs that use error objects *)

(** The error variables of a program. *)
Definition vars := nat -> option addr.
Definition assign (v : vars) (i : nat) (p : option addr) : vars := fun j => if j =? i then p else v j.

(** Calls on error variables.  [None] as variable of a setter is a NULL argument. *)
Inductive op :=
| Set_ (i : option nat) (ok1 ok2 : bool) (domain code : Z) (text : bytes)
| SetLiteral (i : option nat) (ok1 ok2 : bool) (domain code : Z) (text : option bytes)
| Free (i : nat)
| Propagate (dest : option nat) (src : nat).

(** mlle_error_set 90-105, mlle_error_set_literal 131-141, mlle_error_free 143-157,
    mlle_error_propagate 159-169 (common/mlle_error.c); asserts are compiled out.  After
    Propagate the program does not use its source variable any more. *)
Definition exec (h : heap) (v : vars) (o : op) : outcome (heap * vars) :=
  match o with
  | Set_ None _ _ _ _ _ | SetLiteral None _ _ _ _ _ => Ok (h, v)
  | Set_ (Some i) ok1 ok2 d c t => let '(h1, p) := error_new ok1 ok2 h d c t in Ok (h1, assign v i p)
  | SetLiteral (Some i) ok1 ok2 d c t => let '(h1, p) := error_new_literal ok1 ok2 h d c t in Ok (h1, assign v i p)
  | Free i => do h1 <- free_error h (v i) ; Ok (h1, assign v i None)
  | Propagate (Some d) s => Ok (h, if d =? s then v else assign (assign v d (v s)) s None)
  | Propagate None s => do h1 <- free_error h (v s) ; Ok (h1, assign v s None)
  end.
Fixpoint exec_all (h : heap) (v : vars) (os : list op) : outcome (heap * vars) :=
  match os with
  | [] => Ok (h, v)
  | o :: r => do (h1, v1) <- exec h v o ; exec_all h1 v1 r
  end.
