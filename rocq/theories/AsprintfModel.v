(** asprintf() of builds with Microsoft's compiler, /repo/src/common/asprintf.c:41-66.
    Printf formats are not modelled: what the format and its arguments give is an argument of the model, once for each of the two times
    that they are used ([None]: formatting fails). *)
From Verif Require Import Base ParseModel WireModel.

(** The largest int of the platform (the type of [len] and [retval], common/asprintf.c:43,49). *)
Definition INT_MAX : Z := 2147483647.

(** The heap: blocks by number, and the number of the next block (malloc and free, common/asprintf.c:46,51). *)
Record heap := { h_blocks : list (nat * bytes); h_next : nat }.
(** What is in a block (str of common/asprintf.c:46); [None]: it is not allocated. *)
Definition block (h : heap) (p : nat) : option bytes :=
  match find (fun b => fst b =? p) (h_blocks h) with Some b => Some (snd b) | None => None end.
(** malloc(n), common/asprintf.c:46: [junk] is what the block has in it. *)
Definition malloc (junk : bytes) (h : heap) : nat * heap := (h_next h, {| h_blocks := (h_next h, junk) :: h_blocks h; h_next := S (h_next h) |}).
(** free(p), common/asprintf.c:51. *)
Definition release (p : nat) (h : heap) : heap := {| h_blocks := filter (fun b => negb (fst b =? p)) (h_blocks h); h_next := h_next h |}.
(** Bytes are stored at the start of a block (by vsnprintf, common/asprintf.c:49). *)
Definition store (p : nat) (s : bytes) (h : heap) : heap :=
  {| h_blocks := map (fun b => if fst b =? p then (fst b, s ++ skipn (length s) (snd b)) else b) (h_blocks h); h_next := h_next h |}.

(** How a call ends: it returns, or it has undefined behaviour (an int that overflows, C11 6.5 p5; bytes written outside a block). *)
Inductive ended (A : Type) := Ran (a : A) | Overflow | Outside.
Arguments Ran {A} a.
Arguments Overflow {A}.
Arguments Outside {A}.

(** The length of a text as the functions of printf return it: -1 when it is not an int.  _vscprintf, common/asprintf.c:43 with
    asprintf.h:36-38; vsnprintf, asprintf.c:49. *)
Definition printed (text : option bytes) : Z :=
  match text with Some t => if (zlen t <=? INT_MAX)%Z then zlen t else (-1)%Z | None => (-1)%Z end.
(** vsnprintf(str, size, ...), common/asprintf.c:49; C11 7.21.6.12 (size is positive there).  Simplification: when formatting fails nothing is stored. *)
Definition vsnprintf (p : nat) (size : nat) (text : option bytes) (h : heap) : ended (Z * heap) :=
  match text with
  | Some t =>
      let out := firstn (pred size) t ++ [NUL] in
      match block h p with
      | Some b => if length out <=? length b then Ran (printed text, store p out h) else Outside
      | None => Outside
      end
  | None => Ran (printed text, h)
  end.

(** vasprintf, common/asprintf.c:41-56, and asprintf, 58-65, which calls it.  [given]: malloc succeeds, and what is in the block.  [strp]: the value of *strp before.
    The result: the value returned, *strp, and the heap. *)
Definition vasprintf (given : nat -> option bytes) (first second : option bytes) (strp : option nat) (h : heap) : ended (Z * option nat * heap) :=
  let len := printed first in
  if (len =? -1)%Z then Ran ((-1)%Z, strp, h)                                  (* asprintf.c:44-45 *)
  else
    let n := S (Z.to_nat len) in                                               (* (size_t)len + 1, asprintf.c:46 *)
    match given n with
    | None => Ran ((-1)%Z, strp, h)                                            (* asprintf.c:47-48 *)
    | Some junk =>
        let (p, h1) := malloc junk h in
        if (INT_MAX <? len + 1)%Z then Overflow                                (* len + 1 is an int, asprintf.c:49 *)
        else
          match vsnprintf p n second h1 with
          | Ran (retval, h2) =>
              if (retval =? -1)%Z then Ran ((-1)%Z, strp, release p h2)        (* asprintf.c:50-53 *)
              else Ran (retval, Some p, h2)                                    (* asprintf.c:54-55 *)
          | Overflow => Overflow
          | Outside => Outside
          end
    end.
