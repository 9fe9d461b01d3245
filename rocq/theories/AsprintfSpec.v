(** What asprintf() is relied upon to do. *)
From Verif Require Import Base ParseModel WireModel AsprintfModel.

(** malloc gives blocks of the size asked for, when it gives one. *)
Definition Sized (given : nat -> option bytes) : Prop := forall n b, given n = Some b -> length b = n.
(** Blocks have numbers that have been given out, and no two the same. *)
Definition Proper (h : heap) : Prop := (forall b, In b (h_blocks h) -> fst b < h_next h) /\ NoDup (map fst (h_blocks h)).
(** The same blocks with the same contents. *)
Definition SameBlocks (h h' : heap) : Prop := forall p, block h' p = block h p.
(** Exactly one block more: [p], with the text and its end. *)
Definition Added (h h' : heap) (p : nat) (text : bytes) : Prop :=
  block h p = None /\ block h' p = Some (text ++ [NUL]) /\ forall q, q <> p -> block h' q = block h q.
(** A text that does not fit the int that is returned. *)
Definition TooLong (text : bytes) : Prop := (INT_MAX < zlen text)%Z.
