(** Depth of paths. *)
From Verif Require Import Base.

(** Number of separators in a path. *)
Definition separators (p : bytes) : nat :=
  length (filter (fun c => Ascii.eqb c SLASH || Ascii.eqb c BSLASH) p).

(** The path of the file [name] with "./" [n] times in front of it: another name of the same file. *)
Fixpoint dotted (n : nat) (name : bytes) : bytes :=
  match n with
  | O => name
  | S m => B "./" ++ dotted m name
  end.
