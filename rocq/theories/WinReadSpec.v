(** Files on Windows. *)
From Verif Require Import Base WireModel WinReadModel.

(** Paths with separators of one kind. *)
Definition backslashed (p : bytes) : bytes := map (fun c => if Ascii.eqb c SLASH then BSLASH else c) p.
Definition Prefixed (p : bytes) : Prop := exists q, p = B "\\?\" ++ q.

(** A disk with these files (absolute paths, backslashes): paths of up to 259 characters may have slashes, longer ones need the
    prefix \\?\, which switches off the translation of slashes and with which _stat fails.  Nothing else fails;
    no file has 2 GiB or more (long int has 32 bits). *)
Definition WindowsDisk (w : runtime) (files : bytes -> option bytes) : Prop :=
  (forall p, ~ Prefixed p ->
     match (if length p <=? 259 then files (backslashed p) else None) with
     | Some data => r_open w p = inr {| x_end := zlen data; x_avail := data; x_error := None; x_rewind := true |} /\ r_stat w p = inr (zlen data)
     | None => exists t, r_open w p = inl t
     end) /\
  (forall q,
     match (if existsb (Ascii.eqb SLASH) q then None else files q) with
     | Some data => r_open w (B "\\?\" ++ q) = inr {| x_end := zlen data; x_avail := data; x_error := None; x_rewind := true |}
     | None => exists t, r_open w (B "\\?\" ++ q) = inl t
     end /\ exists t, r_stat w (B "\\?\" ++ q) = inl t) /\
  (forall n, r_alloc w n = true) /\
  (forall p data, files p = Some data -> (zlen data < 2 ^ 31)%Z).
