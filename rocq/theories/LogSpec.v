(** What a log may show, without reference to the code. *)
From Verif Require Import Base.

(** Paths that go back to a requested one: itself, the directories in it, and package files in these. *)
Inductive Part (rel : bytes) : bytes -> Prop :=
| Part_self : Part rel rel
| Part_dir d c n : Part rel (d ++ c :: n) -> In c [SLASH; BSLASH] -> Part rel d
| Part_package d : Part rel d -> Part rel (d ++ B "/package.moc")
| Part_top : Part rel (B "package.moc").
(** The lines about a requested path. *)
Inductive Line (rel : bytes) : bytes -> Prop :=
| Line_asked p : Part rel p -> Line rel (B "mlle_demask_key: " ++ p ++ [LF])
| Line_applied p : Part rel p -> Line rel (B "mlle_demask_key: applied mask for " ++ p ++ [LF])
| Line_stored p : Part rel p -> Line rel (B "mlle_store_keymask: stored key_mask for " ++ p ++ B " " ++ [LF]).

(** Reading a key from a log: two hexadecimal digits for each byte, colons between them. *)
Definition digit (c : byte) : option nat :=
  let n := nat_of_ascii c in
  if (48 <=? n) && (n <=? 57) then Some (n - 48) else if (65 <=? n) && (n <=? 70) then Some (n - 55) else None.
Fixpoint read_hex (fuel : nat) (s : bytes) : option bytes :=
  match fuel with
  | O => None
  | S f =>
      match s with
      | a :: b :: r =>
          match digit a, digit b with
          | Some x, Some y =>
              match r with
              | [c] => if Ascii.eqb c LF then Some [ch (16 * x + y)] else None
              | c :: r' => if Ascii.eqb c (ch 58) then option_map (cons (ch (16 * x + y))) (read_hex f r') else None
              | [] => None
              end
          | _, _ => None
          end
      | _ => None
      end
  end.
Definition read_key (line : bytes) : option bytes :=
  if beq (firstn 5 line) (B "key: ") then read_hex (length line) (skipn 5 line) else None.
