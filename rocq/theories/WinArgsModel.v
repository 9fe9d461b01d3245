(** What the LVE finds on its command line when it is started by a tool: /repo/src/tool/mlle_spawn_windows.c:127-153 (Windows),
    /repo/src/tool/mlle_spawn_posix.c:95 (Linux), with the command line of the LVE, /repo/src/lve/lve.c (MainModel). *)
From Coq Require Import Bool.
From Verif Require Import Base WinModel.

(** The name under which a process is started, mlle_spawn_windows.c:128-153. *)
Definition started_as (a : calls) (name : bytes) : option bytes :=
  if b_run a name then Some name
  else if (255 <? length name) && b_run a (long_name name) then Some (long_name name)
  else None.

(** _spawnl passes one string: its arguments with a space between them, nothing is quoted; mlle_spawn_windows.c:128,144 give one argument,
    the name.  (Microsoft's manual of _spawnl: "spaces embedded in strings may cause unexpected behavior".) *)
Fixpoint packed (args : list bytes) : bytes :=
  match args with
  | [] => []
  | [a] => a
  | a :: r => a ++ [SP] ++ packed r
  end.

(** What separates arguments. *)
Definition is_blank (c : byte) : bool := Ascii.eqb c SP || Ascii.eqb c (ch 9).
(** The words of a string; [w]: the word read so far. *)
Fixpoint words (w s : bytes) : list bytes :=
  match s with
  | [] => match w with [] => [] | _ => [w] end
  | c :: r => if is_blank c then match w with [] => words [] r | _ => w :: words [] r end else words (w ++ [c]) r
  end.
(** The end of the first argument. *)
Fixpoint after_first (s : bytes) : bytes :=
  match s with
  | [] => []
  | c :: r => if is_blank c then r else after_first r
  end.
(** The C runtime of the LVE splits the string (__argv, lve.c:207-212), as in Microsoft's manual; argv[0] is left out.  Simplified: there
    are no double quotes, which file names cannot contain. *)
Definition received (cmdline : bytes) : list bytes := words [] (after_first cmdline).
(** The arguments of an LVE that a tool has started as [name] on Windows, mlle_spawn_windows.c:128,144. *)
Definition win_arguments (name : bytes) : list bytes := received (packed [name]).
(** On Linux: execl(exec_name, exec_name, NULL), mlle_spawn_posix.c:95; argv[0] is left out. *)
Definition posix_arguments (name : bytes) : list bytes := tl [name].
