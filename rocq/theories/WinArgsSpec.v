(** See WinArgsModel. *)
From Verif Require Import Base ParseModel WireModel LveModel MainModel WinModel WinArgsModel.
From Verif Require SpawnModel.

(** No spaces and tabs. *)
Definition NoBlank (s : bytes) : Prop := ~ In SP s /\ ~ In (ch 9) s.
(** A path that has a space in it: what comes before the first, the next word, and the rest, for example C:\Program, Files\Lib\lve.exe
    and nothing. *)
Inductive Spaced : bytes -> bytes -> Prop :=
| Spaced_end a w : NoBlank a -> NoBlank w -> w <> [] -> Spaced (a ++ [SP] ++ w) w
| Spaced_more a w r : NoBlank a -> NoBlank w -> w <> [] -> Spaced (a ++ [SP] ++ w ++ [SP] ++ r) w.
(** What the options of an LVE look like. *)
Definition Dashed (w : bytes) : Prop := exists r, w = B "--" ++ r.

(** An LVE answers a handshake only if it is there and serves (lve/lve.c:284-296). *)
Definition Answers {D} (cfg : config) (e : env D) (a : calls) (name : bytes) : Prop :=
  b_handshake a = true -> exists n, started_as a name = Some n /\ snd (lve_main cfg e (win_arguments n)) = Ok Served.
