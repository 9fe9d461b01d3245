(** Texts broken into lines, without reference to the code. *)
From Verif Require Import Base.

(** A line of the text: tabs, then [c]. *)
Definition Indented (level : nat) (c : bytes) : bytes := repeat (ch 9) level ++ c ++ [LF].

(** [c] has at most [max] characters, or it is a single word (with the space after it). *)
Definition Fits (max : nat) (c : bytes) : Prop :=
  length c <= max \/ exists w, ~ In SP w /\ (c = w \/ c = w ++ [SP]).

(** The first word of a line is [w]. *)
Definition FirstWord (w c : bytes) : Prop := ~ In SP w /\ (c = w \/ exists t, c = w ++ SP :: t).

(** Lines are broken only after a space (or at once, if the first word is too long), and only if the next word does not fit. *)
Fixpoint Broken (max : nat) (l : list bytes) : Prop :=
  match l with
  | c :: ((d :: _) as r) =>
      (c = [] \/ exists q, c = q ++ [SP]) /\ (forall w, FirstWord w d -> max <= length c + length w) /\ Broken max r
  | _ => True
  end.

(** The words of a text are those between its spaces. *)
Definition WordsBelow (max : nat) (s : bytes) : Prop :=
  forall pre w post, s = pre ++ w ++ post -> ~ In SP w -> length w < max.

(** [x] is a line of the text, not the first one. *)
Definition LineOf (x text : bytes) : Prop := ~ In LF x /\ exists pre post, text = pre ++ [LF] ++ x ++ [LF] ++ post.
