(** Theorems about asprintf() of builds with Microsoft's compiler. *)
From Verif Require Import Base ParseModel WireModel AsprintfModel AsprintfSpec AsprintfProofs.

(** In all theorems: any heap, any value of *strp before.  The theorems can be used one after the other: the heap stays [Proper]. *)

(** A heap with one block, and a malloc that gives blocks of zeros. *)
Definition some_heap : heap := {| h_blocks := [(3, B "x")]; h_next := 7 |}.
Definition zeros (n : nat) : option bytes := Some (repeat NUL n).
(** What lve.c:107-108 formats for the path "/lib". *)
Definition lib_text : bytes := B "LIB 4" ++ [LF] ++ B "/lib".

(** ** C111: asprintf() on Windows is that of Linux *)

(** The text is returned in one new block with its end, and its length is the result; no other block changes.
    Partial: not for a text of INT_MAX bytes (below). *)
Theorem C111_text_partial : forall given t strp h junk,
  Sized given -> Proper h -> (zlen t < INT_MAX)%Z -> given (S (length t)) = Some junk ->
  exists p h', vasprintf given (Some t) (Some t) strp h = Ran (zlen t, Some p, h') /\ Added h h' p t /\ Proper h'.
Proof. exact made. Qed.
Print Assumptions C111_text_partial.
Example C111_text_ex : Sized zeros /\ Proper some_heap /\
  vasprintf zeros (Some lib_text) (Some lib_text) None some_heap = Ran (10%Z, Some 7, {| h_blocks := [(7, lib_text ++ [NUL]); (3, B "x")]; h_next := 8 |}).
Proof.
  split; [|split; [split|]].
  - intros n b [= <-]. apply repeat_length.
  - intros b [<-|[]]. cbn. lia.
  - cbn. constructor; [intros []|constructor].
  - reflexivity.
Qed.

(** When there is no memory, formatting fails either time, or the text is too long for an int, the result is -1, *strp is as before and no memory is left allocated. *)
Theorem C111_failure : forall given first second strp h,
  Sized given -> Proper h ->
  (first = None \/ exists t, first = Some t /\
     (TooLong t \/ given (S (length t)) = None \/ ((zlen t < INT_MAX)%Z /\ (second = None \/ exists u, second = Some u /\ TooLong u)))) ->
  exists h', vasprintf given first second strp h = Ran ((-1)%Z, strp, h') /\ SameBlocks h h' /\ Proper h'.
Proof. exact not_made. Qed.
Print Assumptions C111_failure.
Example C111_failure_ex : vasprintf (fun _ => None) (Some lib_text) (Some lib_text) (Some 3) some_heap = Ran ((-1)%Z, Some 3, some_heap) /\
  vasprintf zeros (Some lib_text) None None some_heap = Ran ((-1)%Z, None, {| h_blocks := [(3, B "x")]; h_next := 8 |}).
Proof. split; reflexivity. Qed.

(** Nothing is written outside the block, even if the arguments give another text the second time. *)
Theorem C111_memory_partial : forall given first second strp h,
  Sized given -> Proper h -> (forall t, first = Some t -> zlen t <> INT_MAX) -> exists r, vasprintf given first second strp h = Ran r.
Proof. exact inside. Qed.
Print Assumptions C111_memory_partial.
Example C111_memory_ex : vasprintf zeros (Some (B "ab")) (Some (B "abcd")) None some_heap = Ran (4%Z, Some 7, {| h_blocks := [(7, B "ab" ++ [NUL]); (3, B "x")]; h_next := 8 |}).
Proof. reflexivity. Qed.

(** The longest text whose length is an int: len + 1 overflows. *)
Theorem C111_longest_refuted : forall given t second strp h junk,
  zlen t = INT_MAX -> given (S (length t)) = Some junk -> vasprintf given (Some t) second strp h = Overflow.
Proof. exact longest. Qed.
Print Assumptions C111_longest_refuted.
Example C111_longest_ex : exists t junk, zlen t = INT_MAX /\ zeros (S (length t)) = Some junk.
Proof.
  exists (repeat NUL (Z.to_nat INT_MAX)). eexists. split; [|reflexivity]. unfold zlen. rewrite repeat_length. apply Z2Nat.id. discriminate.
Qed.
