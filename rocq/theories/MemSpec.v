(** What it means to use memory and streams properly. *)
From Verif Require Import Base LveModel MemModel.

Definition res_eq_dec (a b : res) : {a = b} + {a <> b}.
Proof. decide equality; apply Nat.eq_dec. Defined.

(** What is held after a sequence of calls: everything that was obtained and not
    given back. *)
Definition after (l : list res) (m : mem) : list res :=
  match m with
  | Get r => r :: l
  | Touch _ => l
  | Release r => remove res_eq_dec r l
  end.
Definition held (t : list mem) : list res := fold_left after t [].

(** Only what is held is accessed or given back; so nothing is freed twice, used after it
    was freed, or freed without having come from the allocator. *)
Definition Proper (t : list mem) : Prop :=
  forall before m rest, t = before ++ m :: rest ->
    match m with
    | Get r => ~ In r (held before)
    | Touch r | Release r => In r (held before)
    end.

(** At every moment at most [k] things are held. *)
Definition AtMost (k : nat) (t : list mem) : Prop :=
  forall before rest, t = before ++ rest -> length (held before) <= k.

(** The streams among them. *)
Definition streams (l : list res) : list res :=
  filter (fun r => match r with Stream _ => true | Block _ => false end) l.
Definition blocks (l : list res) : list res :=
  filter (fun r => match r with Block _ => true | Stream _ => false end) l.

(** Memory does not run out, and what was opened can be asked for its size. *)
Definition Plenty {D} (e : env D) : Prop :=
  (forall n, e_alloc e n = true) /\ (forall p t, e_file e p <> NoStat t).
