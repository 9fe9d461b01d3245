(** What a user of error objects relies on. *)
From Verif Require Import Base ErrorModel.

(** The pointer leads to a chain of error objects which owns these blocks: each object,
    its message (if it has one), and the blocks of its cause. *)
Inductive Chain (h : heap) : option addr -> list addr -> Prop :=
| Chain_null : Chain h None []
| Chain_object a e mo l :
    lookup h a = Some (EBlock e) ->
    match eb_message e with
    | None => mo = []
    | Some m => mo = [m] /\ exists t, lookup h m = Some (SBlock t)
    end ->
    Chain h (eb_cause e) l -> Chain h (Some a) (a :: mo ++ l).

(** The text of an error object. *)
Definition Text (h : heap) (p : option addr) (t : bytes) : Prop :=
  exists m, get_message h p = Ok (Some m) /\ lookup h m = Some (SBlock t).

(** Nothing is put into a variable that already holds an error. *)
Definition Careful (v : vars) (o : op) : Prop :=
  match o with
  | Set_ (Some i) _ _ _ _ _ | SetLiteral (Some i) _ _ _ _ _ => v i = None
  | Propagate (Some d) s => d = s \/ v d = None
  | _ => True
  end.
Fixpoint CarefulAll (h : heap) (v : vars) (os : list op) : Prop :=
  match os with
  | [] => True
  | o :: r => Careful v o /\ forall h1 v1, exec h v o = Ok (h1, v1) -> CarefulAll h1 v1 r
  end.
