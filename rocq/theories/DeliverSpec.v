(** What the tools of a vendor's customers get from a packaged library. *)
From Verif Require Import Base WireModel LveSpec ToolModel ToolSpec SessionModel SessionSpec PackageModel PackageSpec.

(** The call delivered a file of the library that is not for Modelica and was not encrypted, as it is. *)
Definition PlainDelivered (lib : list (bytes * tree)) (c : call) (d : done) : Prop :=
  forall dir n x, c = File (slashed (dir ++ [n])) -> At (Folder lib) (dir ++ [n]) (Reg x) -> ~ In (B ".library") (dir ++ [n]) ->
  ~ Modelica n -> ~ MocFile (slashed (dir ++ [n])) -> exists h, d_result d = Some (Contents h) /\ Opened x h.
