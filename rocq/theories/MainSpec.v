(** The documented command line of the LVE (its usage text, /repo/src/lve/lve.c:62-80). *)
From Verif Require Import Base.

Inductive request := Serve | ShowVersion | ShowHelp | CheckOut (feature lib : bytes).

(** What an argument vector asks for. *)
Inductive Means : list bytes -> request -> Prop :=
| M_serve : Means [] Serve
| M_serve_lib p : Means [B "--libpath"; p] Serve
| M_version : Means [B "--version"] ShowVersion
| M_help : Means [B "--help"] ShowHelp
| M_checkout f p : Means [B "--checkout-feature"; f; B "--libpath"; p] (CheckOut f p)
| M_checkout_rev f p : Means [B "--libpath"; p; B "--checkout-feature"; f] (CheckOut f p).

(** The vector ends with an option whose value is missing, and nothing is wrong before. *)
Inductive Dangling : list bytes -> Prop :=
| D_feature : Dangling [B "--checkout-feature"]
| D_libpath : Dangling [B "--libpath"]
| D_feature_after p : Dangling [B "--libpath"; p; B "--checkout-feature"]
| D_libpath_after f : Dangling [B "--checkout-feature"; f; B "--libpath"].
