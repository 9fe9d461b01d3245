(** C45: the command line of the LVE. *)
From Verif Require Import Base ParseModel ParseSpec WireModel WireSpec LveModel LveSpec LveProofs LveHist LveProps
  MainModel MainSpec MainProofs.

(** Every argument vector that asks for something gets it, every other one is refused
    with a failure status and without any effect, provided that an option with a
    missing value is not the last argument (that case: see below). *)
Theorem C45_options_partial : forall D cfg (e : env D) args, AllocOk e ->
  (Means args Serve -> lve_main cfg e args = ([], Ok Served)) /\
  (Means args ShowVersion -> lve_main cfg e args = ([], Ok (Stopped VersionText true))) /\
  (Means args ShowHelp -> lve_main cfg e args = ([], Ok (Stopped UsageText true))) /\
  (forall f l, Means args (CheckOut f l) ->
     fst (lve_main cfg e args) = fst (checkout_feature cfg e f l) /\
     forall b, snd (lve_main cfg e args) = Ok (CheckedOut b) <-> snd (checkout_feature cfg e f l) = Ok b) /\
  ((forall q, ~ Means args q) -> ~ Dangling args -> exists t, lve_main cfg e args = ([], Ok (Stopped t false))).
Proof.
  intros D cfg e args A. split; [now apply main_serves|]. split; [apply main_version|]. split; [apply main_help|].
  split; [|now apply main_rejects]. intros f l M. rewrite (main_checkout cfg e args f l A M). split; [reflexivity|].
  intros b. cbn [snd]. destruct (snd (checkout_feature cfg e f l)); split; intros E; congruence.
Qed.
Print Assumptions C45_options_partial.

(** An option without its value as the last argument: NULL is used as a string. *)
Theorem C45_missing_value_refuted : forall D cfg (e : env D) args, AllocOk e ->
  Dangling args -> lve_main cfg e args = ([], UB NullDeref).
Proof. exact @main_dangling. Qed.
Print Assumptions C45_missing_value_refuted.

(** A checkout without a tool asks the licence manager for exactly the feature named, for
    exactly the library named, and succeeds iff the library is a directory and the feature
    is granted; nothing is written to a tool.  (Licence managers that cannot be set up:
    see below.) *)
Theorem C45_checkout_partial : forall D cfg (e : env D) f p lib d,
  AllocOk e -> e_cr_create e lib = Some d -> Trimmed p lib -> ~ In NUL p -> InMemory p -> InMemory f ->
  e_lic_new e (Some lib) = Granted ->
  lve_main cfg e [B "--checkout-feature"; f; B "--libpath"; p] =
  match e_stat e lib with
  | StatDir => ([LicNew (Some lib) true; Checkout f (lic_ok (e_checkout e f))],
                Ok (CheckedOut (lic_ok (e_checkout e f))))
  | _ => ([], Ok (CheckedOut false))
  end.
Proof.
  intros D cfg e f p lib d A Cr T NN Ip If G.
  rewrite (main_checkout cfg e _ f p A (M_checkout f p)).
  rewrite (checkout_granted cfg e f p lib d A Cr T NN Ip If G). destruct (e_stat e lib); reflexivity.
Qed.
Print Assumptions C45_checkout_partial.

(** If the licence manager cannot be set up the LVE writes to a TLS connection that
    does not exist. *)
Theorem C45_no_manager_refuted : forall D cfg (e : env D) f p lib d t,
  AllocOk e -> e_cr_create e lib = Some d -> Trimmed p lib -> ~ In NUL p -> InMemory p -> InMemory f ->
  e_stat e lib = StatDir -> e_lic_new e (Some lib) = Refused t -> Explains (Refused t) ->
  lve_main cfg e [B "--checkout-feature"; f; B "--libpath"; p] = ([LicNew (Some lib) false], UB NullDeref).
Proof.
  intros D cfg e f p lib d t A Cr T NN Ip If St R X.
  rewrite (main_checkout cfg e _ f p A (M_checkout f p)).
  rewrite (checkout_no_manager cfg e f p lib d t A Cr T NN Ip If St R X). reflexivity.
Qed.
Print Assumptions C45_no_manager_refuted.

(** An empty library path is refused. *)
Theorem C45_empty_path : forall D cfg (e : env D) f, AllocOk e -> InMemory f ->
  lve_main cfg e [B "--checkout-feature"; f; B "--libpath"; []] = ([], Ok (CheckedOut false)).
Proof.
  intros D cfg e f A If. rewrite (main_checkout cfg e _ f [] A (M_checkout f [])).
  rewrite (checkout_no_path cfg e f A If). reflexivity.
Qed.
Print Assumptions C45_empty_path.

Example C45_rejected_ex :
  (forall q, ~ Means [B "--version"; B "--help"] q) /\ ~ Dangling [B "--version"; B "--help"] /\
  lve_main vendor small_world [B "--version"; B "--help"] = ([], Ok (Stopped VersionText false)).
Proof. split; [intros q H; inversion H|]. split; [intros H; inversion H|]. reflexivity. Qed.
Example C45_twice_ex :
  lve_main vendor small_world [B "--libpath"; B "a"; B "--libpath"; B "b"] = ([], Ok (Stopped SetTwice false)).
Proof. reflexivity. Qed.
Example C45_checkout_ex :
  lve_main vendor small_world [B "--libpath"; B "/lib//"; B "--checkout-feature"; B "gold"] =
    ([LicNew (Some (B "/lib")) true; Checkout (B "gold") true], Ok (CheckedOut true)) /\
  lve_main vendor small_world [B "--checkout-feature"; B "silver"; B "--libpath"; B "/lib"] =
    ([LicNew (Some (B "/lib")) true; Checkout (B "silver") false], Ok (CheckedOut false)).
Proof. split; vm_compute; reflexivity. Qed.
Example C45_trimmed_ex : Trimmed (B "/lib//") (B "/lib").
Proof.
  exists (B "//"). split; [reflexivity|]. split; [intros c [<-|[<-|[]]]; now left|]. split; [discriminate|].
  right. intros l c E. change (B "/lib") with (B "/li" ++ [ch 98]) in E. apply app_inj_tail in E as [_ <-].
  split; discriminate.
Qed.
