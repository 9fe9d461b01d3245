(** C72: copies made by the packaging tool. *)
From Verif Require Import Base BaseProofs ArgsModel ArgsSpec XmlSpec ManifestModel ManifestSpec WireModel CryptModel CryptSpec CryptProps
  PackageModel PackageSpec PackageProofs IconProofs ShipProofs KeepProofs LostProofs PackageExamples PackageProps PackCopyModel.
Require Import Lia.

(** Everything that is there is read and written. *)
Definition Complete (c : copy_calls) (data : bytes) : Prop := length data <= y_read c /\ length data <= y_write c.

(** A copy is exact or not made, and success means an exact copy, if reads and writes are not cut short. *)
Theorem C72_copied_partial : forall c data o ok, Complete c data -> copy_file c data = (o, ok) ->
  (o = Some data \/ o = None) /\ (ok = true -> o = Some data).
Proof.
  intros c data o ok [R W]. unfold copy_file. destruct (_ && _ && _); [|intros E; assert (o = None) by congruence; assert (ok = false) by congruence; split; [now right|congruence]].
  replace (length data - y_read c) with 0 by lia. rewrite (firstn_all2 data R). cbn [repeat]. rewrite app_nil_r, (firstn_all2 data W).
  destruct (y_open_write c); intros E; [assert (o = Some data) by congruence; split; [now left|now intros]|assert (o = None) by congruence; assert (ok = false) by congruence; split; [now right|congruence]].
Qed.
Print Assumptions C72_copied_partial.
Definition all_well (n : nat) : copy_calls :=
  {| y_open_read := true; y_stat := true; y_calloc := true; y_read := n; y_open_write := true; y_write := n; y_mode := true |}.
Example C72_ex : Complete (all_well 5) (B "abc") /\ copy_file (all_well 5) (B "abc") = (Some (B "abc"), true).
Proof. split; [split; cbn; lia|reflexivity]. Qed.

(** Every entry of an archive then comes from a file of the library, unchanged or encrypted, whatever else fails. *)
Theorem C72_archive_partial : forall pr K c w args o name lib r z l, GoodPrimitives pr -> length K = 32 -> Sane w ->
  (forall f t d, Complete (c f t d) d) -> PlainLves w ->
  Request (copying c w) args o name lib -> package pr K (copying c w) args = Ok r -> k_archive r = Some (z, l) ->
  forall e d, In (e, d) l -> exists q, e = slashed (name :: q) /\
    (Origin (copying c w) lib q d \/
     (encrypted o = true /\ exists dir n src, q = dir ++ [n ++ B "c"] /\ Modelica n /\ Origin (copying c w) lib (dir ++ [n]) src /\
        Concealed pr (w_iv w (slashed (dir ++ [n]))) (w_mask w (slashed (dir ++ [n]))) src d)).
Proof.
  intros pr K c w args o name lib r z l P Lk Sw Cm Pl Rq Pk Ar e d I.
  assert (X : ExactCopies (copying c w)).
  { intros f t x. cbn [copying w_copy]. destruct (copy_file (c f t x) x) as [u ok] eqn:E. destruct (C72_copied_partial _ _ _ _ (Cm f t x) E) as [H _]. exact H. }
  destruct (C37_contents pr K (copying c w) args o name lib r z l P Lk Sw X Pl Rq Pk Ar e d I) as (q & E & [[O _]|H]); exists q; (split; [exact E|]); [now left|now right].
Qed.
Print Assumptions C72_archive_partial.

Example C72_archive_ex : exists c w, (forall f t d, Complete (c f t d) d) /\ Sane w /\ PlainLves w /\
  Request (copying c w) (pack_args YES ICON) (pack_options YES ICON) (B "MyLib") my_lib /\
  match package toy toy_key (copying c w) (pack_args YES ICON) with
  | Ok r => k_code r = 0 /\ match k_archive r with Some (_, l) => length l = 10 | None => False end
  | _ => False
  end.
Proof.
  exists (fun f t d => all_well (length d)), (machine my_lib no_faults). split; [intros f t d; split; apply le_n|].
  split; [now apply machine_sane|]. split; [apply machine_lves|].
  split; [exact (pack_request my_lib no_faults YES ICON ltac:(discriminate) ltac:(discriminate) ltac:(discriminate) ltac:(discriminate) ltac:(discriminate) ltac:(discriminate))|].
  vm_compute. split; reflexivity.
Qed.

(** A read that is cut short gives a file with zeros at its end, and success. *)
Theorem C72_short_read_refuted : forall c data, y_open_read c = true -> y_stat c = true -> y_calloc c = true -> y_open_write c = true -> y_mode c = true ->
  y_read c < length data -> length data <= y_write c ->
  copy_file c data = (Some (firstn (y_read c) data ++ repeat NUL (length data - y_read c)), true).
Proof.
  intros c data H1 H2 H3 H4 H5 R W. unfold copy_file. rewrite H1, H2, H3, H4, H5. cbn [andb]. rewrite firstn_all2; [reflexivity|].
  rewrite app_length, firstn_length, repeat_length. lia.
Qed.
Print Assumptions C72_short_read_refuted.
(** A write that is cut short (no space left) gives the beginning of the file, and success. *)
Theorem C72_short_write_refuted : forall c data, y_open_read c = true -> y_stat c = true -> y_calloc c = true -> y_open_write c = true -> y_mode c = true ->
  length data <= y_read c -> y_write c < length data -> copy_file c data = (Some (firstn (y_write c) data), true).
Proof.
  intros c data H1 H2 H3 H4 H5 R W. unfold copy_file. rewrite H1, H2, H3, H4, H5. cbn [andb]. rewrite (firstn_all2 data R).
  replace (length data - y_read c) with 0 by lia. cbn [repeat]. now rewrite app_nil_r.
Qed.
Print Assumptions C72_short_write_refuted.
Example C72_short_ex : copy_file {| y_open_read := true; y_stat := true; y_calloc := true; y_read := 2; y_open_write := true; y_write := 9; y_mode := true |} (B "abcd") =
  (Some (B "ab" ++ [NUL; NUL]), true).
Proof. reflexivity. Qed.

(** The packaging tool reports success with a damaged file in the archive. *)
Definition short_once (from to data : bytes) : copy_calls :=
  if beq from (B "/home/u/MyLib/Resources/data.txt")
  then {| y_open_read := true; y_stat := true; y_calloc := true; y_read := 3; y_open_write := true; y_write := 100; y_mode := true |} else all_well (length data).
Theorem C72_archive_refuted : exists c w args o name lib r z l p d d', Sane w /\ Works w /\ PlainLves w /\
  Request (copying c w) args o name lib /\ package toy toy_key (copying c w) args = Ok r /\ k_code r = 0 /\ k_archive r = Some (z, l) /\
  At (Folder lib) p (Reg d) /\ In (slashed (name :: p), d') l /\ d' = firstn 3 d ++ repeat NUL 2 /\ d' <> d.
Proof.
  exists short_once, (machine my_lib no_faults), (pack_args YES ICON), (pack_options YES ICON), (B "MyLib"), my_lib.
  destruct (package toy toy_key (copying short_once (machine my_lib no_faults)) (pack_args YES ICON)) as [r| |] eqn:E; [|vm_compute in E; discriminate|vm_compute in E; discriminate].
  vm_compute in E. injection E as <-. do 3 eexists. exists [B "Resources"; B "data.txt"], (B "1 2 3"), (B "1 2" ++ [NUL; NUL]).
  split; [now apply machine_sane|]. split; [apply machine_works|]. split; [apply machine_lves|].
  split; [exact (pack_request my_lib no_faults YES ICON ltac:(discriminate) ltac:(discriminate) ltac:(discriminate) ltac:(discriminate) ltac:(discriminate) ltac:(discriminate))|].
  split; [reflexivity|]. split; [reflexivity|]. split; [reflexivity|]. split; [now apply find_path_at|].
  split; [vm_compute; tauto|]. split; [reflexivity|discriminate].
Qed.
Print Assumptions C72_archive_refuted.
