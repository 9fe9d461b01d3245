(** Proofs about the structure of manifests. *)
From Verif Require Import Base BaseProofs XmlSpec ManifestSpec StructSpec.

Inductive FoundS : shape -> list bytes -> list (bytes * bytes) -> Prop :=
| FS_root n a l : FoundS (Container n a l) [n] a
| FS_below n a l e p b : In e l -> FoundS e p b -> FoundS (Container n a l) (n :: p) b
| FS_text n s : FoundS (Textual n s) [n] []
| FS_spaced n s : FoundS (Spaced n s) [n] []
| FS_foreign x p b : Found x p b -> FoundS (Foreign x) p b.

Lemma no_text s p a : ~ Found (Text s) p a.
Proof. intros H. inversion H. Qed.

Fixpoint says_to x e (S0 : Says x e) : forall p a, Found x p a -> FoundS e p a
with sayall_to ns l (S0 : SayAll ns l) : forall x p a, In x ns -> Found x p a -> exists e, In e l /\ FoundS e p a.
Proof.
  - destruct S0 as [n at' ns l SA|n|n s N|n u s b Ba Bb|x]; intros p a F.
    + inversion F as [|? ? ? y q b I Fy]; subst; [constructor|]. destruct (sayall_to ns l SA y q a I Fy) as (e & Ie & Fe). now apply FS_below with e.
    + inversion F as [|? ? ? y q b I Fy]; subst; [constructor|destruct I].
    + inversion F as [|? ? ? y q b I Fy]; subst; [constructor|]. destruct I as [<-|[]]. destruct (no_text _ _ _ Fy).
    + inversion F as [|? ? ? y q c I Fy]; subst; [constructor|]. destruct I as [<-|[]]. destruct (no_text _ _ _ Fy).
    + now constructor.
  - destruct S0 as [|s ns l Bs SA|y e ns l Sy SA]; intros x p a I F.
    + destruct I.
    + destruct I as [<-|I]; [destruct (no_text _ _ _ F)|]. exact (sayall_to ns l SA x p a I F).
    + destruct I as [<-|I]; [exists e; split; [now left|exact (says_to y e Sy p a F)]|].
      destruct (sayall_to ns l SA x p a I F) as (e' & Ie & Fe). exists e'. split; [now right|exact Fe].
Qed.
Fixpoint says_from x e (S0 : Says x e) : forall p a, FoundS e p a -> Found x p a
with sayall_from ns l (S0 : SayAll ns l) : forall e p a, In e l -> FoundS e p a -> exists x, In x ns /\ Found x p a.
Proof.
  - destruct S0 as [n at' ns l SA|n|n s N|n u s b Ba Bb|x]; intros p a F.
    + inversion F as [|? ? ? e q b I Fe| | |]; subst; [constructor|]. destruct (sayall_from ns l SA e q a I Fe) as (y & Iy & Fy). now apply Found_below with y.
    + inversion F; subst. constructor.
    + inversion F; subst. constructor.
    + inversion F; subst. constructor.
    + inversion F; subst. assumption.
  - destruct S0 as [|s ns l Bs SA|y e0 ns l Sy SA]; intros e p a I F.
    + destruct I.
    + destruct (sayall_from ns l SA e p a I F) as (x & Ix & Fx). exists x. split; [now right|exact Fx].
    + destruct I as [<-|I]; [exists y; split; [now left|exact (says_from y e0 Sy p a F)]|].
      destruct (sayall_from ns l SA e p a I F) as (x & Ix & Fx). exists x. split; [now right|exact Fx].
Qed.

(** What is in the description of a manifest. *)
Lemma given_in {A} get key (f : bytes -> A) x : In x (given get key f) -> exists v, x = f v.
Proof. unfold given. destruct (get key) as [v|]; cbn; [intros [<-|[]]; eauto|intros []]. Qed.
Lemma given_names get key (f : bytes -> bytes * bytes) x : (forall v, fst (f v) = key) -> In x (map fst (given get key f)) -> x = key.
Proof. intros N. unfold given. destruct (get key) as [v|]; cbn; [intros [<-|[]]; apply N|intros []]. Qed.
Lemma container_found n a l p b : FoundS (Container n a l) p b -> (p = [n] /\ b = a) \/ exists e q, In e l /\ p = n :: q /\ FoundS e q b.
Proof. intros H. inversion H; subst; [now left|right; eauto]. Qed.
Lemma leaf_found n a p b : FoundS (Container n a []) p b -> p = [n] /\ b = a.
Proof. intros H. apply container_found in H. destruct H as [H|(e & q & [] & _)]. exact H. Qed.

Definition Listed (p : list bytes) (a : list (bytes * bytes)) : Prop := exists names, In (p, names) documented /\ incl (map fst a) names.
(** An entry of the list, by its number. *)
Lemma listed n p a names : nth_error documented n = Some (p, names) -> incl (map fst a) names -> Listed p a.
Proof. intros E I. exists names. split; [now apply nth_error_In with n|exact I]. Qed.
Lemma no_attributes n p names : nth_error documented n = Some (p, names) -> Listed p [].
Proof. intros E. apply listed with n names; [exact E|]. intros x []. Qed.

Lemma shape_conforms v name get version language execs icon foreign p a :
  (forall x, In x foreign -> Conforms [B "archive"; B "library"] x) ->
  FoundS (manifest_shape v name get version language execs icon foreign) p a -> Listed p a.
Proof.
  intros Hf H. unfold manifest_shape in H. apply container_found in H.
  destruct H as [[-> ->]|(e & q & [<-|[<-|[]]] & -> & F)].
  - apply (no_attributes 0 _ []). reflexivity.
  - apply leaf_found in F. destruct F as [-> ->]. apply (listed 1 _ _ [B "version"]); [reflexivity|apply incl_refl].
  - apply container_found in F. destruct F as [[-> ->]|(e & r & I & -> & F)].
    + apply (listed 2 _ _ [B "id"; B "enabled"]); [reflexivity|]. intros x [<-|I]; [now left|]. right. left. symmetry. apply given_names in I; [exact I|reflexivity].
    + repeat rewrite in_app_iff in I. destruct I as [I|[I|[I|[I|[I|[I|[I|[I|I]]]]]]]].
      * apply given_in in I. destruct I as (w & ->). inversion F; subst. apply (no_attributes 3 _ []). reflexivity.
      * apply given_in in I. destruct I as (w & ->). inversion F; subst. apply (no_attributes 4 _ []). reflexivity.
      * destruct I as [<-|[]]. apply leaf_found in F. destruct F as [-> ->]. apply (listed 5 _ _ [B "number"; B "build"; B "date"]); [reflexivity|].
        intros x [<-|I]; [now left|]. right. rewrite map_app, in_app_iff in I. destruct I as [I|I]; apply given_names in I; try reflexivity; rewrite I; [now left|right; now left].
      * destruct I as [<-|[]]. apply leaf_found in F. destruct F as [-> ->]. apply (listed 6 _ _ [B "version"]); [reflexivity|apply incl_refl].
      * apply given_in in I. destruct I as (w & ->). inversion F; subst. apply (no_attributes 7 _ []). reflexivity.
      * apply given_in in I. destruct I as (w & ->). inversion F; subst. apply (no_attributes 8 _ []). reflexivity.
      * destruct execs as [l|]; [|destruct I]. destruct I as [<-|[]]. apply container_found in F. destruct F as [[-> ->]|(e & q & I & -> & F)].
        -- apply (no_attributes 9 _ []). reflexivity.
        -- apply in_map_iff in I. destruct I as (fp & <- & Ifp). apply leaf_found in F. destruct F as [-> ->].
           apply (listed 10 _ _ [B "path"; B "platform"; B "licensing"]); [reflexivity|apply incl_refl].
      * destruct icon as [i|]; [|destruct I]. destruct I as [<-|[]]. apply leaf_found in F. destruct F as [-> ->].
        apply (listed 11 _ _ [B "file"]); [reflexivity|apply incl_refl].
      * apply in_map_iff in I. destruct I as (x & <- & Ix). inversion F as [| | | |? ? ? Fx]; subst. exact (Hf x Ix r a Fx).
Qed.

(** The parts that are always there. *)
Lemma library_found v name get version language execs icon foreign :
  FoundS (manifest_shape v name get version language execs icon foreign) [B "archive"; B "library"]
    ((B "id", v name) :: given get (B "enabled") (fun e => (B "enabled", v e))).
Proof. eapply FS_below; [right; left; reflexivity|]. apply FS_root. Qed.
Lemma inside_found v name get version language execs icon foreign e p a :
  In e [Container (B "version") ((B "number", v version) :: given get (B "build") (fun b => (B "build", v b)) ++ given get (B "date") (fun d => (B "date", v d))) [];
        Container (B "language") [(B "version", v language)] []] \/ (exists x, In x foreign /\ e = Foreign x) \/
  (exists l, execs = Some l /\ e = Container (B "encryption") [] (map (fun fp => Container (B "executable")
     [(B "path", v (B ".library/" ++ fst fp)); (B "platform", v (snd fp)); (B "licensing", B "true")] []) l)) ->
  FoundS e p a -> FoundS (manifest_shape v name get version language execs icon foreign) (B "archive" :: B "library" :: p) a.
Proof.
  intros H F. eapply FS_below; [right; left; reflexivity|]. apply FS_below with e; [|exact F]. repeat rewrite in_app_iff.
  destruct H as [[<-|[<-|[]]]|[(x & Ix & ->)|(l & -> & ->)]].
  - right. right. left. now left.
  - right. right. right. left. now left.
  - do 8 right. now apply in_map.
  - do 6 right. left. now left.
Qed.

(** The executables of a manifest. *)
Definition exec_attrs (v : bytes -> bytes) (fp : bytes * bytes) : list (bytes * bytes) :=
  [(B "path", v (B ".library/" ++ fst fp)); (B "platform", v (snd fp)); (B "licensing", B "true")].
Lemma shape_executables v name get version language execs icon foreign a :
  (forall x, In x foreign -> exists b k, x = Elem (B "compatibility") b k) ->
  FoundS (manifest_shape v name get version language execs icon foreign) [B "archive"; B "library"; B "encryption"; B "executable"] a ->
  exists l fp, execs = Some l /\ In fp l /\ a = exec_attrs v fp.
Proof.
  intros Hf H. unfold manifest_shape in H. apply container_found in H.
  destruct H as [[[=] _]|(e & q & [<-|[<-|[]]] & E & F)]; injection E as <-.
  - apply leaf_found in F. destruct F as [[=] _].
  - apply container_found in F. destruct F as [[[=] _]|(e & r & I & E & F)]. injection E as <-.
    repeat rewrite in_app_iff in I. destruct I as [I|[I|[I|[I|[I|[I|[I|[I|I]]]]]]]].
    + apply given_in in I. destruct I as (w & ->). inversion F.
    + apply given_in in I. destruct I as (w & ->). inversion F.
    + destruct I as [<-|[]]. apply leaf_found in F. destruct F as [[=] _].
    + destruct I as [<-|[]]. apply leaf_found in F. destruct F as [[=] _].
    + apply given_in in I. destruct I as (w & ->). inversion F.
    + apply given_in in I. destruct I as (w & ->). inversion F.
    + destruct execs as [l|]; [|destruct I]. destruct I as [<-|[]]. apply container_found in F. destruct F as [[[=] _]|(e & q & I & E & F)].
      apply in_map_iff in I. destruct I as (fp & <- & Ifp). apply leaf_found in F. destruct F as [_ ->]. exists l, fp. auto.
    + destruct icon as [i|]; [|destruct I]. destruct I as [<-|[]]. apply leaf_found in F. destruct F as [[=] _].
    + apply in_map_iff in I. destruct I as (x & <- & Ix). destruct (Hf x Ix) as (b & k & ->). inversion F as [| | | |? ? ? Fx]; subst. inversion Fx.
Qed.
(** Directly below the root there are only two elements. *)
Lemma shape_top v name get version language execs icon foreign k q a :
  FoundS (manifest_shape v name get version language execs icon foreign) (B "archive" :: k :: q) a -> k = B "manifest" \/ k = B "library".
Proof.
  intros H. unfold manifest_shape in H. apply container_found in H.
  destruct H as [[[=] _]|(e & r & [<-|[<-|[]]] & E & F)]; injection E as <-.
  - apply leaf_found in F. destruct F as [[= -> _] _]. now left.
  - apply container_found in F. destruct F as [[[= -> _] _]|(e & r & I & E & F)]; [now right|]. injection E as -> _. now right.
Qed.

Lemma attribute_shipped fp : In fp shipped -> exec_attrs (map attribute_char) fp = exec_attrs (fun s => s) fp.
Proof. intros H. repeat destruct H as [<-|H]; [vm_compute; reflexivity..|destruct H]. Qed.
Lemma present_in lves fp : In fp (present lves) -> In (Some (fst fp)) lves /\ In fp shipped.
Proof.
  intros I. apply in_flat_map in I. destruct I as ([f|] & If & I); [|destruct I]. destruct (option_of shipped f) as [p|] eqn:E; [|destruct I].
  destruct I as [<-|[]]. split; [exact If|]. unfold option_of in E. destruct (find (fun kv => beq (fst kv) f) shipped) as [[g q]|] eqn:Ef; [|discriminate E].
  apply find_some in Ef. destruct Ef as [Ig Q]. cbn [fst snd] in *. apply beq_true in Q. subst g. injection E as ->. exact Ig.
Qed.
