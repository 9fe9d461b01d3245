(** Proofs about reading XML: more input or more fuel does not change what was read, and the amount
    of fuel used by the readers is enough. *)
From Verif Require Import Base BaseProofs XmlSpec.

Lemma chars_app stop norm s : forall ref t r u, chars stop norm ref s = Some (t, r) -> chars stop norm ref (s ++ u) = Some (t, r ++ u).
Proof.
  induction s as [|c s IH]; intros ref t r u; [discriminate|]. cbn [chars app]. destruct ref as [n|].
  - destruct (Ascii.eqb c SEMI); [|now apply IH]. destruct (entity n); [|discriminate].
    destruct (chars stop norm None s) as [[t' r']|] eqn:E; [|discriminate]. intros H. injection H as <- <-. now rewrite (IH _ _ _ u E).
  - destruct (Ascii.eqb c stop); [intros H; injection H as <- <-; reflexivity|].
    destruct (Ascii.eqb c AMP); [now apply IH|]. destruct (_ || _); [discriminate|].
    destruct (chars stop norm None s) as [[t' r']|] eqn:E; [|discriminate]. intros H. injection H as <- <-. now rewrite (IH _ _ _ u E).
Qed.
Lemma chars_length stop norm s : forall ref t r, chars stop norm ref s = Some (t, r) -> length r <= length s /\ exists r', r = stop :: r'.
Proof.
  induction s as [|c s IH]; intros ref t r; [discriminate|]. cbn [chars]. destruct ref as [n|].
  - destruct (Ascii.eqb c SEMI).
    + destruct (entity n); [|discriminate]. destruct (chars stop norm None s) as [[t' r']|] eqn:E; [|discriminate].
      intros H. injection H as <- <-. apply IH in E. cbn. split; [lia|apply E].
    + intros H. apply IH in H. cbn. split; [lia|apply H].
  - destruct (Ascii.eqb_spec c stop) as [->|_]; [intros H; injection H as <- <-; split; [cbn; lia|eauto]|].
    destruct (Ascii.eqb c AMP); [intros H; apply IH in H; cbn; split; [lia|apply H]|]. destruct (_ || _); [discriminate|].
    destruct (chars stop norm None s) as [[t' r']|] eqn:E; [|discriminate]. intros H. injection H as <- <-. apply IH in E. cbn. split; [lia|apply E].
Qed.
Lemma chars_shorter stop norm c s t r : c <> stop -> chars stop norm None (c :: s) = Some (t, r) -> length r < length (c :: s).
Proof.
  intros N. cbn [chars length]. destruct (Ascii.eqb_spec c stop) as [E|_]; [congruence|].
  destruct (Ascii.eqb c AMP); [intros H; apply chars_length in H; lia|]. destruct (_ || _); [discriminate|].
  destruct (chars stop norm None s) as [[t' r']|] eqn:E; [|discriminate]. intros H. injection H as <- <-. apply chars_length in E. lia.
Qed.

Lemma skip_space_app s c r u : skip_space s = c :: r -> skip_space (s ++ u) = c :: r ++ u.
Proof.
  induction s as [|x s IH]; [discriminate|]. cbn [skip_space app]. destruct (is_space x); [exact IH|]. intros H. injection H as -> ->. reflexivity.
Qed.
Lemma skip_space_length s : length (skip_space s) <= length s.
Proof. induction s as [|x s IH]; [reflexivity|]. cbn [skip_space]. destruct (is_space x); cbn [length] in *; lia. Qed.
Lemma name_chars_app s : forall n c r u, name_chars s = (n, c :: r) -> name_chars (s ++ u) = (n, c :: r ++ u).
Proof.
  induction s as [|x s IH]; intros n c r u; [discriminate|]. cbn [name_chars app]. destruct (name_char x).
  - destruct (name_chars s) as [n' r'] eqn:E. intros H. injection H as <- ->. now rewrite (IH _ _ _ u eq_refl).
  - intros H. injection H as <- <- <-. reflexivity.
Qed.
Lemma name_chars_length s : forall n r, name_chars s = (n, r) -> length s = length n + length r.
Proof.
  induction s as [|x s IH]; intros n r; cbn [name_chars]; [intros H; injection H as <- <-; reflexivity|].
  destruct (name_char x); [|intros H; injection H as <- <-; reflexivity].
  destruct (name_chars s) as [n' r'] eqn:E. intros H. injection H as <- <-. cbn [length]. rewrite (IH _ _ eq_refl). reflexivity.
Qed.
Lemma read_name_app s n c r u : read_name s = Some (n, c :: r) -> read_name (s ++ u) = Some (n, c :: r ++ u).
Proof.
  destruct s as [|x s]; [discriminate|]. cbn [read_name app]. destruct (name_start x); [|discriminate].
  intros H. f_equal. change (x :: s ++ u) with ((x :: s) ++ u). apply name_chars_app. now injection H.
Qed.
Lemma read_name_length s n r : read_name s = Some (n, r) -> length r < length s.
Proof.
  destruct s as [|x s]; [discriminate|]. cbn [read_name]. destruct (name_start x) eqn:S0; [|discriminate].
  intros H. injection H as H. cbn [name_chars] in H. unfold name_char in H. rewrite S0 in H. cbn [orb] in H.
  destruct (name_chars s) as [n' r'] eqn:E. injection H as <- <-. apply name_chars_length in E. cbn [length]. lia.
Qed.

(** Inversion of a successful read of attributes. *)
Inductive AttStep (s : bytes) (l : list (bytes * bytes)) (b : bool) (r : bytes) (rec : bytes -> option (list (bytes * bytes) * bool * bytes)) : Prop :=
| AS_close : skip_space s = GT :: r -> l = [] -> b = false -> AttStep s l b r rec
| AS_empty : skip_space s = SLASH :: GT :: r -> l = [] -> b = true -> AttStep s l b r rec
| AS_next s1 c0 n s2 s3 q s4 v s5 l' e0 :
    skip_space s = c0 :: s1 -> c0 <> GT -> c0 <> SLASH -> length (c0 :: s1) <> length s ->
    read_name (c0 :: s1) = Some (n, e0 :: s2) -> skip_space (e0 :: s2) = EQUALS :: s3 ->
    skip_space s3 = q :: s4 -> Ascii.eqb q QUOT || Ascii.eqb q APOS = true ->
    chars q attribute_char None s4 = Some (v, q :: s5) -> rec s5 = Some (l', b, r) -> l = (n, v) :: l' -> AttStep s l b r rec.
Lemma attributes_step f s l b r : attributes (S f) s = Some (l, b, r) -> AttStep s l b r (attributes f).
Proof.
  cbn [attributes]. destruct (skip_space s) as [|c0 s1] eqn:S1; [discriminate|].
  destruct (Ascii.eqb_spec c0 GT) as [->|Ng]; [intros H; injection H as <- <- <-; now apply AS_close|].
  destruct (Ascii.eqb_spec c0 SLASH) as [->|Ns].
  { destruct s1 as [|d s1]; [discriminate|]. destruct (Ascii.eqb_spec d GT) as [->|]; [|discriminate].
    intros H; injection H as <- <- <-; now apply AS_empty. }
  destruct (Nat.eqb_spec (length (c0 :: s1)) (length s)) as [|Nl]; [discriminate|].
  destruct (read_name (c0 :: s1)) as [[n s2]|] eqn:R; [|discriminate].
  destruct (skip_space s2) as [|e s3] eqn:S2; [discriminate|]. destruct (Ascii.eqb_spec e EQUALS) as [->|]; [|discriminate].
  destruct (skip_space s3) as [|q s4] eqn:S3; [discriminate|]. destruct (Ascii.eqb q QUOT || Ascii.eqb q APOS) eqn:Q; [|discriminate].
  destruct (chars q attribute_char None s4) as [[v [|q' s5]]|] eqn:C; try discriminate.
  destruct (chars_length _ _ _ _ _ _ C) as (_ & r' & Er). injection Er as -> ->.
  destruct (attributes f r') as [[[l' b'] s6]|] eqn:A; [|discriminate]. intros H. injection H as <- <- <-.
  destruct s2 as [|e0 s2]; [discriminate|].
  eapply AS_next; eauto.
Qed.
Lemma step_attributes f s l b r : AttStep s l b r (attributes f) -> attributes (S f) s = Some (l, b, r).
Proof.
  intros [E -> ->|E -> ->|s1 c0 n s2 s3 q s4 v s5 l' e0 E Ng Ns Nl R S2 S3 Q C A ->]; cbn [attributes]; rewrite E.
  - now rewrite Ascii.eqb_refl.
  - cbn [Ascii.eqb]. reflexivity.
  - rewrite (proj2 (Ascii.eqb_neq _ _) Ng), (proj2 (Ascii.eqb_neq _ _) Ns), (proj2 (Nat.eqb_neq _ _) Nl), R, S2, Ascii.eqb_refl, S3, Q, C, A.
    reflexivity.
Qed.
Lemma attributes_app : forall f s l b r u g, attributes f s = Some (l, b, r) -> f <= g -> attributes g (s ++ u) = Some (l, b, r ++ u).
Proof.
  induction f as [|f IH]; intros s l b r u g H L; [discriminate|]. destruct g as [|g]; [lia|]. apply step_attributes.
  apply attributes_step in H. destruct H as [E -> ->|E -> ->|s1 c0 n s2 s3 q s4 v s5 l' e0 E Ng Ns Nl R S2 S3 Q C A ->].
  - apply AS_close; try reflexivity. now apply skip_space_app.
  - apply AS_empty; try reflexivity. now apply (skip_space_app _ _ _ u) in E.
  - eapply (AS_next _ _ _ _ _ (s1 ++ u) c0 n (s2 ++ u) (s3 ++ u) q (s4 ++ u) v (s5 ++ u) l' e0); try assumption.
    + now apply skip_space_app.
    + cbn [length] in *. rewrite !app_length in *. lia.
    + change (c0 :: s1 ++ u) with ((c0 :: s1) ++ u). now apply read_name_app.
    + change (e0 :: s2 ++ u) with ((e0 :: s2) ++ u). now apply skip_space_app.
    + now apply skip_space_app.
    + apply (chars_app _ _ _ _ _ _ u C).
    + apply IH; [exact A|lia].
    + reflexivity.
Qed.
Lemma step_shorter s l b r rec : AttStep s l b r rec -> (forall s' x, rec s' = Some x -> length (snd x) < length s') -> length r < length s.
Proof.
  intros [E -> ->|E -> ->|s1 c0 n s2 s3 q s4 v s5 l' e0 E Ng Ns Nl R S2 S3 Q C A ->] Hrec; pose proof (skip_space_length s) as Ls; rewrite E in Ls; cbn [length] in Ls.
  - lia.
  - lia.
  - apply read_name_length in R. cbn [length] in R. pose proof (skip_space_length (e0 :: s2)) as L2. rewrite S2 in L2. cbn [length] in L2.
    pose proof (skip_space_length s3) as L3. rewrite S3 in L3. cbn [length] in L3. apply chars_length in C. cbn [length] in C.
    apply Hrec in A. cbn [snd] in A. lia.
Qed.
Lemma attributes_fuel : forall f s l b r, attributes f s = Some (l, b, r) ->
  length r < length s /\ forall g, length s < g -> attributes g s = Some (l, b, r).
Proof.
  induction f as [|f IH]; intros s l b r H; [discriminate|]. apply attributes_step in H.
  assert (Ls : length r < length s).
  { eapply step_shorter; [exact H|]. intros s' [[l' b'] r'] Hr. now apply IH in Hr. }
  split; [exact Ls|]. intros g Hg. destruct g as [|g]; [lia|]. apply step_attributes.
  destruct H as [E -> ->|E -> ->|s1 c0 n s2 s3 q s4 v s5 l' e0 E Ng Ns Nl R S2 S3 Q C A ->].
  - now apply AS_close.
  - now apply AS_empty.
  - eapply (AS_next _ _ _ _ _ s1 c0 n s2 s3 q s4 v s5 l' e0); try assumption; [|reflexivity].
    apply IH in A. apply A. pose proof (skip_space_length s) as Lx. rewrite E in Lx. apply read_name_length in R.
    pose proof (skip_space_length (e0 :: s2)) as L2. rewrite S2 in L2.
    pose proof (skip_space_length s3) as L3. rewrite S3 in L3. apply chars_length in C. cbn [length] in *. lia.
Qed.

Lemma open_tag_app s n a b r u : open_tag s = Some (n, a, b, r) -> open_tag (s ++ u) = Some (n, a, b, r ++ u).
Proof.
  unfold open_tag. destruct (read_name s) as [[n' r1]|] eqn:R; [|discriminate].
  destruct (attributes (S (length r1)) r1) as [[[l b'] r']|] eqn:A; [|discriminate].
  destruct (distinct l) eqn:D; [|discriminate]. intros H. injection H as <- <- <- <-.
  destruct r1 as [|c1 r1]; [cbn in A; discriminate|]. rewrite (read_name_app _ _ _ _ u R).
  change (c1 :: r1 ++ u) with ((c1 :: r1) ++ u). rewrite (attributes_app _ _ _ _ _ u (S (length ((c1 :: r1) ++ u))) A); [now rewrite D|].
  rewrite app_length. lia.
Qed.
Lemma open_tag_length s n a b r : open_tag s = Some (n, a, b, r) -> length r < length s.
Proof.
  unfold open_tag. destruct (read_name s) as [[n' r1]|] eqn:R; [|discriminate].
  destruct (attributes (S (length r1)) r1) as [[[l b'] r']|] eqn:A; [|discriminate].
  destruct (distinct l); [|discriminate]. intros H. injection H as <- <- <- <-.
  apply read_name_length in R. apply attributes_fuel in A. destruct A. lia.
Qed.
Lemma close_tag_app n s r u : close_tag n s = Some r -> close_tag n (s ++ u) = Some (r ++ u).
Proof.
  unfold close_tag. destruct (read_name s) as [[m r1]|] eqn:R; [|discriminate]. destruct (beq m n) eqn:M; [|discriminate].
  destruct (skip_space r1) as [|c r2] eqn:K; [discriminate|]. destruct (Ascii.eqb c GT) eqn:G; [|discriminate].
  intros H. injection H as <-. destruct r1 as [|c1 r1]; [discriminate|]. rewrite (read_name_app _ _ _ _ u R), M.
  change (c1 :: r1 ++ u) with ((c1 :: r1) ++ u). rewrite (skip_space_app _ _ _ u K), G. reflexivity.
Qed.
Lemma close_tag_length n s r : close_tag n s = Some r -> length r < length s.
Proof.
  unfold close_tag. destruct (read_name s) as [[m r1]|] eqn:R; [|discriminate]. destruct (beq m n); [|discriminate].
  destruct (skip_space r1) as [|c r2] eqn:K; [discriminate|]. destruct (Ascii.eqb c GT); [|discriminate].
  intros H. injection H as <-. apply read_name_length in R. pose proof (skip_space_length r1) as L. rewrite K in L. cbn [length] in L. lia.
Qed.

(** Inversion of a successful read of contents. *)
Inductive ConStep (s : bytes) (ns : list node) (r : bytes) (rec : bytes -> option (list node * bytes)) : Prop :=
| CS_end : s = LT :: SLASH :: r -> ns = [] -> ConStep s ns r rec
| CS_empty r0 c n a r1 ns' : s = LT :: c :: r0 -> c <> SLASH -> open_tag (c :: r0) = Some (n, a, true, r1) ->
    rec r1 = Some (ns', r) -> ns = Elem n a [] :: ns' -> ConStep s ns r rec
| CS_elem r0 c n a r1 kids r2 r3 ns' : s = LT :: c :: r0 -> c <> SLASH -> open_tag (c :: r0) = Some (n, a, false, r1) ->
    rec r1 = Some (kids, r2) -> close_tag n r2 = Some r3 -> rec r3 = Some (ns', r) -> ns = Elem n a kids :: ns' -> ConStep s ns r rec
| CS_text c r0 t r1 ns' : s = c :: r0 -> c <> LT -> chars LT (fun c => c) None s = Some (t, r1) -> rec r1 = Some (ns', r) ->
    ns = Text t :: ns' -> ConStep s ns r rec.
Lemma contents_step f s ns r : contents (S f) s = Some (ns, r) -> ConStep s ns r (contents f).
Proof.
  cbn [contents]. destruct s as [|c s]; [discriminate|]. destruct (Ascii.eqb_spec c LT) as [->|Nc].
  - destruct s as [|d s]; [discriminate|]. destruct (Ascii.eqb_spec d SLASH) as [->|Nd].
    { intros H. injection H as <- <-. now apply CS_end. }
    destruct (open_tag (d :: s)) as [[[[n a] []] r1]|] eqn:O; [| |discriminate].
    + destruct (contents f r1) as [[ns' r2]|] eqn:C; [|discriminate]. intros H. injection H as <- <-. eapply CS_empty; eauto.
    + destruct (contents f r1) as [[kids r2]|] eqn:C; [|discriminate]. destruct (close_tag n r2) as [r3|] eqn:K; [|discriminate].
      destruct (contents f r3) as [[ns' r4]|] eqn:C2; [|discriminate]. intros H. injection H as <- <-. eapply CS_elem; eauto.
  - destruct (chars LT (fun c => c) None (c :: s)) as [[t r1]|] eqn:K; [|discriminate].
    destruct (contents f r1) as [[ns' r2]|] eqn:C; [|discriminate]. intros H. injection H as <- <-. eapply CS_text; eauto.
Qed.
Lemma step_contents f s ns r : ConStep s ns r (contents f) -> contents (S f) s = Some (ns, r).
Proof.
  intros [-> ->|r0 c n a r1 ns' -> Nc O C ->|r0 c n a r1 kids r2 r3 ns' -> Nc O C K C2 ->|c r0 t r1 ns' -> Nc K C ->]; cbn [contents].
  - now rewrite !Ascii.eqb_refl.
  - rewrite Ascii.eqb_refl, (proj2 (Ascii.eqb_neq _ _) Nc), O, C. reflexivity.
  - rewrite Ascii.eqb_refl, (proj2 (Ascii.eqb_neq _ _) Nc), O, C, K, C2. reflexivity.
  - rewrite (proj2 (Ascii.eqb_neq _ _) Nc), K, C. reflexivity.
Qed.
Lemma contents_app : forall f s ns r u g, contents f s = Some (ns, r) -> f <= g -> contents g (s ++ u) = Some (ns, r ++ u).
Proof.
  induction f as [|f IH]; intros s ns r u g H L; [discriminate|]. destruct g as [|g]; [lia|]. apply step_contents.
  apply contents_step in H. destruct H as [-> ->|r0 c n a r1 ns' -> Nc O C ->|r0 c n a r1 kids r2 r3 ns' -> Nc O C K C2 ->|c r0 t r1 ns' E Nc K C ->].
  - now apply CS_end.
  - eapply (CS_empty _ _ _ _ (r0 ++ u) c n a (r1 ++ u) ns'); try reflexivity; [exact Nc| |apply IH; [exact C|lia]].
    now apply (open_tag_app _ _ _ _ _ u) in O.
  - eapply (CS_elem _ _ _ _ (r0 ++ u) c n a (r1 ++ u) kids (r2 ++ u) (r3 ++ u) ns'); try reflexivity; [exact Nc| | | |].
    + now apply (open_tag_app _ _ _ _ _ u) in O.
    + apply IH; [exact C|lia].
    + now apply close_tag_app.
    + apply IH; [exact C2|lia].
  - subst s. eapply (CS_text _ _ _ _ c (r0 ++ u) t (r1 ++ u) ns'); try reflexivity; [exact Nc| |apply IH; [exact C|lia]].
    now apply (chars_app _ _ _ _ _ _ u) in K.
Qed.
Lemma contents_mono f g s ns r : contents f s = Some (ns, r) -> f <= g -> contents g s = Some (ns, r).
Proof. intros H L. pose proof (contents_app f s ns r [] g H L) as X. now rewrite !app_nil_r in X. Qed.
Lemma contents_fuel : forall f s ns r, contents f s = Some (ns, r) ->
  length r < length s /\ forall g, length s < g -> contents g s = Some (ns, r).
Proof.
  induction f as [|f IH]; intros s ns r H; [discriminate|]. apply contents_step in H.
  destruct H as [-> ->|r0 c n a r1 ns' -> Nc O C ->|r0 c n a r1 kids r2 r3 ns' -> Nc O C K C2 ->|c r0 t r1 ns' E Nc K C ->].
  - split; [cbn; lia|]. intros [|g] Hg; [lia|]. apply step_contents. now apply CS_end.
  - pose proof (open_tag_length _ _ _ _ _ O) as Lo. apply IH in C. destruct C as [Lc C]. cbn [length] in *. split; [lia|].
    intros [|g] Hg; [lia|]. apply step_contents. eapply CS_empty; eauto. apply C. lia.
  - pose proof (open_tag_length _ _ _ _ _ O) as Lo. apply IH in C. destruct C as [Lc C]. pose proof (close_tag_length _ _ _ K) as Lk.
    apply IH in C2. destruct C2 as [Lc2 C2]. cbn [length] in *. split; [lia|].
    intros [|g] Hg; [lia|]. apply step_contents. eapply CS_elem; eauto; [apply C|apply C2]; lia.
  - subst s. pose proof (chars_shorter _ _ _ _ _ _ Nc K) as Lk. apply IH in C. destruct C as [Lc C]. split; [lia|].
    intros [|g] Hg; [cbn in Hg; lia|]. apply step_contents. eapply CS_text; eauto. apply C. lia.
Qed.

(** ** Reading, without fuel *)

Definition Attributes (s : bytes) (l : list (bytes * bytes)) (b : bool) (r : bytes) : Prop := exists f, attributes f s = Some (l, b, r).
Definition Contents (s : bytes) (ns : list node) (r : bytes) : Prop := exists f, contents f s = Some (ns, r).
Lemma Contents_enough s ns r : Contents s ns r -> contents (S (length s)) s = Some (ns, r).
Proof. intros [f H]. apply contents_fuel in H. apply H. lia. Qed.
Lemma open_tag_of s n r l b r' : read_name s = Some (n, r) -> Attributes r l b r' -> distinct l = true -> open_tag s = Some (n, l, b, r').
Proof.
  intros R [f A] D. unfold open_tag. rewrite R. apply attributes_fuel in A. destruct A as [_ A]. rewrite A by lia. now rewrite D.
Qed.
Lemma Contents_end r : Contents (LT :: SLASH :: r) [] r.
Proof. exists 1. apply step_contents. now apply CS_end. Qed.
Lemma Contents_empty c r0 n a r1 ns r : c <> SLASH -> open_tag (c :: r0) = Some (n, a, true, r1) -> Contents r1 ns r ->
  Contents (LT :: c :: r0) (Elem n a [] :: ns) r.
Proof. intros Nc O [f C]. exists (S f). apply step_contents. eapply CS_empty; eauto. Qed.
Lemma Contents_elem c r0 n a r1 kids r2 r3 ns r : c <> SLASH -> open_tag (c :: r0) = Some (n, a, false, r1) -> Contents r1 kids r2 ->
  close_tag n r2 = Some r3 -> Contents r3 ns r -> Contents (LT :: c :: r0) (Elem n a kids :: ns) r.
Proof.
  intros Nc O [f C] K [g C2]. exists (S (f + g)). apply step_contents. eapply CS_elem; eauto.
  - eapply contents_mono; [exact C|lia].
  - eapply contents_mono; [exact C2|lia].
Qed.
Lemma Contents_text c r0 t r1 ns r : c <> LT -> chars LT (fun c => c) None (c :: r0) = Some (t, r1) -> Contents r1 ns r ->
  Contents (c :: r0) (Text t :: ns) r.
Proof. intros Nc K [f C]. exists (S f). apply step_contents. eapply CS_text; eauto. Qed.
Lemma Contents_app s ns r u : Contents s ns r -> Contents (s ++ u) ns (r ++ u).
Proof. intros [f C]. exists f. apply (contents_app f); [exact C|lia]. Qed.
