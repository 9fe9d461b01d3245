From Coq Require Import Lia Bool.
From Verif Require Import Base BaseProofs ParseModel WireModel LveModel LveSpec MainModel MainSpec MainProofs WinModel WinThms WinArgsModel WinArgsSpec.
From Verif Require SpawnModel.

Lemma blank_not c s : NoBlank (c :: s) -> is_blank c = false /\ NoBlank s.
Proof.
  intros [H1 H2]. split; [|split; intros I; [apply H1|apply H2]; right; exact I].
  unfold is_blank. apply orb_false_iff. split; apply Ascii.eqb_neq; intros ->; [apply H1|apply H2]; left; reflexivity.
Qed.
Lemma first_none s : NoBlank s -> after_first s = [].
Proof. induction s as [|c s IH]; intros H; [reflexivity|]. apply blank_not in H as [B N]. cbn [after_first]. rewrite B. now apply IH. Qed.
Lemma first_space a r : NoBlank a -> after_first (a ++ [SP] ++ r) = r.
Proof. induction a as [|c a IH]; intros H; [reflexivity|]. apply blank_not in H as [B N]. cbn [after_first app]. rewrite B. now apply IH. Qed.
Lemma word_end w : NoBlank w -> forall v, v ++ w <> [] -> words v w = [v ++ w].
Proof.
  induction w as [|c w IH]; intros H v Nv; cbn [words].
  - rewrite app_nil_r in *. destruct v; [now elim Nv|reflexivity].
  - apply blank_not in H as [B N]. rewrite B, (IH N); [now rewrite <- app_assoc|]. destruct v; discriminate.
Qed.
Lemma word_more w r : NoBlank w -> forall v, v ++ w <> [] -> words v (w ++ [SP] ++ r) = (v ++ w) :: words [] r.
Proof.
  induction w as [|c w IH]; intros H v Nv; cbn [words app].
  - rewrite app_nil_r in *. change (is_blank SP) with true. cbn match. destruct v; [now elim Nv|reflexivity].
  - apply blank_not in H as [B N]. rewrite B. change (SP :: r) with ([SP] ++ r). rewrite (IH N); [now rewrite <- app_assoc|]. destruct v; discriminate.
Qed.
Lemma win_plain name : NoBlank name -> win_arguments name = [].
Proof. intros H. unfold win_arguments, received. cbn [packed]. now rewrite first_none. Qed.
Lemma win_spaced name w : Spaced name w -> exists r, win_arguments name = w :: r.
Proof.
  intros S. unfold win_arguments, received. cbn [packed]. destruct S as [a w Na Nw Ne|a w r Na Nw Ne]; rewrite (first_space _ _ Na).
  - exists []. now rewrite (word_end w Nw []).
  - exists (words [] r). now rewrite (word_more w r Nw []).
Qed.

Lemma not_option w opt r : ~ Dashed w -> opt = B "--" ++ r -> beq w opt = false.
Proof. intros H ->. apply beq_false. intros ->. apply H. now exists r. Qed.
Lemma main_word {D} cfg (e : env D) w r : ~ Dashed w -> lve_main cfg e (w :: r) = ([], Ok (Stopped Unexpected false)).
Proof.
  intros H. unfold lve_main. cbn [options].
  rewrite (not_option w OPT_FEATURE (B "checkout-feature") H eq_refl), (not_option w OPT_LIBPATH (B "libpath") H eq_refl),
    (not_option w OPT_VERSION (B "version") H eq_refl), (not_option w OPT_HELP (B "help") H eq_refl).
  reflexivity.
Qed.

(** The second attempt has spaces where the first one had. *)
Definition backslash (c : byte) : byte := if Ascii.eqb c SLASH then BSLASH else c.
Lemma back_sp c x : (x = SP \/ x = ch 9) -> backslash c = x <-> c = x.
Proof.
  intros Hx. unfold backslash. destruct (Ascii.eqb c SLASH) eqn:E; [|tauto]. apply Ascii.eqb_eq in E. subst c.
  split; intros H; destruct Hx as [-> | ->]; discriminate H.
Qed.
Lemma back_blank s : NoBlank s -> NoBlank (map backslash s).
Proof.
  intros [H1 H2]. split; intros I; apply in_map_iff in I as (c & E & I); [apply (back_sp c SP (or_introl eq_refl)) in E|apply (back_sp c (ch 9) (or_intror eq_refl)) in E]; subst c; auto.
Qed.
Lemma long_no name : NoBlank name -> NoBlank (long_name name).
Proof.
  intros H. unfold long_name. change (fun c => if Ascii.eqb c SLASH then BSLASH else c) with backslash.
  assert (P : NoBlank (B "\\?\")) by (split; vm_compute; intuition discriminate).
  destruct (length name <? 4096 - 5).
  - destruct P as [P1 P2]. destruct (back_blank _ H) as [B1 B2]. split; intros I; apply in_app_iff in I as [I|I]; auto.
  - now rewrite app_nil_r.
Qed.
Lemma long_spaced name w : Spaced name w -> length name < 4091 -> Spaced (long_name name) (map backslash w).
Proof.
  intros S L. unfold long_name. change (fun c => if Ascii.eqb c SLASH then BSLASH else c) with backslash.
  assert (L' : (length name <? 4096 - 5) = true) by (apply Nat.ltb_lt; change (4096 - 5) with 4091; exact L). rewrite L'.
  assert (P : forall a, NoBlank a -> NoBlank (B "\\?\" ++ map backslash a)).
  { intros a Na. assert (Q : NoBlank (B "\\?\")) by (split; vm_compute; intuition discriminate). destruct Q as [P1 P2].
    destruct (back_blank _ Na) as [B1 B2]. split; intros I; apply in_app_iff in I as [I|I]; auto. }
  destruct S as [a w Na Nw Ne|a w r Na Nw Ne]; rewrite !map_app; rewrite app_assoc; change (map backslash [SP]) with [SP].
  - apply Spaced_end; [now apply P|now apply back_blank|]. destruct w; [now elim Ne|discriminate].
  - apply Spaced_more; [now apply P|now apply back_blank|]. destruct w; [now elim Ne|discriminate].
Qed.
Lemma back_dashed w : Dashed (map backslash w) -> Dashed w.
Proof.
  intros [r E]. destruct w as [|x [|y w]]; try discriminate E. cbn [map] in E. injection E as E1 E2 E3.
  assert (H : forall c, backslash c = "-"%char -> c = "-"%char).
  { intros c. unfold backslash. destruct (Ascii.eqb c SLASH); [discriminate|auto]. }
  apply H in E1, E2. subst. now exists w.
Qed.

Lemma started_plain a name n : NoBlank name -> started_as a name = Some n -> win_arguments n = [].
Proof.
  intros H S. unfold started_as in S. destruct (b_run a name); [injection S as <-; now apply win_plain|].
  destruct (_ && _); [|discriminate]. injection S as <-. now apply win_plain, long_no.
Qed.
Lemma started_spaced {D} cfg (e : env D) a name w n : Spaced name w -> ~ Dashed w -> length name < 4091 -> started_as a name = Some n ->
  lve_main cfg e (win_arguments n) = ([], Ok (Stopped Unexpected false)).
Proof.
  intros Sp Nd L S. unfold started_as in S. destruct (b_run a name).
  - injection S as <-. destruct (win_spaced _ _ Sp) as [r ->]. now apply main_word.
  - destruct (_ && _); [|discriminate]. injection S as <-. destruct (win_spaced _ _ (long_spaced _ _ Sp L)) as [r ->].
    apply main_word. intros X. now apply Nd, back_dashed.
Qed.
Lemma no_handshake limit a name s : b_handshake a = false -> snd (start limit a name s) = None.
Proof. intros H. unfold start. rewrite H, andb_false_r. destruct (spawn limit a name s) as [s' [c|]]; reflexivity. Qed.
