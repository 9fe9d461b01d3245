(** Proofs about the help text. *)
From Verif Require Import Base BaseProofs ArgsModel ArgsSpec HelpModel HelpSpec.
Require Import Lia.

Lemma next_word_spec s w t : next_word s = (w, t) -> s = w ++ t /\ ~ In SP w /\ (t = [] \/ exists r, t = SP :: r).
Proof.
  revert w t. induction s as [|c s IH]; intros w t; cbn [next_word].
  - intros E. injection E as <- <-. split; [reflexivity|]. split; [intros []|now left].
  - destruct (Ascii.eqb c SP) eqn:E; intros H.
    + apply Ascii.eqb_eq in E. subst c. injection H as <- <-. split; [reflexivity|]. split; [intros []|right; now exists s].
    + destruct (next_word s) as [w' t'] eqn:N. injection H as <- <-. destruct (IH _ _ eq_refl) as (H1 & H2 & H3). subst s.
      split; [reflexivity|]. split; [|exact H3]. intros [->|I]; [|exact (H2 I)]. rewrite Ascii.eqb_refl in E. discriminate.
Qed.

Lemma first_word_unique w w' c : FirstWord w c -> FirstWord w' c -> w = w'.
Proof.
  revert w' c. induction w as [|x w IH]; intros w' c [N1 D1] [N2 D2].
  - destruct w' as [|y w']; [reflexivity|]. exfalso. destruct D1 as [->|(t & ->)]; destruct D2 as [E|(u & E)]; try discriminate; injection E as <- _; apply N2; now left.
  - destruct w' as [|y w'].
    + exfalso. destruct D1 as [->|(t & ->)]; destruct D2 as [E|(u & E)]; try discriminate; injection E as -> _; apply N1; now left.
    + destruct c as [|z c]; [destruct D1 as [E|(t & E)]; discriminate|].
      assert (x = z) by (destruct D1 as [E|(t & E)]; cbn [app] in E; congruence). assert (y = z) by (destruct D2 as [E|(t & E)]; cbn [app] in E; congruence). subst. f_equal.
      apply (IH w' c); [split; [intros I; apply N1; now right|]|split; [intros I; apply N2; now right|]].
      * destruct D1 as [E|(t & E)]; [left; congruence|right; exists t; cbn [app] in E; congruence].
      * destruct D2 as [E|(t & E)]; [left; congruence|right; exists t; cbn [app] in E; congruence].
Qed.

Lemma aligned_lines max level : forall fuel s cur, length s <= fuel -> s <> [] -> (cur = [] \/ exists q, cur = q ++ [SP]) -> Fits max cur ->
  exists x ls, cur ++ aligned_loop fuel s (length cur) max level ++ [LF] = (cur ++ x) ++ [LF] ++ concat (map (Indented level) ls) /\
    (concat ((cur ++ x) :: ls) = cur ++ s \/ concat ((cur ++ x) :: ls) ++ [SP] = cur ++ s) /\
    Forall (Fits max) ((cur ++ x) :: ls) /\ Broken max ((cur ++ x) :: ls).
Proof.
  induction fuel as [|n IH]; intros s cur L N C F; [destruct s; [contradiction|cbn in L; lia]|].
  destruct s as [|a s0]; [contradiction|]. remember (a :: s0) as s eqn:Es.
  replace (aligned_loop (S n) s (length cur) max level) with
    (let '(w, t) := next_word s in let wrap := max <=? length cur + length w in let r := tl t in
     (if wrap then LF :: print_tabs level else []) ++ w ++ (match r with [] => [] | _ => [SP] end) ++
      aligned_loop n r (S ((if wrap then 0 else length cur) + length w)) max level) by (subst s; reflexivity).
  destruct (next_word s) as [w t] eqn:W. cbv zeta. destruct (next_word_spec s w t W) as (E & Nw & T).
  assert (R : (tl t = [] /\ (s = w \/ s = w ++ [SP])) \/ (tl t <> [] /\ s = w ++ [SP] ++ tl t)).
  { destruct T as [->|(r & ->)]; [left; split; [reflexivity|left; rewrite E; apply app_nil_r]|]. cbn [tl]. destruct r; [left; split; [reflexivity|now right]|right; split; [discriminate|exact E]]. }
  destruct (max <=? length cur + length w) eqn:Wr; [apply Nat.leb_le in Wr|apply Nat.leb_gt in Wr].
  - destruct R as [[R S']|[R S']].
    + rewrite R. exists [], [w]. replace (aligned_loop n [] _ max level) with (@nil byte) by (destruct n; reflexivity).
      cbn [map concat]. rewrite !app_nil_r. split; [unfold Indented, print_tabs, TAB; cbn [app]; now rewrite <- !app_assoc|].
      split; [destruct S' as [-> | ->]; [now left|right; now rewrite <- app_assoc]|].
      split; [apply Forall_cons; [exact F|]; apply Forall_cons; [right; exists w; split; [exact Nw|now left]|constructor]|].
      cbn [Broken]. split; [exact C|]. split; [|exact I]. intros w' H. rewrite (first_word_unique w' w w H); [exact Wr|split; [exact Nw|now left]].
    + destruct (tl t) as [|b r] eqn:Et; [contradiction|]. rewrite <- Et in *.
      destruct (IH (tl t) (w ++ [SP])) as (x & ls & H1 & H2 & H3 & H4);
        [rewrite S' in L; rewrite !app_length in L; cbn [length] in L; lia|now rewrite Et|right; now exists w|right; exists w; split; [exact Nw|now right]|].
      exists [], (((w ++ [SP]) ++ x) :: ls). rewrite app_nil_r. rewrite app_length in H1. cbn [length] in H1. rewrite Nat.add_1_r in H1. cbn [Nat.add].
      split.
      { transitivity (cur ++ [LF] ++ print_tabs level ++ ((w ++ [SP]) ++ aligned_loop n (tl t) (S (length w)) max level ++ [LF]));
          [rewrite <- !app_assoc; rewrite Et; reflexivity|]. rewrite H1. cbn [map concat]. unfold Indented at 2. unfold print_tabs, TAB. now rewrite <- !app_assoc. }
      split.
      { destruct H2 as [H2|H2]; [left|right]; cbn [concat] in *; [rewrite H2, S'; now rewrite <- app_assoc|].
        rewrite <- app_assoc. rewrite H2, S'. now rewrite <- app_assoc. }
      split; [apply Forall_cons; [exact F|exact H3]|]. split; [exact C|]. split; [|exact H4].
      intros w' H. rewrite (first_word_unique w' w _ H); [exact Wr|]. split; [exact Nw|]. right. exists x. now rewrite <- app_assoc.
  - destruct R as [[R S']|[R S']].
    + rewrite R. exists w, []. replace (aligned_loop n [] _ max level) with (@nil byte) by (destruct n; reflexivity).
      cbn [map concat app]. rewrite !app_nil_r. split; [now rewrite <- app_assoc|].
      split; [destruct S' as [-> | ->]; [now left|right; now rewrite <- app_assoc]|].
      split; [|exact I]. apply Forall_cons; [left; rewrite app_length; lia|constructor].
    + destruct (tl t) as [|b r] eqn:Et; [contradiction|]. rewrite <- Et in *.
      destruct (IH (tl t) (cur ++ w ++ [SP])) as (x & ls & H1 & H2 & H3 & H4);
        [rewrite S' in L; rewrite !app_length in L; cbn [length] in L; lia|now rewrite Et|right; exists (cur ++ w); now rewrite <- app_assoc|left; rewrite !app_length; cbn [length]; lia|].
      exists (w ++ [SP] ++ x), ls. replace ((cur ++ w ++ [SP]) ++ x) with (cur ++ w ++ [SP] ++ x) in * by now rewrite <- !app_assoc.
      replace (length (cur ++ w ++ [SP])) with (S (length cur + length w)) in H1 by (rewrite !app_length; cbn [length]; lia).
      split; [rewrite <- H1; rewrite Et; rewrite <- !app_assoc; reflexivity|].
      split; [|split; [exact H3|exact H4]].
      replace ((cur ++ w ++ [SP]) ++ tl t) with (cur ++ s) in H2 by (rewrite S'; now rewrite <- !app_assoc). exact H2.
Qed.

Lemma print_aligned_lines s max level : exists ls, print_aligned s max level = concat (map (Indented level) ls) /\
  (concat ls = s \/ concat ls ++ [SP] = s) /\ Forall (Fits max) ls /\ Broken max ls.
Proof.
  destruct s as [|a s].
  - exists [[]]. split; [unfold print_aligned, Indented; cbn [length aligned_loop map concat app]; now rewrite !app_nil_r|].
    split; [now left|]. split; [|exact I]. apply Forall_cons; [left; cbn; lia|constructor].
  - destruct (aligned_lines max level (length (a :: s)) (a :: s) []) as (x & ls & H1 & H2 & H3 & H4);
      [apply le_n|discriminate|now left|left; cbn; lia|].
    cbn [app] in *. exists (x :: ls). split; [|split; [exact H2|split; [exact H3|exact H4]]].
    unfold print_aligned. cbn [length] in *. rewrite H1. cbn [map concat]. unfold Indented at 2. unfold print_tabs, TAB. now rewrite <- !app_assoc.
Qed.

Lemma words_fit max s ls : WordsBelow max s -> (concat ls = s \/ concat ls ++ [SP] = s) -> Forall (Fits max) ls -> Forall (fun c => length c <= max) ls.
Proof.
  intros W E F. rewrite Forall_forall in *. intros c I. destruct (F c I) as [H|(w & N & D)]; [exact H|].
  destruct (in_split _ _ I) as (l1 & l2 & ->).
  assert (X : exists pre post, s = pre ++ c ++ post).
  { rewrite concat_app in E. cbn [concat] in E. destruct E as [<- | <-]; [now exists (concat l1), (concat l2)|exists (concat l1), (concat l2 ++ [SP]); now rewrite <- !app_assoc]. }
  destruct X as (pre & post & Es). destruct D as [-> | ->].
  - apply Nat.lt_le_incl. exact (W pre w post Es N).
  - rewrite app_length. cbn [length]. assert (length w < max); [|lia]. apply (W pre w ([SP] ++ post)); [now rewrite <- app_assoc in Es|exact N].
Qed.

(** Lines of a text, to compute with. *)
Fixpoint lines_of (cur s : bytes) : list bytes :=
  match s with
  | [] => []
  | c :: r => if Ascii.eqb c LF then rev cur :: lines_of [] r else lines_of (c :: cur) r
  end.
Lemma lines_word x post : forall cur, ~ In LF x -> lines_of cur (x ++ [LF] ++ post) = (rev cur ++ x) :: lines_of [] post.
Proof.
  induction x as [|a x IH]; intros cur N.
  - cbn [app lines_of]. rewrite Ascii.eqb_refl. now rewrite app_nil_r.
  - cbn [app lines_of]. destruct (Ascii.eqb a LF) eqn:E; [apply Ascii.eqb_eq in E; subst; contradiction N; now left|].
    change (x ++ LF :: post) with (x ++ [LF] ++ post). rewrite IH; [|intros I; apply N; now right]. cbn [rev]. now rewrite <- app_assoc.
Qed.
Lemma lines_pre x post pre : forall cur, ~ In LF x -> In x (lines_of cur (pre ++ [LF] ++ x ++ [LF] ++ post)).
Proof.
  induction pre as [|a pre IH]; intros cur N.
  - cbn [app lines_of]. rewrite Ascii.eqb_refl. right. change (x ++ LF :: post) with (x ++ [LF] ++ post). rewrite (lines_word x post [] N). now left.
  - cbn [app lines_of]. destruct (Ascii.eqb a LF); [right|]; now apply IH.
Qed.
Lemma lines_back x : forall s cur, In x (lines_of cur s) -> ~ In LF cur -> ~ In LF x /\ exists pre post, rev cur ++ s = pre ++ x ++ [LF] ++ post /\ (pre = [] \/ exists q, pre = q ++ [LF]).
Proof.
  induction s as [|a s IH]; intros cur I N; [destruct I|]. cbn [lines_of] in I. destruct (Ascii.eqb a LF) eqn:E.
  - apply Ascii.eqb_eq in E. subst a. destruct I as [<-|I].
    + split; [intros J; apply in_rev in J; contradiction|]. exists [], s. split; [reflexivity|now left].
    + destruct (IH [] I (fun H => H)) as (Nx & pre & post & H1 & H2). split; [exact Nx|]. exists ((rev cur ++ [LF]) ++ pre), post. cbn [rev app] in H1. split; [rewrite H1; now rewrite <- !app_assoc|].
      right. destruct H2 as [->|(q & ->)]; [exists (rev cur); now rewrite app_nil_r|exists ((rev cur ++ [LF]) ++ q); now rewrite <- !app_assoc].
  - destruct (IH (a :: cur) I) as (Nx & pre & post & H1 & H2); [intros [->|J]; [rewrite Ascii.eqb_refl in E; discriminate|contradiction]|].
    split; [exact Nx|]. exists pre, post. split; [|exact H2]. rewrite <- H1. cbn [rev]. now rewrite <- app_assoc.
Qed.
