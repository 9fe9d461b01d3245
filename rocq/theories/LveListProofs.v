(** Proofs about the list of LVEs. *)
From Verif Require Import Base LveListModel.

Lemma alive_in p m : alive p m = true <-> In p (m_live m).
Proof.
  unfold alive. rewrite existsb_exists. split.
  - intros (x & I & E). apply Nat.eqb_eq in E. now subst.
  - intros I. exists p. split; [exact I|apply Nat.eqb_refl].
Qed.
(** The blocks of a list of elements. *)
Fixpoint ptrs (cells : list cell) : list nat := match cells with [] => [] | Text p _ :: r => p :: ptrs r | _ :: r => ptrs r end.

Lemma fill_spec : forall n oks m, exists ok cs m', fill oks n m = (ok, cs, m') /\ length cs = n /\ (m_next m <= m_next m') /\
  (forall p, In p (m_live m) -> In p (m_live m')) /\
  (ok = true -> cs = map (fun p => Text p None) (seq (m_next m) n) /\ (forall p, In p (m_live m') <-> In p (m_live m) \/ In p (seq (m_next m) n)) /\
     (NoDup (m_live m) -> (forall p, In p (m_live m) -> p < m_next m) -> NoDup (m_live m')) /\ length (m_live m') = length (m_live m) + n).
Proof.
  induction n as [|n IH]; intros oks m; cbn [fill].
  - exists true, [], m. split; [reflexivity|]. split; [reflexivity|]. split; [lia|]. split; [auto|]. intros _. split; [reflexivity|]. split; [cbn; tauto|]. split; [auto|lia].
  - unfold malloc. destruct (hd true oks).
    + destruct (IH (tl oks) {| m_live := m_next m :: m_live m; m_next := S (m_next m) |}) as (ok & cs & m' & E & L & N & K & F). cbn [m_live m_next] in *. rewrite E.
      exists ok, (Text (m_next m) None :: cs), m'. split; [reflexivity|]. split; [cbn; lia|]. split; [lia|]. split; [intros p I; apply K; now right|].
      intros Eo. destruct (F Eo) as (-> & Li & Nd & Le). split; [reflexivity|]. split; [|split].
      * intros p. rewrite Li. cbn [seq In]. tauto.
      * intros D B. apply Nd; [|intros p [<-|I]; [lia|specialize (B p I); lia]]. constructor; [|exact D]. intros I. specialize (B _ I). lia.
      * rewrite Le. cbn [length]. lia.
    + exists false, (Null :: repeat Unset n), m. split; [reflexivity|]. split; [cbn; now rewrite repeat_length|]. split; [lia|]. split; [auto|discriminate].
Qed.

Lemma release_ok p m : In p (m_live m) -> release p m = Ok {| m_live := remove Nat.eq_dec p (m_live m); m_next := m_next m |}.
Proof. intros I. unfold release. apply alive_in in I. now rewrite I. Qed.
Lemma remove_count p l : NoDup l -> In p l -> NoDup (remove Nat.eq_dec p l) /\ S (length (remove Nat.eq_dec p l)) = length l.
Proof.
  induction l as [|x l IH]; intros D I; [destruct I|]. apply NoDup_cons_iff in D. destruct D as [N D]. cbn [remove]. destruct (Nat.eq_dec p x) as [->|Nx].
  - rewrite notin_remove by exact N. split; [exact D|reflexivity].
  - destruct I as [->|I]; [congruence|]. destruct (IH D I) as [D' L]. split; [|cbn [length]; lia]. constructor; [|exact D']. intros Ix. apply in_remove in Ix. tauto.
Qed.

(** The elements after copying. *)
Definition copied_cells (present : bytes -> bool) (names : list bytes) (ps : list nat) : list cell :=
  map (fun np => if present (fst np) then Text (snd np) (Some (fst np)) else Null) (combine names ps).
Lemma copy_loop_spec present copied m : forall names ps, length ps = length names -> (forall p, In p ps -> In p (m_live m)) ->
  exists ok cs, copy_loop present copied m names (map (fun p => Text p None) ps) = Ok (ok, cs) /\ (ok = true -> cs = copied_cells present names ps) /\
    (ok = forallb (fun n => negb (present n) || copied n) names).
Proof.
  induction names as [|n names IH]; intros [|p ps] L K; try discriminate L; cbn [map copy_loop].
  - exists true, []. now repeat split.
  - destruct (IH ps) as (ok & cs & E & F & G); [now injection L|intros q I; apply K; now right|].
    assert (A : alive p m = true) by (apply alive_in, K; now left). unfold copied_cells. cbn [combine map fst snd forallb]. destruct (present n); cbn [negb orb].
    + destruct (copied n); cbn [andb].
      * rewrite A, E. cbn [bind]. eexists _, _. split; [reflexivity|]. split; [|exact G]. intros ->. now rewrite (F eq_refl).
      * eexists _, _. split; [reflexivity|]. split; [discriminate|reflexivity].
    + rewrite E. cbn [bind]. eexists _, _. split; [reflexivity|]. split; [|exact G]. intros ->. now rewrite (F eq_refl).
Qed.
Lemma listed_spec present m : forall names ps, length ps = length names -> (forall p, In p ps -> In p (m_live m)) ->
  listed m (copied_cells present names ps) = Ok (filter present names).
Proof.
  induction names as [|n names IH]; intros [|p ps] L K; try discriminate L; [reflexivity|]. unfold copied_cells. cbn [combine map fst snd filter].
  fold (copied_cells present names ps). assert (A : alive p m = true) by (apply alive_in, K; now left).
  assert (E : listed m (copied_cells present names ps) = Ok (filter present names)) by (apply IH; [now injection L|intros q I; apply K; now right]).
  destruct (present n); cbn [listed]; [rewrite A|]; now rewrite E.
Qed.
Lemma free_all_spec present : forall names ps m a, length ps = length names -> NoDup (a :: ps) -> NoDup (m_live m) -> In a (m_live m) -> (forall p, In p ps -> In p (m_live m)) ->
  exists m', free_all m (copied_cells present names ps) = Ok m' /\ In a (m_live m') /\ NoDup (m_live m') /\ length (m_live m') + length (filter present names) = length (m_live m).
Proof.
  induction names as [|n names IH]; intros [|p ps] m a L D Dm Ia K; try discriminate L.
  - exists m. split; [reflexivity|]. split; [exact Ia|]. split; [exact Dm|]. cbn. lia.
  - apply NoDup_cons_iff in D. destruct D as [Na D]. apply NoDup_cons_iff in D. destruct D as [Np D]. cbn [In] in Na.
    unfold copied_cells. cbn [combine map fst snd filter]. fold (copied_cells present names ps).
    assert (Da : NoDup (a :: ps)) by (constructor; [tauto|exact D]). injection L as L. destruct (present n); cbn [free_all].
    + assert (Ip : In p (m_live m)) by (apply K; now left). rewrite (release_ok p m Ip). cbn [bind]. destruct (remove_count p _ Dm Ip) as [D' C].
      destruct (IH ps {| m_live := remove Nat.eq_dec p (m_live m); m_next := m_next m |} a L Da D') as (m' & E & I' & Dn & Le); cbn [m_live].
      * apply in_in_remove; [intros ->; tauto|exact Ia].
      * intros q I. apply in_in_remove; [intros ->; contradiction|apply K; now right].
      * exists m'. split; [exact E|]. split; [exact I'|]. split; [exact Dn|]. cbn [m_live length] in *. lia.
    + destruct (IH ps m a L Da Dm Ia) as (m' & E & R); [intros q I; apply K; now right|]. exists m'. split; [exact E|exact R].
Qed.

(** What a run gives. *)
Lemma work enc oks dir present copied extra manifest rest names :
  exists l done g, do_work enc oks dir present copied extra manifest rest names = Ok (l, done, g) /\
    (forall x, l = Some x -> x = if enc then filter present names else []) /\
    (done = true -> g_array g = None /\ length (m_live (g_mem g)) = if enc then length names - length (filter present names) else 0).
Proof.
  unfold do_work, copy_lve. destruct enc.
  2: { cbn [bind andb]. destruct extra; cbn [add_encryption bind clean_up at_start g_array].
       - destruct (manifest && rest); eexists _, _, _; (split; [reflexivity|]); (split; [intros x [= <-]; reflexivity|]); [intros _; now split|discriminate].
       - eexists _, _, _. split; [reflexivity|]. split; discriminate. }
  unfold create. cbn [at_start g_array g_mem g_cells malloc m_next m_live]. unfold malloc. destruct (hd true oks).
  2: { cbn [bind andb]. eexists _, _, _. split; [reflexivity|]. split; discriminate. }
  cbn [at_start g_mem m_live m_next]. destruct (fill_spec (length names) (tl oks) {| m_live := [0]; m_next := 1 |}) as (ok & cs & m & -> & Lc & _ & K & F). cbn [m_live m_next] in *. destruct ok.
  2: { rewrite (release_ok 0 m) by (apply K; now left). cbn [bind andb]. eexists _, _, _. split; [reflexivity|]. split; discriminate. }
  destruct (F eq_refl) as (-> & Li & Nd & Le). cbn [bind]. destruct dir.
  2: { cbn [bind andb]. eexists _, _, _. split; [reflexivity|]. split; discriminate. }
  assert (A : alive 0 m = true) by (apply alive_in, K; now left). unfold use. cbn [g_array g_mem g_cells]. rewrite A. cbn [bind].
  destruct (copy_loop_spec present copied m names (seq 1 (length names))) as (ok & cs & -> & G & _); [apply seq_length|intros p I; apply Li; now right|].
  cbn [bind]. destruct ok; cbn [andb].
  2: { eexists _, _, _. split; [reflexivity|]. split; discriminate. }
  rewrite (G eq_refl). destruct extra; cbn [andb].
  2: { eexists _, _, _. split; [reflexivity|]. split; discriminate. }
  unfold add_encryption, use. cbn [g_array g_mem g_cells]. rewrite A. cbn [bind].
  rewrite listed_spec; [|apply seq_length|intros p I; apply Li; now right]. cbn [bind]. destruct (manifest && rest).
  2: { eexists _, _, _. split; [reflexivity|]. split; [intros x [= <-]; reflexivity|discriminate]. }
  unfold clean_up, use. cbn [g_array g_mem g_cells]. rewrite A. cbn [bind].
  assert (Dm : NoDup (m_live m)) by (apply Nd; [constructor; [intros []|constructor]|intros p [<-|[]]; lia]).
  destruct (free_all_spec present names (seq 1 (length names)) m 0) as (m' & -> & Ia & Dn & C);
    [apply seq_length|exact (seq_NoDup (S (length names)) 0)|exact Dm|apply K; now left|intros p I; apply Li; now right|].
  cbn [bind]. rewrite (release_ok 0 m' Ia). cbn [bind]. eexists _, _, _. split; [reflexivity|]. split; [intros x [= <-]; reflexivity|]. intros _. split; [reflexivity|].
  cbn [g_mem m_live]. destruct (remove_count 0 _ Dn Ia) as [_ E]. cbn [length] in Le. lia.
Qed.

Lemma works enc oks dir present copied extra manifest rest names :
  exists l done g, do_work enc oks dir present copied extra manifest rest names = Ok (l, done, g) /\ forall x, l = Some x -> x = if enc then filter present names else [].
Proof. destruct (work enc oks dir present copied extra manifest rest names) as (l & d & g & E & F & _). exists l, d, g. now split. Qed.
Lemma filter_all {A} (f : A -> bool) l : (forall x, In x l -> f x = true) -> filter f l = l.
Proof. induction l as [|x l IH]; intros H; [reflexivity|]. cbn [filter]. rewrite (H x) by now left. f_equal. apply IH. intros y I. apply H. now right. Qed.
Lemma filter_less {A} (f : A -> bool) l x : In x l -> f x = false -> length (filter f l) < length l.
Proof.
  induction l as [|y l IH]; intros I E; [destruct I|]. cbn [filter]. assert (L : length (filter f l) <= length l) by (clear; induction l as [|z l IH]; cbn; [lia|destruct (f z); cbn; lia]).
  destruct I as [->|I]; [rewrite E; cbn; lia|]. specialize (IH I E). destruct (f y); cbn; lia.
Qed.
Lemma freed enc oks dir present copied extra manifest rest names l g : (enc = true -> forall n, In n names -> present n = true) ->
  do_work enc oks dir present copied extra manifest rest names = Ok (l, true, g) -> g_array g = None /\ m_live (g_mem g) = [].
Proof.
  intros P R. destruct (work enc oks dir present copied extra manifest rest names) as (l' & d & g' & E & _ & F). rewrite R in E. injection E as <- <- <-.
  destruct (F eq_refl) as [A C]. split; [exact A|]. apply length_zero_iff_nil. rewrite C. destruct enc; [|reflexivity]. rewrite (filter_all present names (P eq_refl)). lia.
Qed.
Lemma kept oks dir present copied extra manifest rest names l g n : In n names -> present n = false ->
  do_work true oks dir present copied extra manifest rest names = Ok (l, true, g) -> g_array g = None /\ m_live (g_mem g) <> [].
Proof.
  intros I P R. destruct (work true oks dir present copied extra manifest rest names) as (l' & d & g' & E & _ & F). rewrite R in E. injection E as <- <- <-.
  destruct (F eq_refl) as [A C]. split; [exact A|]. intros Z. rewrite Z in C. pose proof (filter_less present names n I P). cbn in C. lia.
Qed.
Lemma fill_fails : forall n oks m, In false (firstn n oks) -> exists cs m', fill oks n m = (false, cs, m') /\ (forall p, In p (m_live m) -> In p (m_live m')).
Proof.
  induction n as [|n IH]; intros [|b oks] m I; try (now destruct I). cbn [firstn In] in I. cbn [fill hd tl]. unfold malloc. destruct b.
  - destruct I as [I|I]; [discriminate|]. destruct (IH oks {| m_live := m_next m :: m_live m; m_next := S (m_next m) |} I) as (cs & m' & -> & K). eexists _, _. split; [reflexivity|]. intros p H. apply K. now right.
  - eexists _, _. split; [reflexivity|auto].
Qed.
Lemma dangling oks n : In false (firstn n oks) -> exists g, create (true :: oks) n at_start = Ok (false, g) /\ clean_up g = UB UseAfterFree /\
  create [] n g = Ok (true, g) /\ use g = UB UseAfterFree.
Proof.
  intros I. unfold create. cbn [at_start g_array g_mem hd tl malloc m_next m_live]. unfold malloc.
  cbn [m_next m_live]. destruct (fill_fails n oks {| m_live := [0]; m_next := 1 |} I) as (cs & m & -> & K). rewrite (release_ok 0 m) by (apply K; now left). cbn [bind].
  eexists. split; [reflexivity|]. assert (U : alive 0 {| m_live := remove Nat.eq_dec 0 (m_live m); m_next := m_next m |} = false).
  { destruct (alive _ _) eqn:E; [|reflexivity]. apply alive_in in E. cbn [m_live] in E. now apply remove_In in E. }
  unfold clean_up, use. cbn [g_array g_mem]. rewrite U. split; [reflexivity|]. split; reflexivity.
Qed.

Lemma hd_true oks : (forall b, In b oks -> b = true) -> hd true oks = true.
Proof. destruct oks as [|b r]; intros H; [reflexivity|]. apply H. now left. Qed.
Lemma tl_true (oks : list bool) : (forall b, In b oks -> b = true) -> forall b, In b (tl oks) -> b = true.
Proof. destruct oks as [|x r]; intros H b I; [destruct I|]. apply H. now right. Qed.
Lemma fill_succeeds : forall n oks m, (forall b, In b oks -> b = true) -> exists cs m', fill oks n m = (true, cs, m').
Proof.
  induction n as [|n IH]; intros oks m H; cbn [fill]; [now eexists _, _|]. rewrite (hd_true oks H). cbn [malloc].
  destruct (IH (tl oks) {| m_live := m_next m :: m_live m; m_next := S (m_next m) |} (tl_true oks H)) as (cs & m' & ->). now eexists _, _.
Qed.
Lemma completes enc oks present copied names : (forall b, In b oks -> b = true) -> (forall n, In n names -> present n = true -> copied n = true) ->
  exists g, do_work enc oks true present copied true true true names = Ok (Some (if enc then filter present names else []), true, g).
Proof.
  intros H C. destruct enc; [|eexists; reflexivity].
  destruct (work true oks true present copied true true true names) as (l & d & g & E & F & _). exists g. rewrite E.
  assert (X : exists x, l = Some x /\ d = true).
  { unfold do_work, copy_lve, create in E. cbn [at_start g_array g_mem g_cells] in E. rewrite (hd_true oks H) in E. cbn [malloc m_next m_live] in E.
    destruct (fill_spec (length names) (tl oks) {| m_live := [0]; m_next := 1 |}) as (ok & cs & m & Ef & _ & _ & K & Fs). cbn [m_live m_next] in *.
    destruct (fill_succeeds (length names) (tl oks) {| m_live := [0]; m_next := 1 |} (tl_true oks H)) as (cs' & m' & Ef'). rewrite Ef in Ef', E. injection Ef' as -> _ _.
    destruct (Fs eq_refl) as (-> & Li & _). cbn [bind] in E. assert (A : alive 0 m = true) by (apply alive_in, K; now left). unfold use in E. cbn [g_array g_mem g_cells] in E. rewrite A in E. cbn [bind] in E.
    destruct (copy_loop_spec present copied m names (seq 1 (length names))) as (ok & cs & Ec & G & Eo); [apply seq_length|intros p I; apply Li; now right|]. rewrite Ec in E. cbn [bind] in E.
    assert (T : forallb (fun n => negb (present n) || copied n) names = true).
    { apply forallb_forall. intros n I. destruct (present n) eqn:P; [|reflexivity]. cbn. now apply C. }
    rewrite T in Eo. subst ok. rewrite (G eq_refl) in E. cbn [andb] in E. destruct (add_encryption _ _) as [x|r|] in E; cbn [bind] in E; [|discriminate|discriminate].
    destruct (clean_up _) as [y|r|] in E; cbn [bind] in E; [|discriminate|discriminate]. injection E as <- <- <-. now exists x. }
  destruct X as (x & -> & ->). now rewrite (F x eq_refl).
Qed.
