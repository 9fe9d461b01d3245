(** Lemmas about the common vocabulary. *)
From Verif Require Import Base.

Lemma beq_refl a : beq a a = true.
Proof. induction a as [|x a IH]; cbn; [reflexivity|]. now rewrite Ascii.eqb_refl. Qed.

Lemma beq_true a b : beq a b = true <-> a = b.
Proof.
  revert b; induction a as [|x a IH]; intros [|y b]; cbn; split; intros H;
    try reflexivity; try discriminate.
  - apply andb_true_iff in H as [Hx Hr]. apply Ascii.eqb_eq in Hx. apply IH in Hr. congruence.
  - injection H as <- <-. now rewrite Ascii.eqb_refl, beq_refl.
Qed.

Lemma beq_false a b : beq a b = false <-> a <> b.
Proof.
  rewrite <- beq_true. destruct (beq a b); split; intros; congruence.
Qed.

Lemma beq_spec a b : reflect (a = b) (beq a b).
Proof.
  destruct (beq a b) eqn:E; constructor; [now apply beq_true | now apply beq_false].
Qed.

Lemma has_byte_In c s : has_byte c s = true <-> In c s.
Proof.
  induction s as [|x s IH]; cbn; [split; [discriminate|tauto]|].
  rewrite orb_true_iff, IH, Ascii.eqb_eq. tauto.
Qed.

Lemma has_byte_false c s : has_byte c s = false <-> ~ In c s.
Proof.
  rewrite <- has_byte_In. destruct (has_byte c s); split; intros; congruence.
Qed.

Lemma has_byte_app c s t : has_byte c (s ++ t) = has_byte c s || has_byte c t.
Proof. induction s; cbn; [reflexivity|]. now rewrite IHs, orb_assoc. Qed.

Lemma find_byte_none c s : find_byte c s = None <-> ~ In c s.
Proof.
  induction s as [|x s IH]; cbn; [tauto|].
  destruct (Ascii.eqb_spec x c) as [->|Hn].
  - split; [discriminate|]. intros H; exfalso; apply H; now left.
  - destruct (find_byte c s).
    + split; [discriminate|]. intros H. exfalso. apply H. right.
      destruct (in_dec ascii_dec c s) as [Hin|Hin]; [exact Hin|].
      apply IH in Hin. discriminate.
    + split; [|reflexivity]. intros _ [H|H]; [congruence|]. now apply IH in H.
Qed.

Lemma find_byte_some c s i :
  find_byte c s = Some i <->
  exists a b, s = a ++ c :: b /\ ~ In c a /\ length a = i.
Proof.
  revert i; induction s as [|x s IH]; intros i; cbn.
  - split; [discriminate|]. intros (a & b & H & _). destruct a; discriminate.
  - destruct (Ascii.eqb_spec x c) as [->|Hn].
    + split.
      * intros [= <-]. exists [], s. repeat split; cbn; tauto.
      * intros (a & b & H & Hni & Hl). destruct a as [|y a]; cbn in *; [congruence|].
        injection H as -> _. tauto.
    + split.
      * destruct (find_byte c s) as [k|] eqn:E; [|discriminate].
        intros [= <-]. destruct (proj1 (IH k) eq_refl) as (a & b & -> & Hni & Hl).
        exists (x :: a), b. cbn. repeat split; [intros [|]; tauto | congruence].
      * intros (a & b & H & Hni & Hl). destruct a as [|y a]; cbn in *; [congruence|].
        injection H as -> ->.
        assert (E : find_byte c (a ++ c :: b) = Some (length a)).
        { apply IH. exists a, b. repeat split; tauto. }
        rewrite E. congruence.
Qed.

Lemma find_byte_app_in c a b :
  ~ In c a -> find_byte c (a ++ c :: b) = Some (length a).
Proof. intros H. apply find_byte_some. exists a, b. tauto. Qed.

Lemma rfind_byte_none c s : rfind_byte c s = None <-> ~ In c s.
Proof.
  induction s as [|x s IH]; cbn; [tauto|].
  destruct (rfind_byte c s).
  - split; [discriminate|]. intros H. exfalso. apply H. right.
    destruct (in_dec ascii_dec c s) as [Hin|Hin]; [exact Hin|].
    apply IH in Hin. discriminate.
  - destruct (Ascii.eqb_spec x c) as [->|Hn].
    + split; [discriminate|]. intros H; exfalso; apply H; now left.
    + split; [|reflexivity]. intros _ [H|H]; [congruence|]. now apply IH in H.
Qed.

Lemma rfind_byte_some c s i :
  rfind_byte c s = Some i <->
  exists a b, s = a ++ c :: b /\ ~ In c b /\ length a = i.
Proof.
  revert i; induction s as [|x s IH]; intros i; cbn.
  - split; [discriminate|]. intros (a & b & H & _). destruct a; discriminate.
  - destruct (rfind_byte c s) as [k|] eqn:E.
    + split.
      * intros [= <-]. destruct (proj1 (IH k) eq_refl) as (a & b & -> & Hni & Hl).
        exists (x :: a), b. cbn. repeat split; [tauto | congruence].
      * intros (a & b & H & Hni & Hl). destruct a as [|y a]; cbn in *.
        -- injection H as -> ->. exfalso.
           apply rfind_byte_none in Hni. congruence.
        -- injection H as -> ->. destruct i as [|i]; [discriminate|]. injection Hl as Hl.
           f_equal. assert (Some k = Some i) as [= ->]; [|reflexivity].
           apply IH. exists a, b. tauto.
    + apply rfind_byte_none in E.
      destruct (Ascii.eqb_spec x c) as [->|Hn].
      * split.
        -- intros [= <-]. exists [], s. repeat split; tauto.
        -- intros (a & b & H & Hni & Hl). destruct a as [|y a]; cbn in *; [congruence|].
           injection H as -> ->. exfalso. apply E. apply in_or_app. right; now left.
      * split; [discriminate|].
        intros (a & b & H & Hni & Hl). destruct a as [|y a]; cbn in *; [congruence|].
        injection H as -> ->. exfalso. apply E. apply in_or_app. right; now left.
Qed.

Lemma rfind_byte_app_in c a b :
  ~ In c b -> rfind_byte c (a ++ c :: b) = Some (length a).
Proof. intros H. apply rfind_byte_some. exists a, b. tauto. Qed.

Lemma cstr_no_nul s : ~ In NUL s -> cstr s = s.
Proof.
  induction s as [|x s IH]; cbn; intros H; [reflexivity|].
  destruct (Ascii.eqb_spec x NUL) as [->|Hn]; [tauto|]. rewrite IH; tauto.
Qed.

Lemma cstr_app_nul s t : ~ In NUL s -> cstr (s ++ NUL :: t) = s.
Proof.
  induction s as [|x s IH]; cbn; intros H; [reflexivity|].
  destruct (Ascii.eqb_spec x NUL) as [->|Hn]; [tauto|]. rewrite IH; tauto.
Qed.

Lemma in_cstr c s : In c (cstr s) -> In c s /\ c <> NUL.
Proof.
  induction s as [|x s IH]; cbn; [tauto|].
  destruct (Ascii.eqb_spec x NUL) as [->|Hn]; cbn; [tauto|].
  intros [->|H]; [tauto|]. split; [right|]; now apply IH.
Qed.

Lemma cstr_nul_free s : ~ In NUL (cstr s).
Proof. intros H. now apply in_cstr in H. Qed.

Lemma cstr_idem s : cstr (cstr s) = cstr s.
Proof. apply cstr_no_nul, cstr_nul_free. Qed.

Lemma cstr_prefix s : exists t, s = cstr s ++ t.
Proof.
  induction s as [|x s [t IH]]; cbn; [now exists []|].
  destruct (Ascii.eqb_spec x NUL) as [->|Hn]; [now exists (NUL :: s)|].
  exists t. cbn. congruence.
Qed.

Lemma cstr_length s : length (cstr s) <= length s.
Proof.
  destruct (cstr_prefix s) as [t H]. rewrite H at 2. rewrite app_length. lia.
Qed.

Lemma caseeq_refl a : caseeq a a = true.
Proof. apply beq_refl. Qed.

Lemma last_byte_app s x : last_byte (s ++ [x]) = Some x.
Proof. unfold last_byte. now rewrite rev_app_distr. Qed.

Lemma last_byte_none s : last_byte s = None <-> s = [].
Proof.
  unfold last_byte. destruct s as [|x s]; [cbn; tauto|].
  destruct (rev (x :: s)) eqn:E; [|split; discriminate].
  apply (f_equal (@length ascii)) in E. rewrite rev_length in E. discriminate.
Qed.

Lemma last_byte_some s x : last_byte s = Some x <-> exists t, s = t ++ [x].
Proof.
  unfold last_byte. split.
  - destruct (rev s) as [|y r] eqn:E; [discriminate|]. intros [= ->].
    exists (rev r). rewrite <- (rev_involutive s), E. reflexivity.
  - intros [t ->]. now rewrite rev_app_distr.
Qed.

Lemma snprintf_fits n s : length s < n -> snprintf n s = s.
Proof. intros H. unfold snprintf. apply firstn_all2. lia. Qed.

Lemma repeat_snoc {A} (x : A) n : repeat x n ++ [x] = x :: repeat x n.
Proof. induction n; cbn; congruence. Qed.

Lemma firstn_app_exact {A} (a b : list A) : firstn (length a) (a ++ b) = a.
Proof. rewrite firstn_app, firstn_all, Nat.sub_diag. cbn. apply app_nil_r. Qed.

Lemma skipn_app_exact {A} (a b : list A) : skipn (length a) (a ++ b) = b.
Proof. rewrite skipn_app, skipn_all, Nat.sub_diag. reflexivity. Qed.
