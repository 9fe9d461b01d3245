(** Proofs about the nesting of decryption. *)
From Verif Require Import Base BaseProofs WireModel CryptModel CryptSpec CbcProofs MaskProofs DemaskProofs CryptProofs NestModel NestSpec.

Lemma sep_app a b : separators (a ++ b) = separators a + separators b.
Proof. unfold separators. now rewrite filter_app, app_length. Qed.

Lemma last_slash_is s i : last_slash s = S i -> exists c, nth_error s (S i) = Some c /\ is_slash c = true.
Proof.
  revert i. induction s as [|x r IH]; intros i H; [discriminate|]. rewrite last_slash_cons in H.
  destruct (last_slash r) as [|j] eqn:L.
  - destruct r as [|y r]; [discriminate|]. destruct (is_slash y) eqn:Y; [|discriminate]. injection H as <-. exists y. now split.
  - injection H as <-. destruct (IH j eq_refl) as (c & N & C). exists c. now split.
Qed.

Lemma split_sep rel d b : split_path rel = (Some d, b) -> separators d + 1 <= separators rel.
Proof.
  unfold split_path. destruct (last_slash (firstn NAME_MAX rel)) as [|i] eqn:L; [discriminate|]. intros E.
  apply (f_equal (fun p => match fst p with Some x => x | None => d end)) in E. cbn beta iota delta [fst] in E. subst d.
  destruct (last_slash_is _ _ L) as (c & N & C).
  assert (N' : nth_error rel (S i) = Some c).
  { rewrite <- (firstn_skipn NAME_MAX rel). rewrite nth_error_app1; [exact N|]. apply nth_error_Some. congruence. }
  apply nth_error_split in N'. destruct N' as (l1 & l2 & -> & Ll). rewrite <- Ll. rewrite firstn_app, firstn_all, Nat.sub_diag. cbn [firstn].
  rewrite app_nil_r, sep_app. unfold separators at 3. cbn [filter]. unfold is_slash in C. rewrite C. cbn [length]. lia.
Qed.

Lemma decrypt_with_blocked pr K dm t rel file : decrypt_with pr K dm t rel file = Blocked -> dm t rel K = Blocked.
Proof.
  unfold decrypt_with. destruct (dm t rel K) as [[[flag t1] key]| |]; [|discriminate|reflexivity]. cbn [bind].
  destruct (_ <? BLOCK); [discriminate|]. destruct (_ <? 0)%Z; [discriminate|]. destruct (evp_decrypt _ _ _ _) as [out|]; [|discriminate].
  destruct (beq _ _); [|discriminate]. destruct (flag =? 0)%Z; [discriminate|]. destruct (_ <? 0)%Z; [discriminate|].
  unfold store_mask. destruct (_ <? 0)%Z; [discriminate|]. destruct (_ <=? _)%Z; [discriminate|]. destruct (find_mask _ _); discriminate.
Qed.

(** Room for two calls per directory is enough. *)
Lemma room_enough pr K disk basedir : forall n fuel t rel key, separators rel <= n -> 2 * n + 2 <= fuel ->
  demask_key fuel pr K disk basedir t rel key <> Blocked.
Proof.
  induction n as [|n IH]; intros fuel t rel key Sp Fu; (destruct fuel as [|[|f]]; [lia|lia|]); rewrite demask_S; cbn zeta;
    destruct (split_path rel) as [dir base] eqn:Sl; destruct dir as [d|].
  - pose proof (split_sep _ _ _ Sl). lia.
  - destruct (caseeq base PACKAGE_MOC); [discriminate|]. destruct (find_mask t [SLASH]); [discriminate|].
    destruct (_ <? _); [discriminate|].
    assert (A : forall key', demask_key (S f) pr K disk basedir t PACKAGE_MOC key' = Ok (1%Z, t, key')).
    { intros key'. rewrite demask_S. rewrite (split_top PACKAGE_MOC noslash_package). reflexivity. }
    destruct (disk _) as [c|]; [|rewrite A; discriminate].
    intros H. destruct (decrypt_with _ _ _ _ _ _) as [[[t1 res] out]| |] eqn:D; cbn [bind] in H.
    + destruct (0 <? res)%Z; discriminate.
    + discriminate.
    + apply decrypt_with_blocked in D. rewrite A in D. discriminate.
  - pose proof (split_sep _ _ _ Sl) as Sd.
    assert (D0 : forall fuel t key, 2 * n + 2 <= fuel -> demask_key fuel pr K disk basedir t d key <> Blocked) by (intros; apply IH; lia).
    destruct (caseeq base PACKAGE_MOC).
    { intros H. destruct (demask_key (S f) pr K disk basedir t d key) as [[[r t1] k1]| |] eqn:D; try discriminate.
      exact (D0 (S f) t key ltac:(lia) D). }
    destruct (find_mask t d); [discriminate|]. destruct (Nat.ltb_spec NAME_MAX (length d + 13)) as [|Ld]; [discriminate|].
    assert (Sk : split_path (d ++ B "/package.moc") = (Some d, PACKAGE_MOC)).
    { apply split_pkg; [apply (split_shorter _ _ _ Sl)|unfold NAME_MAX in Ld; lia]. }
    assert (A : forall key', demask_key (S f) pr K disk basedir t (d ++ B "/package.moc") key' <> Blocked).
    { intros key'. rewrite demask_S. cbn zeta. rewrite Sk. change (caseeq PACKAGE_MOC PACKAGE_MOC) with true. cbn iota. intros H.
      destruct (demask_key f pr K disk basedir t d key') as [[[r t1] k1]| |] eqn:D; try discriminate.
      exact (D0 f t key' ltac:(lia) D). }
    destruct (disk _) as [c|]; [|apply A].
    intros H. destruct (decrypt_with _ _ _ _ _ _) as [[[t1 res] out]| |] eqn:D; cbn [bind] in H.
    + destruct (0 <? res)%Z; discriminate.
    + discriminate.
    + apply decrypt_with_blocked in D. exact (A K D).
  - destruct (caseeq base PACKAGE_MOC); [discriminate|]. destruct (find_mask t [SLASH]); [discriminate|].
    destruct (_ <? _); [discriminate|].
    assert (A : forall key', demask_key (S f) pr K disk basedir t PACKAGE_MOC key' = Ok (1%Z, t, key')).
    { intros key'. rewrite demask_S. rewrite (split_top PACKAGE_MOC noslash_package). reflexivity. }
    destruct (disk _) as [c|]; [|rewrite A; discriminate].
    intros H. destruct (decrypt_with _ _ _ _ _ _) as [[[t1 res] out]| |] eqn:D; cbn [bind] in H.
    + destruct (0 <? res)%Z; discriminate.
    + discriminate.
    + apply decrypt_with_blocked in D. rewrite A in D. discriminate.
Qed.

(** With a mask at hand one frame is enough. *)
Lemma room_cached pr K disk basedir f t rel key m :
  caseeq (snd (split_path rel)) PACKAGE_MOC = false ->
  find_mask t (match fst (split_path rel) with Some d => d | None => [SLASH] end) = Some m ->
  demask_key (S f) pr K disk basedir t rel key = Ok (0%Z, t, xor key m).
Proof. intros C F. rewrite demask_S. cbn zeta. destruct (split_path rel) as [dir base]. cbn [fst snd] in *. now rewrite C, F. Qed.

(** Without masks at hand the calls are nested to the top. *)
Lemma room_needed pr K disk basedir : forall d, Forall Name d -> Forall (fun n => caseeq n PACKAGE_MOC = false) d ->
  forall n key0, n <> [] -> NoSlash n -> caseeq n PACKAGE_MOC = false -> length (path_of d n) <= 4000 ->
  demask_key (2 * length d + 1) pr K disk basedir [] (path_of d n) key0 = Blocked.
Proof.
  induction d as [|c d IH] using rev_ind; intros F Fc n key0 Nn Ns Cn L.
  - cbn [path_of length]. change (2 * 0 + 1) with 1. rewrite demask_S. cbn zeta. rewrite (split_top n Ns), Cn. cbn [find_mask].
    change (NAME_MAX <? 12) with false. cbn iota.
    destruct (disk _); reflexivity.
  - apply Forall_app in F. destruct F as [F Nc]. apply Forall_cons_iff in Nc. destruct Nc as [Nc _].
    apply Forall_app in Fc. destruct Fc as [Fc Cc]. apply Forall_cons_iff in Cc. destruct Cc as [Cc _].
    rewrite app_length. cbn [length]. replace (2 * (length d + 1) + 1) with (S (S (2 * length d + 1))) by lia.
    rewrite demask_S. cbn zeta. rewrite (split_deep d c n F Nc Ns) by lia. rewrite Cn. cbn [find_mask].
    assert (Lc : length (path_of d c) <= 3999) by (rewrite path_of_snoc, app_length in L; cbn [length] in L; lia).
    destruct (Nat.ltb_spec NAME_MAX (length (path_of d c) + 13)) as [|_]; [unfold NAME_MAX in *; lia|].
    assert (A : forall k, demask_key (S (2 * length d + 1)) pr K disk basedir [] (path_of d c ++ B "/package.moc") k = Blocked).
    { intros k. rewrite demask_S. cbn zeta. rewrite split_pkg; [|now apply path_of_nonempty|lia].
      change (caseeq PACKAGE_MOC PACKAGE_MOC) with true. cbn iota.
      rewrite (IH F Fc c k); [reflexivity|apply Nc|now apply name_noslash|exact Cc|lia]. }
    destruct (disk _) as [x|]; [|apply A]. unfold decrypt_with. rewrite A. reflexivity.
Qed.

Lemma dotted_path n name : dotted n name = path_of (repeat (B ".") n) name.
Proof. induction n as [|n IH]; [reflexivity|]. cbn [dotted repeat path_of]. rewrite IH. reflexivity. Qed.
Lemma dotted_length n name : length (dotted n name) = 2 * n + length name.
Proof. induction n as [|n IH]; [reflexivity|]. cbn [dotted]. rewrite app_length, IH. cbn [length B list_ascii_of_string]. change (length (B "./")) with 2. lia. Qed.
Lemma name_dot : Name (B ".").
Proof. split; [discriminate|]. split; [|split]; intros [H|[]]; discriminate. Qed.

Lemma noslash_sep s : NoSlash s -> separators s = 0.
Proof.
  unfold separators. induction s as [|c s IH]; intros H; [reflexivity|]. apply noslash_char in H. destruct H as [C H]. cbn [filter].
  unfold is_slash in C. rewrite C. now apply IH.
Qed.
Lemma sep_path d n : Forall Name d -> Name n -> separators (path_of d n) = length d.
Proof.
  intros F N. induction F as [|c d Nc _ IH]; cbn [path_of length]; [now apply noslash_sep, name_noslash|].
  rewrite !sep_app, IH, (noslash_sep c) by now apply name_noslash. reflexivity.
Qed.
