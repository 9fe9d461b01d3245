From Coq Require Import Lia.
From Verif Require Import Base ParseModel WireModel SslModel SslSpec SslProofs ToolModel TlsModel QueueModel QueueSpec.

Lemma seen_app : forall rs rs2 q, seen q (rs ++ rs2) = seen q rs ++ seen (queued q rs) rs2.
Proof. induction rs as [|[b n w|c raised] rs IH]; intros; cbn [seen queued app]; [reflexivity| |]; now rewrite IH. Qed.
Lemma seen_length : forall rs q, length (seen q rs) = length rs.
Proof. induction rs as [|[b n w|c raised] rs IH]; intros; cbn [seen length]; [reflexivity| |]; now rewrite IH. Qed.
Lemma queued_app : forall rs rs2 q, queued q (rs ++ rs2) = queued (queued q rs) rs2.
Proof. induction rs as [|[b n w|c raised] rs IH]; intros; cbn [queued app]; [reflexivity| |]; now rewrite IH. Qed.

(** The result of a call, given the part of the readings that it uses. *)
Lemma read_message_used al q used rest m freed :
  ssl_read_message al (seen q (used ++ rest)) = Ok (m, freed, seen (queued q used) rest) ->
  read_message al q (used ++ rest) = Ok (m, queued q used, rest).
Proof.
  intros E. unfold read_message. rewrite E. cbn [bind].
  rewrite seen_length, app_length, Nat.add_sub, firstn_app, Nat.sub_diag, firstn_O, app_nil_r, firstn_all.
  rewrite skipn_app, skipn_all, Nat.sub_diag. reflexivity.
Qed.

Lemma delivers_seen r rs : Delivers r rs -> DeliversRecord r (seen [] rs) /\ queued [] rs = [].
Proof.
  induction 1 as [r rs D [I Q]|r rs D [I Q]|b Nb L|b r rs Nb Nr L D [I Q]]; cbn [seen queued app].
  - split; [apply DR_retry_read, I|apply Q].
  - split; [apply DR_retry_write, I|apply Q].
  - split; [apply DR_last; assumption|reflexivity].
  - split; [apply DR_piece; assumption|apply Q].
Qed.
Lemma record_read r rs tail : Delivers r rs -> read_message always [] (rs ++ tail) = Ok (MsgOk r, [], tail).
Proof.
  intros D. destruct (delivers_seen _ _ D) as [I Q]. pose proof (seen_app rs tail []) as E. rewrite Q in E.
  destruct (ssl_read_message_delivers r (seen [] rs) (seen [] tail) I) as [freed R]. rewrite <- E in R.
  pose proof (read_message_used always [] rs tail (MsgOk r) freed) as H. rewrite Q in H. exact (H R).
Qed.

(** Without interruptions the queue does not matter. *)
Definition data (x : reading) : Prop := match x with Data _ _ _ => True | Fails _ _ => False end.
Lemma data_seen rs : Forall data rs -> forall q, seen q rs = seen [] rs /\ queued q rs = q.
Proof.
  induction 1 as [|[b n w|c raised] rs Hx H IH]; intros q; cbn [seen queued]; [split; reflexivity| |destruct Hx].
  destruct (IH q) as [-> Q]. split; [reflexivity|exact Q].
Qed.
Lemma data_read r rs tail q : Delivers r rs -> Forall data rs -> read_message always q (rs ++ tail) = Ok (MsgOk r, q, tail).
Proof.
  intros D F. destruct (delivers_seen _ _ D) as [I _]. destruct (data_seen rs F q) as [S Q].
  pose proof (seen_app rs tail q) as E. rewrite Q, S in E.
  destruct (ssl_read_message_delivers r (seen [] rs) (seen q tail) I) as [freed R]. rewrite <- E in R.
  pose proof (read_message_used always q rs tail (MsgOk r) freed) as H. rewrite Q in H. exact (H R).
Qed.

(** A call that succeeds with an empty queue leaves it empty. *)
Lemma succeeds_empty al : forall rs buf freed m freed' rest,
  ssl_read al buf freed (seen [] rs) = Ok (MsgOk m, freed', rest) -> queued [] (firstn (length rs - length rest) rs) = [].
Proof.
  induction rs as [|[b n w|c raised] rs IH]; intros buf freed m freed' rest H; cbn [seen ssl_read] in H; [discriminate| |].
  - destruct (READ_CHUNK <? zlen b)%Z; [discriminate|]. destruct (_ <? _)%Z; [discriminate|]. destruct (al _); [|discriminate].
    destruct (w || negb (n =? 0)%Z) eqn:Hw.
    + pose proof (IH _ _ _ _ _ H) as Q. destruct (length rest) as [|k] eqn:Lr.
      * cbn [length]. rewrite Nat.sub_0_r in *. cbn [firstn queued]. exact Q.
      * cbn [length]. destruct (Nat.le_gt_cases (S k) (length rs)) as [Le|Gt].
        -- replace (S (length rs) - S k) with (S (length rs - S k)) by lia. cbn [firstn queued]. exact Q.
        -- replace (S (length rs) - S k) with (if Nat.eqb k (length rs) then 0 else 0) by (destruct (Nat.eqb k _); lia).
           destruct (Nat.eqb k (length rs)); reflexivity.
    + assert (rest = seen [] rs) as -> by congruence. rewrite seen_length. cbn [length].
      replace (S (length rs) - length rs) with 1 by lia. reflexivity.
  - cbn [app] in H. destruct raised as [|e raised].
    + assert (E : ssl_read al buf freed (seen [] rs) = Ok (MsgOk m, freed', rest) \/ c = Closed \/ c = Gone)
        by (destruct c; cbn in H; auto). 
      destruct E as [E|[-> | ->]]; [|discriminate H|discriminate H].
      pose proof (IH _ _ _ _ _ E) as Q. cbn [length].
      destruct (Nat.le_gt_cases (length rest) (length rs)) as [Le|Gt].
      * replace (S (length rs) - length rest) with (S (length rs - length rest)) by lia. cbn [firstn queued app]. exact Q.
      * replace (S (length rs) - length rest) with 0 by lia. reflexivity.
    + cbn [get_error] in H. destruct (e_sys e); discriminate H.
Qed.
Lemma read_one_empty al rs r q rest : read_one al [] rs = Ok (r, q, rest) -> q = [].
Proof.
  unfold read_one, read_message. unfold ssl_read_message. destruct (ssl_read al [] [] (seen [] rs)) as [[[m freed] rest']| |] eqn:E; try discriminate.
  cbn [bind]. destruct m as [b|c]; intros H; [|congruence].
  apply succeeds_empty in E. congruence.
Qed.
Lemma act_orderly a : Orderly a -> act [] a = [].
Proof.
  destruct a as [[|raised|before c raised shut|before]|raised|[[[|] raised]|]|al c rs]; cbn [Orderly act after_start]; intros H; subst; try reflexivity.
  unfold ask. destruct (read_one al [] rs) as [[[r q] rest]| |] eqn:E; cbn [bind]; try reflexivity.
  apply read_one_empty in E. subst. destruct (await al 0 c [r]) as [[[v e] l]| |]; reflexivity.
Qed.
Lemma after_orderly h : Forall Orderly h -> after h = [].
Proof. unfold after. induction 1 as [|a h Ha H IH]; cbn [fold_left]; [reflexivity|]. now rewrite act_orderly. Qed.

(** ** Failures *)

Lemma pieces_fail z : forall pre, Forall Piece pre -> forall q, FailsMidRecord (OTHER_ERROR z) (seen q pre ++ [RFail (OTHER_ERROR z)]).
Proof.
  induction 1 as [|[b n w|c raised] pre Hx H IH]; intros q; cbn [seen app]; [apply FM_now| |destruct Hx].
  destruct Hx as (L & N & ->). now apply FM_piece.
Qed.
Lemma pieces_data pre : Forall Piece pre -> Forall data pre.
Proof. intros H. eapply Forall_impl; [|exact H]. intros [b n w|c raised]; cbn; tauto. Qed.
Lemma fails_read pre c raised tail q z : Forall Piece pre -> code_of (get_error (q ++ raised) c) = OTHER_ERROR z ->
  read_message always q (pre ++ Fails c raised :: tail) = Ok (MsgErr (OTHER_ERROR z), q ++ raised, tail).
Proof.
  intros P Hc. destruct (data_seen pre (pieces_data pre P) q) as [_ Q].
  destruct (ssl_read_message_fails (OTHER_ERROR z) _ (seen (q ++ raised) tail) (pieces_fail z pre P q)) as [freed R].
  change (pre ++ Fails c raised :: tail) with (pre ++ [Fails c raised] ++ tail). rewrite app_assoc.
  pose proof (read_message_used always q (pre ++ [Fails c raised]) tail (MsgErr (OTHER_ERROR z)) freed) as H.
  rewrite queued_app in H. cbn [queued] in H. rewrite Q in H. rewrite seen_app, queued_app, seen_app in H. cbn [queued seen] in H. rewrite Q, Hc in H.
  exact (H R).
Qed.

Lemma error_string_last size code l r b : error_string size code (l ++ [r]) b = Some (snprintf size (error_name code ++ B ". reason: " ++ reason_text r)).
Proof. revert b. induction l as [|x l IH]; intros b; cbn [app error_string]; [reflexivity|apply IH]. Qed.

(** The error that is reported is the last one in the queue. *)
Lemma last_reported pre c raised tail q e q0 k : Forall Piece pre -> q ++ raised = q0 ++ [e] -> length (printed e) <= 4000 ->
  exists x, Reports x e /\ ask always k q (pre ++ Fails c raised :: tail) = Ok (None, Some x, [], tail).
Proof.
  intros P Hq L. remember (get_error (q ++ raised) c) as z eqn:Hz.
  assert (Z : z = 1%Z \/ z = 5%Z).
  { subst z. rewrite Hq. destruct q0 as [|e0 q0]; cbn [app get_error]; [destruct (e_sys e)|destruct (e_sys e0)]; auto. }
  assert (C : code_of z = OTHER_ERROR z) by (destruct Z; subst z; reflexivity || (rewrite H; reflexivity)).
  pose proof (fails_read pre c raised tail q z P) as R. rewrite <- Hz in R. specialize (R C).
  set (text := error_name z ++ B ". reason: " ++ printed e).
  assert (T : error_string ERROR_SIZE z (map e_reason (q ++ raised)) (Some []) = Some text).
  { rewrite Hq, map_app. cbn [map]. rewrite error_string_last. subst text. f_equal. change (reason_text (e_reason e)) with (printed e). unfold snprintf. apply firstn_all2.
     rewrite !app_length. change (length (B ". reason: ")) with 10.
    assert (length (error_name z) <= 20) by (destruct Z as [-> | ->]; cbn; lia).
    clear - L H. unfold ERROR_SIZE. apply Nat.le_trans with (20 + (10 + 4000)); [lia|]. apply Nat.leb_le. vm_compute. reflexivity. }
  exists (literal 1 1 (Some text)). split.
  - do 2 (split; [reflexivity|]). exists (error_name z). split; [destruct Z as [-> | ->]; auto|reflexivity].
  - unfold ask, read_one. rewrite R. cbn [bind]. rewrite T. destruct k; reflexivity.
Qed.

(** Nothing in the queue and nothing raised: the text is empty. *)
Lemma silent pre c tail k : Forall Piece pre -> c = Closed \/ c = Gone ->
  ask always k [] (pre ++ Fails c [] :: tail) = Ok (None, Some (literal 1 1 (Some [])), [], tail).
Proof.
  intros P C. unfold ask, read_one.
  destruct C as [-> | ->]; [rewrite (fails_read pre Closed [] tail [] 6%Z P eq_refl)|rewrite (fails_read pre Gone [] tail [] 5%Z P eq_refl)];
    cbn [bind app map error_string]; destruct k; reflexivity.
Qed.

(** What works leaves the queue alone. *)
Lemma act_works a q : Works a -> act q a = q.
Proof.
  destruct a as [[|raised|before c raised shut|before]|raised|[[[|] raised]|]|al c rs]; cbn [Works act after_start]; intros H; try (destruct H; fail); subst; try reflexivity.
  - apply app_nil_r.
  - destruct H as (-> & [r D] & F). unfold ask, read_one. pose proof (data_read r rs [] q D F) as R. rewrite app_nil_r in R. rewrite R.
    cbn [bind]. destruct (await always 0 c [RMsg r]) as [[[v e] l]| |]; reflexivity.
Qed.
Lemma after_works h2 : Forall Works h2 -> forall q, fold_left act h2 q = q.
Proof. induction 1 as [|a h Ha H IH]; intros q; cbn [fold_left]; [reflexivity|]. now rewrite act_works. Qed.
Lemma after_failed e h a h2 : Leaves e a -> Forall Works h2 -> exists q, after (h ++ a :: h2) = q ++ [e].
Proof.
  intros L H. unfold after. rewrite fold_left_app. cbn [fold_left]. rewrite (after_works h2 H).
  destruct L; cbn [act after_start]; eexists; rewrite ?app_assoc; reflexivity.
Qed.

(** The answer that was not read is taken for the answer to the next call. *)
Lemma next_yes g rs tail : Delivers (B "YES" ++ [LF]) rs -> ask always (Feature g) [] (rs ++ tail) = Ok (Some One, None, [], tail).
Proof. intros D. unfold ask, read_one. rewrite (record_read _ _ _ D). vm_compute. reflexivity. Qed.
