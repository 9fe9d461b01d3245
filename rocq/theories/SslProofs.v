(** Proofs about the TLS loops. *)
From Verif Require Import Base BaseProofs WireModel WireSpec WireProofs SslModel SslSpec.

Lemma ssl_read_delivers r evs tail buf freed :
  DeliversRecord r evs ->
  exists freed', ssl_read always buf freed (evs ++ tail) = Ok (MsgOk (buf ++ r), freed', tail).
Proof.
  intros H. revert buf freed.
  induction H as [r evs H IH|r evs H IH|b Hb Hl|b r evs Hb Hr Hl H IH]; intros buf freed; cbn [app].
  - cbn [ssl_read]. apply IH.
  - cbn [ssl_read]. apply IH.
  - cbn [ssl_read]. destruct (Z.ltb_spec READ_CHUNK (zlen b)); [lia|].
    destruct (Z.ltb_spec (zlen buf + zlen b + 0) (zlen buf + zlen b)); [lia|].
    cbn [always orb negb Z.eqb]. eauto.
  - cbn [ssl_read]. destruct (Z.ltb_spec READ_CHUNK (zlen b)); [lia|].
    pose proof (zlen_pos r Hr).
    destruct (Z.ltb_spec (zlen buf + zlen b + zlen r) (zlen buf + zlen b)); [lia|].
    cbn [always orb]. destruct (Z.eqb_spec (zlen r) 0); [lia|]. cbn [negb].
    rewrite app_assoc. apply IH.
Qed.

Lemma ssl_read_message_delivers r evs tail :
  DeliversRecord r evs ->
  exists freed, ssl_read_message always (evs ++ tail) = Ok (MsgOk r, freed, tail).
Proof. intros H. apply (ssl_read_delivers r evs tail [] [] H). Qed.

Lemma ssl_read_fails c evs tail buf freed :
  FailsMidRecord c evs ->
  exists freed', ssl_read always buf freed (evs ++ tail) = Ok (MsgErr c, freed', tail).
Proof.
  intros H. revert buf freed.
  induction H as [c evs H IH|c evs H IH|z|c b n evs Hl Hn H IH]; intros buf freed; cbn [app ssl_read].
  - apply IH.
  - apply IH.
  - eauto.
  - destruct (Z.ltb_spec READ_CHUNK (zlen b)); [lia|].
    destruct (Z.ltb_spec (zlen buf + zlen b + n) (zlen buf + zlen b)); [lia|].
    cbn [always orb]. destruct (Z.eqb_spec n 0); [lia|]. cbn [negb]. apply IH.
Qed.

Lemma ssl_read_message_fails c evs tail :
  FailsMidRecord c evs ->
  exists freed, ssl_read_message always (evs ++ tail) = Ok (MsgErr c, freed, tail).
Proof. intros H. apply (ssl_read_fails c evs tail [] [] H). Qed.

(** For every behaviour of the library, a returned message is exactly the bytes
    handed out during the call, and the call stopped because nothing is pending. *)
Lemma ssl_read_any al buf freed evs m freed' rest :
  ssl_read al buf freed evs = Ok (MsgOk m, freed', rest) ->
  exists used, evs = used ++ rest /\ m = buf ++ handed_out used /\
    exists u b, used = u ++ [RData b 0 false].
Proof.
  revert buf freed; induction evs as [|e evs IH]; intros buf freed H; cbn [ssl_read] in H; [discriminate|].
  destruct e as [b n w|c].
  - destruct (READ_CHUNK <? zlen b)%Z; [discriminate|].
    destruct (_ <? _)%Z; [discriminate|].
    destruct (al _); [|discriminate].
    destruct (w || negb (n =? 0)%Z) eqn:K.
    + apply IH in H as (used & -> & -> & u & b0 & ->). exists (RData b n w :: u ++ [RData b0 0 false]).
      repeat split.
      * unfold handed_out. cbn [map concat]. now rewrite app_assoc.
      * exists (RData b n w :: u), b0. reflexivity.
    + injection H as <- <- <-. apply orb_false_iff in K as [-> K]. apply negb_false_iff, Z.eqb_eq in K.
      subst n. exists [RData b 0 false]. repeat split.
      * unfold handed_out. cbn. now rewrite app_nil_r.
      * exists [], b. reflexivity.
  - assert (K : (exists f, ssl_read al buf f evs = Ok (MsgOk m, freed', rest)) \/ False).
    { destruct c; [left; eauto|left; eauto|discriminate]. }
    destruct K as [[f K]|[]]. apply IH in K as (used & -> & -> & u & b0 & ->).
    exists (RFail c :: u ++ [RData b0 0 false]). repeat split. exists (RFail c :: u), b0. reflexivity.
Qed.

Lemma ssl_read_message_any al evs m freed rest :
  ssl_read_message al evs = Ok (MsgOk m, freed, rest) ->
  exists used, evs = used ++ rest /\ m = handed_out used.
Proof.
  intros H. apply ssl_read_any in H as (used & -> & -> & _). exists used. tauto.
Qed.

(** Memory safety of the loop for a library that respects the requested size and
    reports non-negative counts. *)
Lemma ssl_read_safe al buf freed evs r :
  (forall b n w, In (RData b n w) evs -> (zlen b <= READ_CHUNK)%Z /\ (0 <= n)%Z) ->
  ssl_read al buf freed evs <> UB r.
Proof.
  revert buf freed; induction evs as [|e evs IH]; intros buf freed H; cbn [ssl_read]; [discriminate|].
  assert (H' : forall b n w, In (RData b n w) evs -> (zlen b <= READ_CHUNK)%Z /\ (0 <= n)%Z)
    by (intros b n w Hin; apply (H b n w); now right).
  destruct e as [b n w|c].
  - destruct (H b n w (or_introl eq_refl)) as [H1 H2].
    destruct (Z.ltb_spec READ_CHUNK (zlen b)); [lia|].
    destruct (Z.ltb_spec (zlen buf + zlen b + n) (zlen buf + zlen b)); [lia|].
    destruct (al _); [|discriminate]. destruct (w || _); [apply IH; exact H'|discriminate].
  - destruct c; try (apply IH; exact H'). discriminate.
Qed.

Lemma ssl_read_message_safe al evs r :
  (forall b n w, In (RData b n w) evs -> (zlen b <= READ_CHUNK)%Z /\ (0 <= n)%Z) ->
  ssl_read_message al evs <> UB r.
Proof. apply ssl_read_safe. Qed.

(** ** writing *)

Lemma to_int_small z : (0 <= z < 2^31)%Z -> to_int z = z.
Proof.
  intros H. unfold to_int. rewrite Z.mod_small by lia.
  destruct (Z.ltb_spec z (2^31)); lia.
Qed.

Lemma ssl_write_retries len calls k e tail :
  (0 <= len < 2^31)%Z ->
  ssl_write len calls (retries_then k e ++ tail) =
  match e with
  | WDone n => Ok (n, calls ++ repeat len (S k), tail)
  | WZero | WFail WANT_READ | WFail (OTHER_ERROR _) => Ok ((-1)%Z, calls ++ repeat len (S k), tail)
  | WFail WANT_WRITE => ssl_write len (calls ++ repeat len (S k)) tail
  end.
Proof.
  intros H. revert calls. induction k as [|k IH]; intros calls; unfold retries_then.
  - cbn [repeat app ssl_write]. rewrite to_int_small by exact H. destruct e as [n| |[| |z]]; reflexivity.
  - cbn [repeat app ssl_write]. rewrite to_int_small by exact H.
    fold (retries_then k e). rewrite (IH (calls ++ [len])).
    replace ((calls ++ [len]) ++ repeat len (S k)) with (calls ++ repeat len (S (S k)))
      by (rewrite <- app_assoc; reflexivity).
    reflexivity.
Qed.

(** Every run of the write loop: the calls made, all with the same arguments, and
    the result determined by the last answer of the library. *)
Lemma ssl_write_any len calls evs r cs rest :
  ssl_write len calls evs = Ok (r, cs, rest) ->
  exists k e, evs = retries_then k e ++ rest /\ cs = calls ++ repeat (to_int len) (S k) /\
    ((exists n, e = WDone n /\ r = n) \/
     (r = (-1)%Z /\ (e = WZero \/ exists c, e = WFail c /\ c <> WANT_WRITE))).
Proof.
  revert calls; induction evs as [|e evs IH]; intros calls H; cbn [ssl_write] in H; [discriminate|].
  assert (Base : forall e0 r0, Ok (r0, calls ++ [to_int len], evs) = Ok (r, cs, rest) ->
     ((exists n, e0 = WDone n /\ r0 = n) \/
      (r0 = (-1)%Z /\ (e0 = WZero \/ exists c, e0 = WFail c /\ c <> WANT_WRITE))) ->
     e = e0 ->
     exists k e1, e :: evs = retries_then k e1 ++ rest /\ cs = calls ++ repeat (to_int len) (S k) /\
    ((exists n, e1 = WDone n /\ r = n) \/
     (r = (-1)%Z /\ (e1 = WZero \/ exists c, e1 = WFail c /\ c <> WANT_WRITE)))).
  { intros e0 r0 [= <- <- <-] HH ->. exists 0, e0. repeat split; auto. }
  destruct e as [n| |[| |z]].
  - apply (Base (WDone n) n H); eauto.
  - apply (Base WZero (-1)%Z H); eauto.
  - apply (Base (WFail WANT_READ) (-1)%Z H); auto. right. split; [reflexivity|]. right.
    eexists. split; [reflexivity|discriminate].
  - apply IH in H as (k & e1 & -> & -> & HH). exists (S k), e1. repeat split; auto.
    rewrite <- app_assoc. reflexivity.
  - apply (Base (WFail (OTHER_ERROR z)) (-1)%Z H); auto. right. split; [reflexivity|]. right.
    eexists. split; [reflexivity|discriminate].
Qed.

Lemma ssl_write_message_done m k n tail :
  (zlen m < 2^31)%Z ->
  ssl_write_message m (retries_then k (WDone n) ++ tail) = Ok (n, repeat (zlen m) (S k), tail).
Proof.
  intros H. unfold ssl_write_message. rewrite ssl_write_retries; [reflexivity|].
  split; [apply zlen_nonneg|exact H].
Qed.

Lemma ssl_write_message_failed m k e tail :
  (zlen m < 2^31)%Z -> e = WZero \/ (exists c, e = WFail c /\ c <> WANT_WRITE) ->
  ssl_write_message m (retries_then k e ++ tail) = Ok ((-1)%Z, repeat (zlen m) (S k), tail).
Proof.
  intros H He. unfold ssl_write_message.
  rewrite ssl_write_retries by (split; [apply zlen_nonneg|exact H]).
  destruct He as [->|(c & -> & Hc)]; [reflexivity|]. destruct c; [reflexivity|congruence|reflexivity].
Qed.

Lemma ssl_write_message_any m evs r cs rest :
  (zlen m < 2^31)%Z ->
  ssl_write_message m evs = Ok (r, cs, rest) ->
  exists k e, evs = retries_then k e ++ rest /\ cs = repeat (zlen m) (S k) /\
    ((exists n, e = WDone n /\ r = n) \/
     (r = (-1)%Z /\ (e = WZero \/ exists c, e = WFail c /\ c <> WANT_WRITE))).
Proof.
  intros H K. apply ssl_write_any in K as (k & e & -> & -> & HH). exists k, e.
  rewrite to_int_small by (split; [apply zlen_nonneg|exact H]). auto.
Qed.

(** ** Freed buffers *)

(** The buffers that are outgrown while [ps] are added to [buf]. *)
Fixpoint outgrown (buf : bytes) (ps : list bytes) : list bytes :=
  match ps with
  | [] => []
  | p :: ps' => match buf with [] => [] | _ => [buf] end ++ outgrown (buf ++ p) ps'
  end.

Lemma ssl_read_freed r evs tail buf freed :
  DeliversRecord r evs ->
  ssl_read always buf freed (evs ++ tail) = Ok (MsgOk (buf ++ r), freed ++ outgrown buf (pieces evs), tail).
Proof.
  intros H. revert buf freed.
  induction H as [r evs H IH|r evs H IH|b Hb Hl|b r evs Hb Hr Hl H IH]; intros buf freed; cbn [app].
  - cbn [ssl_read]. apply IH.
  - cbn [ssl_read]. apply IH.
  - cbn [ssl_read]. destruct (Z.ltb_spec READ_CHUNK (zlen b)); [lia|].
    destruct (Z.ltb_spec (zlen buf + zlen b + 0) (zlen buf + zlen b)); [lia|].
    cbn [always orb negb Z.eqb pieces flat_map app outgrown]. rewrite app_nil_r. destruct buf; [now rewrite app_nil_r|reflexivity].
  - cbn [ssl_read]. destruct (Z.ltb_spec READ_CHUNK (zlen b)); [lia|].
    pose proof (zlen_pos r Hr).
    destruct (Z.ltb_spec (zlen buf + zlen b + zlen r) (zlen buf + zlen b)); [lia|].
    cbn [always orb]. destruct (Z.eqb_spec (zlen r) 0); [lia|]. cbn [negb].
    rewrite app_assoc. change (pieces (RData b (zlen r) false :: evs)) with (b :: pieces evs). cbn [outgrown].
    rewrite IH. f_equal. f_equal. f_equal. destruct buf; [reflexivity|now rewrite <- app_assoc].
Qed.

Lemma pieces_of r evs : DeliversRecord r evs -> concat (pieces evs) = r /\ Forall (fun p => p <> [] /\ (zlen p <= READ_CHUNK)%Z) (pieces evs).
Proof.
  intros H. induction H as [r evs H IH|r evs H IH|b Hb Hl|b r evs Hb Hr Hl H [IH1 IH2]]; [exact IH|exact IH| |].
  - cbn. rewrite app_nil_r. split; [reflexivity|]. apply Forall_cons; [now split|apply Forall_nil].
  - change (pieces (RData b (zlen r) false :: evs)) with (b :: pieces evs). cbn [concat]. rewrite IH1. split; [reflexivity|].
    apply Forall_cons; [now split|exact IH2].
Qed.

Lemma outgrown_all buf ps p : buf <> [] \/ ps <> [] -> Forall (fun q => q <> []) ps -> In (buf ++ concat ps) (outgrown buf (ps ++ [p])).
Proof.
  revert buf. induction ps as [|q ps IH]; intros buf Ne F; cbn [app outgrown concat].
  - rewrite app_nil_r. destruct Ne as [Ne|Ne]; [|contradiction]. destruct buf; [contradiction|]. now left.
  - apply in_or_app. right. rewrite app_assoc. apply IH; [|now apply Forall_inv_tail in F].
    left. apply Forall_inv in F. destruct buf; [exact F|discriminate].
Qed.

Lemma ssl_read_message_one r evs tail :
  DeliversRecord r evs -> length (pieces evs) = 1 -> ssl_read_message always (evs ++ tail) = Ok (MsgOk r, [], tail).
Proof.
  intros H L. unfold ssl_read_message. rewrite (ssl_read_freed r evs tail [] [] H). cbn [app].
  destruct (pieces evs) as [|p [|q ps]]; [discriminate|reflexivity|discriminate].
Qed.

Lemma ssl_read_message_left r evs tail :
  DeliversRecord r evs -> 2 <= length (pieces evs) ->
  exists freed ps p, ssl_read_message always (evs ++ tail) = Ok (MsgOk r, freed, tail) /\
    pieces evs = ps ++ [p] /\ concat ps <> [] /\ In (concat ps) freed.
Proof.
  intros H L. exists (outgrown [] (pieces evs)). destruct (pieces_of r evs H) as [_ F].
  destruct (exists_last (l := pieces evs)) as (ps & p & E); [intros X; rewrite X in L; cbn in L; lia|].
  exists ps, p. split; [exact (ssl_read_freed r evs tail [] [] H)|]. split; [exact E|].
  rewrite E in F, L |- *. apply Forall_app in F as [F _]. rewrite app_length in L. cbn [length] in L.
  destruct ps as [|q ps]; [cbn in L; lia|]. split.
  - apply Forall_inv in F. cbn [concat]. destruct q; [now destruct F|discriminate].
  - apply (outgrown_all [] (q :: ps) p); [right; discriminate|]. revert F. apply Forall_impl. tauto.
Qed.

Lemma long_in_pieces r evs : DeliversRecord r evs -> (READ_CHUNK < zlen r)%Z -> 2 <= length (pieces evs).
Proof.
  intros H L. destruct (pieces_of r evs H) as [E F]. destruct (pieces evs) as [|p [|q ps]]; cbn [length]; [|exfalso|lia].
  - exfalso. cbn in E. subst r. unfold READ_CHUNK in L. cbn in L. lia.
  - cbn in E. rewrite app_nil_r in E. subst p. apply Forall_inv in F. lia.
Qed.
