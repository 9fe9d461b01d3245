(** The LVE's handlers and its loop as triples over held memory. *)
From Coq Require Import Permutation.
From Verif Require Import Base ParseModel ParseSpec ParseProofs WireModel SslModel LveModel LveSpec LveProofs
  MemModel MemSpec MemProofs.

(** ** what the context holds *)

Definition text_res (p : text_ptr) : list res := match p with OnHeap r => [r] | _ => [] end.
Definition Q (q : ptrs) : list res :=
  olist (q_lib q) ++ olist (q_cr q) ++ olist (q_lic q) ++ text_res (q_err q).
Definition elist (e : option err_ptr) : list res := match e with Some (o, t) => [o; t] | None => [] end.
Definition Blocks (l : list res) : Prop := forall r, In r l -> exists n, r = Block n.

Lemma olist_le {A} (p : option A) : length (olist p) <= 1.
Proof. destruct p; cbn; lia. Qed.
Lemma text_le p : length (text_res p) <= 1.
Proof. destruct p; cbn; lia. Qed.
Lemma Q_le q : length (Q q) <= 4.
Proof.
  unfold Q. rewrite !app_length. pose proof (olist_le (q_lib q)). pose proof (olist_le (q_cr q)).
  pose proof (olist_le (q_lic q)). pose proof (text_le (q_err q)). lia.
Qed.
Lemma in_lib q r : q_lib q = Some r -> In r (Q q).
Proof. intros E. unfold Q. rewrite E. now left. Qed.
Lemma in_cr q r : q_cr q = Some r -> In r (Q q).
Proof. intros E. unfold Q. rewrite E. rewrite !in_app_iff. right. left. now left. Qed.
Lemma in_lic q r : q_lic q = Some r -> In r (Q q).
Proof. intros E. unfold Q. rewrite E. rewrite !in_app_iff. right. right. left. now left. Qed.
Lemma in_err q r : q_err q = OnHeap r -> In r (Q q).
Proof. intros E. unfold Q. rewrite E. rewrite !in_app_iff. right. right. right. now left. Qed.

(** ** more rules *)

Lemma mt_do_use {C} k pre p (f : unit -> T C) post :
  (forall r, p = Some r -> In r pre) -> length pre <= k -> mt k pre (f tt) post ->
  mt k pre (tbind (touch p) f) post.
Proof.
  intros I K H. destruct p as [r|].
  - destruct (in_split r pre (I r eq_refl)) as (l1 & l2 & ->).
    apply (mt_do_touch _ _ _ (l1 ++ l2)); auto. cbn. apply Permutation_sym, Permutation_middle.
  - apply (mt_do_touch _ _ _ pre); auto.
Qed.
Lemma mt_do_send {C} k pre al d (f : unit -> T C) post : length pre < k ->
  mt k pre (f tt) post -> mt k pre (tbind (m_send_length al d) f) post.
Proof.
  intros K H. unfold m_send_length. apply mt_assoc.
  apply mt_do_malloc; [exact K| |].
  - intros n _. apply mt_assoc. apply mt_do_use; [intros r [= <-]; now left|cbn; lia|].
    apply (mt_do_release _ _ _ pre); [cbn; reflexivity|cbn; lia|exact H].
  - intros _. apply mt_assoc. apply mt_do_use; [discriminate|lia|].
    apply (mt_do_release _ _ _ pre); [cbn; reflexivity|lia|exact H].
Qed.
Lemma mt_do_send_error {C} k pre al d (f : unit -> T C) post : length pre < k ->
  mt k pre (f tt) post -> mt k pre (tbind (m_send_error al d) f) post.
Proof.
  intros K H. unfold m_send_error. destruct d as [d|]; [|apply mt_skip, H]. apply mt_assoc.
  apply mt_do_malloc; [exact K| |].
  - intros n _. apply mt_assoc. apply mt_do_use; [intros r [= <-]; now left|cbn; lia|].
    apply (mt_do_release _ _ _ pre); [cbn; reflexivity|cbn; lia|exact H].
  - intros _. apply mt_assoc. apply mt_do_use; [discriminate|lia|].
    apply (mt_do_release _ _ _ pre); [cbn; reflexivity|lia|exact H].
Qed.
Lemma mt_do_text {C} k pre x rest (f : unit -> T C) post :
  Permutation pre (elist x ++ rest) -> length pre <= k ->
  mt k pre (f tt) post -> mt k pre (tbind (m_error_text x) f) post.
Proof.
  intros E K H. destruct x as [[a b]|]; [|apply mt_skip, H]. cbn in E.
  assert (Ha : In a pre) by (apply (Permutation_in _ (Permutation_sym E)); now left).
  assert (Hb : In b pre) by (apply (Permutation_in _ (Permutation_sym E)); right; now left).
  apply mt_assoc. apply mt_do_use; [intros r [= <-]; exact Ha|exact K|].
  apply mt_do_use; [intros r [= <-]; exact Hb|exact K|exact H].
Qed.
Lemma mt_do_error_free {C} k pre x rest (f : unit -> T C) post :
  Permutation pre (elist x ++ rest) -> length pre <= k ->
  mt k rest (f tt) post -> mt k pre (tbind (m_error_free x) f) post.
Proof.
  intros E K H. destruct x as [[a b]|].
  - cbn in E. apply mt_assoc. apply mt_do_use; [|exact K|].
    { intros r [= <-]. apply (Permutation_in _ (Permutation_sym E)). now left. }
    pose proof (Permutation_length E) as EL. cbn in EL.
    apply mt_assoc. apply (mt_do_release _ _ _ (a :: rest)); [|exact K|].
    + cbn. eapply perm_trans; [exact E|apply perm_swap].
    + apply (mt_do_release _ _ _ rest); [reflexivity|cbn; lia|exact H].
  - cbn in *. apply mt_skip. apply (mt_perm _ _ _ _ _ E H).
Qed.
Lemma mt_do_refusal {C} k pre t (f : option err_ptr -> T C) post : S (length pre) < k ->
  (forall x, Blocks (elist x) -> mt k (elist x ++ pre) (f x) post) ->
  mt k pre (tbind (m_refusal t) f) post.
Proof.
  intros K H. unfold m_refusal. destruct t.
  - apply mt_assoc. apply mt_do_error; [exact K|]. intros n. apply mt_skip.
    apply (H (Some (Block n, Block (S n)))). intros r [<-|[<-|[]]]; eexists; reflexivity.
  - apply mt_skip. apply (H None). intros r [].
Qed.

Ltac len := repeat rewrite app_length in *; cbn [length olist elist app] in *;
  repeat match goal with
  | |- context[Q ?q] => lazymatch goal with H : length (Q q) <= 4 |- _ => fail | _ => pose proof (Q_le q) end
  end; lia.

(** ** licensing *)

Definition same_but_lic (q q1 : ptrs) : Prop :=
  q_lib q1 = q_lib q /\ q_cr q1 = q_cr q /\ q_err q1 = q_err q.

Lemma Q_lic q p : q_lic q = None -> Permutation (olist p ++ Q q) (Q (with_lic q p)).
Proof. intros E. unfold Q. cbn. rewrite E. perm. Qed.
Lemma Q_nolic_le q : q_lic q = None -> length (Q q) <= 3.
Proof.
  intros E. unfold Q. rewrite E, !app_length. cbn. pose proof (olist_le (q_lib q)).
  pose proof (olist_le (q_cr q)). pose proof (text_le (q_err q)). lia.
Qed.
Lemma Blocks_perm l l' : Permutation l l' -> Blocks l -> Blocks l'.
Proof. intros H B r Hr. apply B. apply (Permutation_in _ (Permutation_sym H) Hr). Qed.
Lemma Blocks_cons n l : Blocks l -> Blocks (Block n :: l).
Proof. intros H r [<-|Hr]; [eexists; reflexivity|apply H, Hr]. Qed.
Lemma Blocks_app l1 l2 : Blocks (l1 ++ l2) <-> Blocks l1 /\ Blocks l2.
Proof.
  split.
  - intros H. split; intros r Hr; apply H, in_or_app; auto.
  - intros [H1 H2] r Hr. apply in_app_or in Hr as [Hr|Hr]; auto.
Qed.

Lemma mt_setup {D} (e : env D) s q : Blocks (Q q) ->
  mt 5 (Q q) (m_setup e s q) (fun '(q1, ok, x) o =>
    o = elist x ++ Q q1 /\ Blocks o /\ (ok = true -> x = None) /\ length o <= 5 /\ same_but_lic q q1).
Proof.
  intros BQ. unfold m_setup. pose proof (Q_le q) as L4. destruct (q_lic q) as [p|] eqn:EL.
  - apply (mt_ret _ _ _ _ (Q q)); [lia|reflexivity|]. cbn. repeat split; auto.
  - pose proof (Q_nolic_le q EL) as L3. apply mt_do_use; [intros r; apply in_lib|lia|].
    destruct (e_lic_new e _) as [|t].
    + apply mt_do_malloc; [lia| |discriminate]. intros n _.
      pose proof (Q_lic q (Some (Block n)) EL) as PL. cbn in PL.
      apply (mt_ret _ _ _ _ (Q (with_lic q (Some (Block n))))); [cbn; lia|exact PL|].
      cbn [elist app]. split; [reflexivity|]. split; [apply (Blocks_perm _ _ PL), Blocks_cons, BQ|].
      split; [reflexivity|]. split; [len|]. repeat split.
    + apply mt_do_refusal; [lia|]. intros x Bx.
      assert (LX : length (elist x ++ Q q) <= 5) by (rewrite app_length; destruct x as [[a b]|]; cbn; lia).
      apply (mt_ret _ _ _ _ (elist x ++ Q q)); [exact LX|reflexivity|].
      split; [reflexivity|]. split; [apply Blocks_app; auto|]. split; [discriminate|]. split; [exact LX|].
      repeat split.
Qed.

Lemma mt_setup_check {D} (e : env D) s q : Blocks (Q q) ->
  mt 6 (Q q) (m_setup_check e s q) (fun '(q1, ok) o => o = Q q1 /\ Blocks o /\ same_but_lic q q1).
Proof.
  intros BQ. unfold m_setup_check. pose proof (Q_le q) as L4.
  apply (mt_call _ 5 _ (Q q) [] _ _ _ _ (mt_setup e s q BQ)); [rewrite app_nil_r; reflexivity|cbn; lia|].
  intros [[q1 ok] x] o (-> & Bo & Hx & Lo & Sq). rewrite app_nil_r. apply Blocks_app in Bo as [Bx B1].
  destruct ok.
  - rewrite (Hx eq_refl) in *. apply (mt_ret _ _ _ _ (Q q1)); [cbn; len|reflexivity|auto].
  - apply (mt_do_text _ _ x (Q q1)); [reflexivity|lia|].
    apply mt_do_send_error; [lia|].
    apply (mt_do_error_free _ _ x (Q q1)); [reflexivity|lia|].
    apply (mt_ret _ _ _ _ (Q q1)); [len|reflexivity|auto].
Qed.

Definition kept (q q1 : ptrs) (d : option res) (o : list res) : Prop :=
  o = olist d ++ Q q1 /\ Blocks (Q q1) /\ same_but_lic q q1.

Lemma same_refl q : same_but_lic q q.
Proof. repeat split. Qed.

Lemma mt_feature {D} (e : env D) s q data d : Blocks (Q q) ->
  mt 8 (olist d ++ Q q) (m_feature e s q data d) (fun q1 o => kept q q1 d o).
Proof.
  intros BQ. unfold m_feature. pose proof (Q_le q) as L4. pose proof (olist_le d) as Ld.
  apply (mt_call _ 6 _ (Q q) (olist d) _ _ _ _ (mt_setup_check e s q BQ)); [apply Permutation_app_comm|lia|].
  intros [q1 ok] o (-> & B1 & Sq). pose proof (Q_le q1) as L41.
  assert (L5 : length (Q q1 ++ olist d) <= 5) by (rewrite app_length; lia).
  assert (Fin : mt 8 (Q q1 ++ olist d) (tret q1) (fun q1 o => kept q q1 d o)).
  { apply (mt_ret _ _ _ _ (olist d ++ Q q1)); [lia|apply Permutation_app_comm|]. repeat split; auto; apply Sq. }
  destruct ok; [|exact Fin].
  apply mt_do_use; [intros r Hr; apply in_or_app; left; now apply in_lic|lia|].
  apply mt_do_use; [intros r ->; apply in_or_app; right; now left|lia|].
  destruct (e_checkout e _) as [|t]; [exact Fin|].
  apply mt_do_refusal; [lia|]. intros x Bx.
  assert (Lx : length (elist x ++ Q q1 ++ olist d) <= 7) by (rewrite app_length; destruct x as [[a b]|]; cbn; lia).
  apply (mt_do_text _ _ x (Q q1 ++ olist d)); [reflexivity|lia|].
  assert (Rest : mt 8 (elist x ++ Q q1 ++ olist d) (take _ <- m_error_free x ; tret q1) (fun q1 o => kept q q1 d o)).
  { apply (mt_do_error_free _ _ x (Q q1 ++ olist d)); [reflexivity|lia|exact Fin]. }
  destruct t as [m|].
  - apply mt_do_send; [lia|exact Rest].
  - apply mt_skip, Rest.
Qed.

Lemma mt_returnfeature {D} (e : env D) s q data d : Blocks (Q q) ->
  mt 8 (olist d ++ Q q) (m_returnfeature e s q data d) (fun q1 o => kept q q1 d o).
Proof.
  intros BQ. unfold m_returnfeature. pose proof (Q_le q) as L4. pose proof (olist_le d) as Ld.
  apply (mt_call _ 6 _ (Q q) (olist d) _ _ _ _ (mt_setup_check e s q BQ)); [apply Permutation_app_comm|lia|].
  intros [q1 ok] o (-> & B1 & Sq). pose proof (Q_le q1) as L41.
  assert (L5 : length (Q q1 ++ olist d) <= 5) by (rewrite app_length; lia).
  assert (Fin : mt 8 (Q q1 ++ olist d) (tret q1) (fun q1 o => kept q q1 d o)).
  { apply (mt_ret _ _ _ _ (olist d ++ Q q1)); [lia|apply Permutation_app_comm|]. repeat split; auto; apply Sq. }
  destruct ok; [|exact Fin].
  apply mt_do_use; [intros r Hr; apply in_or_app; left; now apply in_lic|lia|].
  apply mt_do_use; [intros r ->; apply in_or_app; right; now left|lia|].
  destruct (e_checkin e _) as [|t]; [exact Fin|].
  apply mt_do_refusal; [lia|]. intros x Bx.
  assert (Lx : length (elist x ++ Q q1 ++ olist d) <= 7) by (rewrite app_length; destruct x as [[a b]|]; cbn; lia).
  apply (mt_do_text _ _ x (Q q1 ++ olist d)); [reflexivity|lia|].
  apply mt_do_send_error; [lia|].
  apply (mt_do_error_free _ _ x (Q q1 ++ olist d)); [reflexivity|lia|exact Fin].
Qed.

(** ** the library path *)

Definition plain_text (p : text_ptr) : Prop := text_res p = [].

Lemma Q_err q p : plain_text (q_err q) -> Permutation (text_res p ++ Q q) (Q (with_err q p)).
Proof. unfold plain_text. intros E. unfold Q. cbn. rewrite E. perm. Qed.
Lemma Q_plain q p : plain_text (q_err q) -> plain_text p -> Q (with_err q p) = Q q.
Proof. unfold plain_text, Q. cbn. intros -> ->. reflexivity. Qed.

Lemma mt_global {D} cfg (e : env D) s q : Blocks (Q q) -> plain_text (q_err q) ->
  mt 7 (Q q) (m_global cfg e s q) (fun '(q1, go) o =>
    o = Q q1 /\ Blocks (Q q1) /\ (go = true -> plain_text (q_err q1)) /\ q_lib q1 = q_lib q /\ q_cr q1 = q_cr q).
Proof.
  intros BQ PQ. unfold m_global. pose proof (Q_le q) as L4.
  assert (Same : forall go : bool, mt 7 (Q q) (tret (q, go)) (fun '(q1, go) o =>
    o = Q q1 /\ Blocks (Q q1) /\ (go = true -> plain_text (q_err q1)) /\ q_lib q1 = q_lib q /\ q_cr q1 = q_cr q)).
  { intros go. apply (mt_ret _ _ _ _ (Q q)); [lia|reflexivity|]. repeat split; auto. }
  destruct (cfg_global cfg) as [feature|]; [|apply Same]. destruct (s_approved s); [|apply Same].
  apply (mt_call _ 5 _ (Q q) [] _ _ _ _ (mt_setup e s q BQ)); [rewrite app_nil_r; reflexivity|cbn; lia|].
  intros [[q1 ok] x] o (-> & Bo & Hx & Lo & (S1 & S2 & S3)). rewrite app_nil_r.
  apply Blocks_app in Bo as [Bx B1].
  assert (L3 : length (Q q1) <= 3).
  { unfold Q. rewrite S3, PQ, !app_length. cbn. pose proof (olist_le (q_lib q1)).
    pose proof (olist_le (q_cr q1)). pose proof (olist_le (q_lic q1)). lia. }
  assert (P1 : plain_text (q_err q1)) by (rewrite S3; exact PQ).
  assert (Bad : forall ok y, Blocks (elist y) -> length (elist y ++ Q q1) <= 5 ->
    mt 7 (elist y ++ Q q1)
      (let text := match (if ok : bool then e_checkout e feature
                             else e_lic_new e (match s_lib s with Some l => Some (cstr l) | None => None end)) with
                      | Refused (Some t) => t
                      | _ => []
                      end in
          take _ <- m_error_text y ;
          take dup <- malloc (e_alloc e (zlen text + 1)%Z) ;
          take _ <- touch dup ;
          let q2 := with_err q1 (match dup with Some r => OnHeap r | None => NoText end) in
          take _ <- m_send_error (e_alloc e) (match dup with Some _ => Some text | None => None end) ;
          take _ <- m_error_free y ;
          tret (q2, false))
      (fun '(q1, go) o =>
    o = Q q1 /\ Blocks (Q q1) /\ (go = true -> plain_text (q_err q1)) /\ q_lib q1 = q_lib q /\ q_cr q1 = q_cr q)).
  { intros ok' y By Ly. cbv zeta. apply (mt_do_text _ _ y (Q q1)); [reflexivity|lia|].
    apply mt_do_malloc; [lia| |].
    - intros n _. apply mt_do_use; [intros r [= <-]; now left|cbn [length]; lia|].
      apply mt_do_send_error; [cbn [length]; lia|].
      apply (mt_do_error_free _ _ y (Block n :: Q q1)); [|cbn [length]; lia|].
      { cbn [app]. apply Permutation_middle. }
      pose proof (Q_err q1 (OnHeap (Block n)) P1) as PE. cbn in PE.
      apply (mt_ret _ _ _ _ (Q (with_err q1 (OnHeap (Block n))))); [cbn [length]; lia|exact PE|].
      split; [reflexivity|]. split; [apply (Blocks_perm _ _ PE), Blocks_cons, B1|].
      split; [discriminate|]. split; assumption.
    - intros _. apply mt_do_use; [discriminate|lia|]. apply mt_do_send_error; [lia|].
      apply (mt_do_error_free _ _ y (Q q1)); [reflexivity|lia|].
      rewrite <- (Q_plain q1 NoText P1 eq_refl) at 1.
      apply (mt_ret _ _ _ _ (Q (with_err q1 NoText))); [rewrite (Q_plain q1 NoText P1 eq_refl); lia|reflexivity|].
      split; [reflexivity|]. split; [rewrite (Q_plain q1 NoText P1 eq_refl); exact B1|].
      split; [discriminate|]. split; assumption. }
  destruct ok.
  - rewrite (Hx eq_refl) in *. cbn [elist app] in *. apply mt_assoc.
    apply mt_do_use; [intros r; apply in_lic|lia|].
    destruct (e_checkout e feature) as [|t] eqn:EC.
    + apply mt_skip. apply (mt_ret _ _ _ _ (Q q1)); [lia|reflexivity|]. repeat split; auto.
    + apply mt_assoc. apply mt_do_refusal; [lia|]. intros y By. apply mt_skip.
      assert (Ly : length (elist y ++ Q q1) <= 5) by (rewrite app_length; destruct y as [[a b]|]; cbn; lia).
      specialize (Bad true y By Ly). cbv zeta in Bad. exact Bad.
  - apply mt_skip. exact (Bad false x Bx Lo).
Qed.

Lemma mt_lib {D} cfg (e : env D) s q len data d :
  Blocks (Q q) -> q_lib q = None -> q_cr q = None -> plain_text (q_err q) ->
  mt 8 (olist d ++ Q q) (m_lib cfg e s q len data d) (fun q1 o => o = olist d ++ Q q1 /\ Blocks (Q q1)).
Proof.
  intros BQ E1 E2 PQ. unfold m_lib. pose proof (olist_le d) as Ld.
  assert (LQ : length (Q q) <= 1).
  { unfold Q. rewrite E1, E2, PQ. cbn. rewrite app_nil_r. apply olist_le. }
  assert (Lit : mt 8 (olist d ++ Q q) (tret (with_err q Literal)) (fun q1 o => o = olist d ++ Q q1 /\ Blocks (Q q1))).
  { apply (mt_ret _ _ _ _ (olist d ++ Q q)); [rewrite app_length; lia|reflexivity|].
    rewrite (Q_plain q Literal PQ eq_refl). auto. }
  destruct data as [p|]; [|exact Lit]. destruct (len =? 0)%Z; [exact Lit|].
  assert (Go : forall lib, Blocks (olist lib) -> mt 8 (olist lib ++ olist d ++ Q q)
    (take _ <- touch d ;
        take _ <- touch lib ;
        let q1 := with_lib q lib in
        let path := match payload_bytes p with Ok raw => trim raw | _ => [] end in
        match e_cr_create e (cstr path) with
        | None => tret (with_err (with_cr q1 None) Literal)
        | Some d =>
            take cr <- malloc true ;
            let s1 := set_cr (set_lib s (Some path)) (Some d) in
            take (q3, go) <- m_global cfg e s1 (with_cr q1 cr) ;
            if go then
              take _ <- touch (q_lib q3) ;
              tret (match e_stat e (cstr path) with StatDir => q3 | _ => with_err q3 Literal end)
            else tret q3
        end) (fun q1 o => o = olist d ++ Q q1 /\ Blocks (Q q1))).
  { intros lib Bl. cbv zeta. pose proof (olist_le lib) as Ll.
    assert (L : length (olist lib ++ olist d ++ Q q) <= 3) by (rewrite !app_length; lia).
    apply mt_do_use; [intros r ->; rewrite !in_app_iff; right; left; now left|lia|].
    apply mt_do_use; [intros r ->; now left|lia|].
    assert (PL : Permutation (olist lib ++ Q q) (Q (with_lib q lib))) by (unfold Q; cbn; rewrite E1; perm).
    destruct (e_cr_create e _) as [c|].
    - apply mt_do_malloc; [lia| |discriminate]. intros n _.
      set (q2 := with_cr (with_lib q lib) (Some (Block n))).
      assert (P2 : Permutation (Block n :: olist lib ++ Q q) (Q q2)) by (unfold q2, Q; cbn; rewrite E1, E2; perm).
      assert (B2 : Blocks (Q q2)).
      { apply (Blocks_perm _ _ P2), Blocks_cons, Blocks_app. auto. }
      eapply (mt_call _ 7 _ (Q q2) (olist d) _ _ _ _ (mt_global cfg e _ q2 B2 PQ)).
      + perm.
      + lia.
      + intros [q3 go] o (-> & B3 & P3 & _). pose proof (Q_le q3) as L3.
        assert (L5 : length (Q q3 ++ olist d) <= 5) by (rewrite app_length; lia).
        destruct go.
        * apply mt_do_use; [intros r Hr; apply in_or_app; left; now apply in_lib|lia|].
          apply (mt_ret _ _ _ _ (olist d ++ Q q3)); [lia|apply Permutation_app_comm|].
          destruct (e_stat e _); try rewrite (Q_plain q3 Literal (P3 eq_refl) eq_refl); auto.
        * apply (mt_ret _ _ _ _ (olist d ++ Q q3)); [lia|apply Permutation_app_comm|auto].
    - assert (PL2 : Permutation (olist lib ++ Q q) (Q (with_err (with_cr (with_lib q lib) None) Literal)))
        by (unfold plain_text in PQ; unfold Q; cbn; rewrite E1, E2, PQ; perm).
      apply (mt_ret _ _ _ _ (olist d ++ Q (with_err (with_cr (with_lib q lib) None) Literal))); [lia|perm|].
      split; [reflexivity|]. apply (Blocks_perm _ _ PL2), Blocks_app. auto. }
  apply mt_do_malloc; [rewrite app_length; lia| |].
  - intros n _. apply (Go (Some (Block n))). intros r [<-|[]]. eexists; reflexivity.
  - intros _. apply (Go None). intros r [].
Qed.

(** ** files *)

Definition Clean {D} (e : env D) : Prop := Plenty e.

Lemma mbind_snd {A C} (m : M A) (f : A -> M C) b : snd (mbind m f) = Ok b ->
  exists a, snd m = Ok a /\ snd (f a) = Ok b.
Proof.
  destruct m as [es [a|u|]]; cbn; try discriminate. destruct (f a) as [es' o] eqn:E. cbn. intros ->.
  exists a. rewrite E. auto.
Qed.

Lemma mt_read_file {D} (e : env D) path :
  mt 4 [] (m_read_file e path) (fun '(fb, x) o =>
    exists J, o = olist fb ++ elist x ++ J /\ Blocks (olist fb ++ elist x) /\ length J <= 1 /\ (Clean e -> J = []) /\
      (fb <> None -> x = None /\ J = [] /\ exists f, read_file e path = ([ReadFile path], Ok (inr f)))).
Proof.
  unfold m_read_file. unfold read_file. cbn [emit mbind]. destruct (e_file e path) as [t|t|size avail ferr] eqn:EF.
  - apply mt_do_error; [cbn; lia|]. intros n. eapply mt_ret; [cbn; lia|reflexivity|].
    exists []. split; [reflexivity|]. split; [intros r [<-|[<-|[]]]; eexists; reflexivity|]. split; [cbn; lia|].
    split; [auto|]. intros H. exfalso. now apply H.
  - apply mt_do_fopen; [cbn; lia|]. intros f. apply mt_do_error; [cbn; lia|]. intros n.
    eapply mt_ret; [cbn; lia|reflexivity|].
    exists [Stream f]. split; [reflexivity|]. split; [intros r [<-|[<-|[]]]; eexists; reflexivity|]. split; [cbn; lia|].
    split; [intros [_ C]; exfalso; exact (C _ _ EF)|]. intros H. exfalso. now apply H.
  - apply mt_do_fopen; [cbn; lia|]. intros f. apply mt_do_malloc; [cbn; lia| |].
    + intros b Al. apply mt_do_use; [intros r [= <-]; now left|cbn; lia|].
      apply mt_do_use; [intros r [= <-]; right; now left|cbn; lia|]. rewrite Al.
      set (failed := match ferr with Some _ => _ | None => false end).
      destruct failed eqn:FL.
      * apply mt_do_error; [cbn; lia|]. intros n.
        apply (mt_do_release _ _ _ [Block n; Block (S n); Stream f]); [perm|cbn; lia|].
        apply (mt_do_release _ _ _ [Block n; Block (S n)]); [perm|cbn; lia|].
        eapply mt_ret; [cbn; lia|reflexivity|].
        exists []. split; [reflexivity|]. split; [intros r [<-|[<-|[]]]; eexists; reflexivity|].
        split; [cbn; lia|]. split; [auto|]. intros H. exfalso. now apply H.
      * apply (mt_do_release _ _ _ [Block b]); [perm|cbn; lia|].
        eapply mt_ret; [cbn; lia|reflexivity|].
        exists []. split; [reflexivity|]. split; [intros r [<-|[]]; eexists; reflexivity|]. split; [cbn; lia|].
        split; [auto|]. intros _. split; [reflexivity|]. split; [reflexivity|].
        subst failed. destruct ferr as [t|]; [rewrite FL|]; eexists; reflexivity.
    + intros Al. apply mt_do_error; [cbn; lia|]. intros n.
      eapply mt_ret; [cbn; lia|reflexivity|].
      exists [Stream f]. split; [reflexivity|]. split; [intros r [<-|[<-|[]]]; eexists; reflexivity|]. split; [cbn; lia|].
      split; [intros [C _]; rewrite C in Al; discriminate|]. intros H. exfalso. now apply H.
Qed.

Lemma mt_do_file_error {D C} k pre (e : env D) size text keep (f : unit -> T C) post : S (length pre) < k ->
  (forall J, length J <= 1 -> Blocks J -> (keep = false \/ Clean e /\ False -> J = []) -> mt k (pre ++ J) (f tt) post) ->
  mt k pre (tbind (m_file_error e size text keep) f) post.
Proof.
  intros K H. unfold m_file_error. apply mt_assoc. apply mt_do_malloc; [lia| |].
  - intros n _. apply mt_assoc. apply mt_do_use; [intros r [= <-]; now left|cbn; lia|].
    apply mt_assoc. apply mt_do_send_error; [cbn; lia|]. destruct keep.
    + apply mt_skip. apply (mt_perm _ _ (pre ++ [Block n])); [apply Permutation_cons_append|].
      apply H; [cbn; lia| |intros [X|[_ X]]; [discriminate|contradiction]].
      intros r [<-|[]]. eexists; reflexivity.
    + apply (mt_do_release _ _ _ pre); [reflexivity|cbn; lia|].
      specialize (H [] ltac:(cbn; lia) ltac:(intros r []) ltac:(auto)). rewrite app_nil_r in H. exact H.
  - intros _. apply mt_assoc. apply mt_do_use; [discriminate|lia|].
    apply mt_assoc. apply mt_do_send_error; [lia|].
    specialize (H [] ltac:(cbn; lia) ltac:(intros r []) ltac:(auto)). rewrite app_nil_r in H.
    destruct keep; [apply mt_skip, H|].
    apply (mt_do_release _ _ _ pre); [reflexivity|lia|exact H].
Qed.

(** What a handler leaves behind besides what the context holds. *)
Definition left_over {D} (e : env D) (pre o : list res) : Prop :=
  exists J, o = pre ++ J /\ length J <= 1 /\ (Clean e -> J = []).

Lemma mt_file {D} (e : env D) s q len data d s1 : Blocks (Q q) ->
  snd (handle_file e s len data) = Ok s1 ->
  mt 10 (olist d ++ Q q) (m_file e s q len data d) (fun q1 o => q1 = q /\ left_over e (olist d ++ Q q) o).
Proof.
  intros BQ HF. unfold m_file. unfold handle_file in HF.
  pose proof (Q_le q) as L4. pose proof (olist_le d) as Ld.
  assert (L5 : length (olist d ++ Q q) <= 5) by (rewrite app_length; lia).
  assert (Fin : mt 10 (olist d ++ Q q) (tret q) (fun q1 o => q1 = q /\ left_over e (olist d ++ Q q) o)).
  { apply (mt_ret _ _ _ _ (olist d ++ Q q)); [lia|reflexivity|]. split; [reflexivity|].
    exists []. rewrite app_nil_r. split; [reflexivity|]. split; [cbn; lia|auto]. }
  destruct (s_approved s); cbn [negb] in *.
  2:{ unfold touch_text. destruct (q_err q) as [| |r] eqn:EE.
      - apply mt_skip. apply mt_do_send_error; [lia|exact Fin].
      - apply mt_skip. apply mt_do_send_error; [lia|exact Fin].
      - apply mt_do_use; [intros r' [= <-]; apply in_or_app; right; now apply in_err|lia|].
        apply mt_do_send_error; [lia|exact Fin]. }
  apply mt_do_malloc; [lia| |intros _; apply mt_do_send_error; [lia|exact Fin]].
  intros fp Al. rewrite Al in HF. cbn [negb] in HF.
  destruct (s_lib s) as [lib|]; [|destruct data; discriminate HF].
  destruct data as [p|]; [|discriminate HF].
  apply mbind_snd in HF as (rel & EP & HF). cbn in EP. rewrite EP.
  set (size := (zlen lib + len + 2)%Z) in *.
  set (path := zsnprintf size (cstr lib ++ [SLASH] ++ rel)) in *.
  apply mt_do_use; [intros r Hr; right; apply in_or_app; right; now apply in_lib|cbn [length]; lia|].
  apply mt_do_use; [intros r ->; right; now left|cbn [length]; lia|].
  apply mt_do_use; [intros r [= <-]; now left|cbn [length]; lia|].
  apply (mt_call _ 4 _ [] (Block fp :: olist d ++ Q q) _ _ _ _ (mt_read_file e path)); [reflexivity|cbn [length]; lia|].
  intros [fb x] o (J & -> & Bx & LJ & CJ & Hfb). destruct fb as [fb|].
  - destruct (Hfb ltac:(discriminate)) as (-> & -> & (file & RF)). rewrite RF in *. cbn [olist elist app].
    rewrite mbind_ok in HF. cbn [snd] in HF.
    destruct (is_moc rel).
    + apply mt_do_malloc; [cbn [length]; lia| |].
      * intros out Al2. rewrite Al2 in HF. cbn [negb] in HF. apply mbind_snd in HF as ([cr plain] & ED & _).
        cbn in ED. rewrite ED.
        apply mt_do_use; [intros r Hr; right; right; right; apply in_or_app; right; now apply in_cr|cbn [length]; lia|].
        apply mt_do_use; [intros r [= <-]; right; now left|cbn [length]; lia|].
        apply mt_do_use; [intros r [= <-]; now left|cbn [length]; lia|].
        destruct plain as [pl|].
        -- apply mt_do_send; [cbn [length]; lia|].
           apply (mt_do_release _ _ _ (Block out :: Block fp :: olist d ++ Q q)); [perm|cbn [length]; lia|].
           apply (mt_do_release _ _ _ (Block fp :: olist d ++ Q q)); [reflexivity|cbn [length]; lia|].
           apply (mt_do_release _ _ _ (olist d ++ Q q)); [reflexivity|cbn [length]; lia|exact Fin].
        -- apply mt_do_use; [intros r [= <-]; right; right; now left|cbn [length]; lia|].
           apply (mt_do_release _ _ _ (Block out :: Block fp :: olist d ++ Q q)); [perm|cbn [length]; lia|].
           apply (mt_do_release _ _ _ (Block fp :: olist d ++ Q q)); [reflexivity|cbn [length]; lia|].
           apply (mt_do_release _ _ _ (olist d ++ Q q)); [reflexivity|cbn [length]; lia|].
           apply mt_do_file_error; [lia|]. intros J _ _ HJ. rewrite (HJ ltac:(auto)), app_nil_r. exact Fin.
      * intros Al2. apply mt_do_use; [intros r [= <-]; right; now left|cbn [length]; lia|].
        apply (mt_do_release _ _ _ (Block fp :: olist d ++ Q q)); [reflexivity|cbn [length]; lia|].
        apply (mt_do_release _ _ _ (olist d ++ Q q)); [reflexivity|cbn [length]; lia|].
        apply mt_do_file_error; [lia|]. intros J LJ' BJ _.
        apply (mt_ret _ _ _ _ ((olist d ++ Q q) ++ J)); [rewrite app_length; lia|reflexivity|].
        split; [reflexivity|]. exists J. split; [reflexivity|]. split; [exact LJ'|].
        intros [C _]. rewrite C in Al2. discriminate.
    + apply mt_do_use; [intros r [= <-]; now left|cbn [length]; lia|].
      apply mt_do_send; [cbn [length]; lia|].
      apply (mt_do_release _ _ _ (Block fp :: olist d ++ Q q)); [reflexivity|cbn [length]; lia|].
      apply (mt_do_release _ _ _ (olist d ++ Q q)); [reflexivity|cbn [length]; lia|exact Fin].
  - cbn [olist app]. assert (Lx : length (elist x) <= 2) by (destruct x as [[a b]|]; cbn; lia).
    assert (Lall : length ((elist x ++ J) ++ Block fp :: olist d ++ Q q) <= 9) by (rewrite !app_length; cbn [length]; lia).
    apply (mt_do_release _ _ _ (elist x ++ J ++ olist d ++ Q q)); [perm|lia|].
    assert (Lall2 : length (elist x ++ J ++ olist d ++ Q q) <= 8).
    { rewrite !app_length in *. cbn [length] in *. rewrite app_length in *. lia. }
    apply (mt_do_text _ _ x (J ++ olist d ++ Q q)); [reflexivity|lia|].
    apply mt_do_send_error; [lia|].
    apply (mt_do_error_free _ _ x (J ++ olist d ++ Q q)); [reflexivity|lia|].
    apply (mt_ret _ _ _ _ ((olist d ++ Q q) ++ J)); [rewrite (app_length (elist x)) in Lall2; lia|apply Permutation_app_comm|].
    split; [reflexivity|]. exists J. auto.
Qed.

(** ** one message *)

(** The context holds blocks only, and nothing of the library before LIB was handled. *)
Definition inv {D} (s : lve D) (q : ptrs) : Prop :=
  Blocks (Q q) /\
  (s_phase s = P_LICENSE \/ q_lib q = None /\ q_cr q = None /\ plain_text (q_err q)).

Lemma inv_phase {D} (s s1 : lve D) q : s_phase s1 = s_phase s -> inv s q -> inv s1 q.
Proof. intros E [B H]. split; [exact B|]. rewrite E. exact H. Qed.

Definition step_post {D} (e : env D) (s : lve D) (q : ptrs) (pre : list res) (lib : bool) (q1 : ptrs) (o : list res) : Prop :=
  Blocks (Q q1) /\ (q1 = q \/ lib = true \/ s_phase s = P_LICENSE) /\ left_over e (pre ++ Q q1) o.

Lemma mt_dispatch {D} cfg (e : env D) s q p' c msg r s1 :
  inv s q -> next_phase (s_phase s) (c_id c) = Some p' -> snd (dispatch cfg e s p' c r) = Ok s1 ->
  mt 11 (msg :: Q q) (m_dispatch cfg e s q p' c msg r)
     (step_post e s q [msg] (cmd_id_eqb (c_id c) C_LIB)).
Proof.
  intros [BQ IQ] N H. unfold m_dispatch. unfold dispatch in H. apply mbind_snd in H as (data & HD & H).
  assert (HD' : data = match form_of (c_id c) with
              | F_LENGTH => match extract_data (e_alloc e) (c_length c) r with Ok (d, _) => d | _ => None end
              | _ => None
              end).
  { destruct (form_of (c_id c)); try (cbn in HD; congruence).
    destruct (extract_data (e_alloc e) (c_length c) r) as [[d n]|u|]; cbn in HD; congruence. }
  rewrite <- HD'.
  pose proof (Q_le q) as L4.
  assert (Touch1 : forall (C : Type) (f : unit -> T C) post,
    mt 11 (msg :: Q q) (f tt) post ->
    mt 11 (msg :: Q q) (tbind (match form_of (c_id c) with F_LENGTH => touch (Some msg) | _ => tret tt end) f) post).
  { intros C f post Hf. destruct (form_of (c_id c)); try (apply mt_skip; exact Hf).
    apply mt_do_use; [intros x [= <-]; now left|cbn [length]; lia|exact Hf]. }
  apply Touch1. clear Touch1 HD'.
  assert (Go : forall d, Blocks (olist d) -> mt 11 (olist d ++ msg :: Q q)
   (take _ <- touch d ;
  let s' := set_phase s p' in
  take q1 <- match s_phase s with
             | P_VERSION =>
                 if (c_number c <? MIN_PROTOCOL_VERSION)%Z then
                   take _ <- m_send_error (e_alloc e)
                               (Some (snprintf ERROR_SIZE (B "Minimum supported protocol version is " ++
                                                           print_dec MIN_PROTOCOL_VERSION))) ;
                   tret q
                 else tret q
             | P_TOOLS =>
                 if cmd_id_eqb (c_id c) C_TOOLS then tret q
                 else m_lib cfg e s' q (c_length c) data d
             | P_LIB => m_lib cfg e s' q (c_length c) data d
             | P_LICENSE =>
                 if cmd_id_eqb (c_id c) C_FEATURE then m_feature e s' q data d
                 else if cmd_id_eqb (c_id c) C_RETURNFEATURE then m_returnfeature e s' q data d
                 else if cmd_id_eqb (c_id c) C_LICENSE then tret q
                 else if cmd_id_eqb (c_id c) C_RETURNLICENSE then tret q
                 else m_file e s' q (c_length c) data d
             end ;
  take _ <- release d ;
  tret q1) (step_post e s q [msg] (cmd_id_eqb (c_id c) C_LIB))).
  { intros d Bd. cbv zeta. pose proof (olist_le d) as Ld.
    assert (L6 : length (olist d ++ msg :: Q q) <= 6) by (rewrite app_length; cbn [length]; lia).
    apply mt_do_use; [intros x ->; now left|lia|].
    (* whatever the handler, the data is released at the end *)
    assert (Wrap : forall (m : T ptrs) (mid : ptrs -> list res -> Prop),
      mt 10 (olist d ++ Q q) m mid ->
      (forall q1 o, mid q1 o -> exists J, o = olist d ++ Q q1 ++ J /\ length J <= 1 /\ (Clean e -> J = []) /\
         Blocks (Q q1) /\ (q1 = q \/ cmd_id_eqb (c_id c) C_LIB = true \/ s_phase s = P_LICENSE)) ->
      mt 11 (olist d ++ msg :: Q q) (take q1 <- m ; take _ <- release d ; tret q1)
         (step_post e s q [msg] (cmd_id_eqb (c_id c) C_LIB))).
    { intros m mid Hm Hmid.
      apply (mt_call _ 10 _ (olist d ++ Q q) [msg] _ _ _ _ Hm); [perm|cbn; lia|].
      intros q1 o Ho. destruct (Hmid q1 o Ho) as (J & -> & LJ & CJ & B1 & Hq).
      pose proof (Q_le q1) as L41.
      apply (mt_do_release _ _ _ ((Q q1 ++ J) ++ [msg])); [perm|rewrite !app_length; cbn [length]; lia|].
      apply (mt_ret _ _ _ _ (([msg] ++ Q q1) ++ J)); [rewrite !app_length; cbn [length]; lia|perm|].
      split; [exact B1|]. split; [exact Hq|]. exists J. auto. }
    assert (Same : forall (m : T ptrs), mt 10 (olist d ++ Q q) m (fun q1 o => q1 = q /\ o = olist d ++ Q q) ->
      mt 11 (olist d ++ msg :: Q q) (take q1 <- m ; take _ <- release d ; tret q1)
         (step_post e s q [msg] (cmd_id_eqb (c_id c) C_LIB))).
    { intros m Hm. apply (Wrap _ _ Hm). intros q1 o (-> & ->). exists []. rewrite app_nil_r.
      split; [reflexivity|]. split; [cbn; lia|]. auto. }
    assert (Nop : mt 10 (olist d ++ Q q) (tret q) (fun q1 o => q1 = q /\ o = olist d ++ Q q)).
    { eapply mt_ret; [rewrite app_length; lia|reflexivity|auto]. }
    assert (Lib : (s_phase s = P_TOOLS \/ s_phase s = P_LIB) -> c_id c = C_LIB ->
      mt 11 (olist d ++ msg :: Q q) (take q1 <- m_lib cfg e (set_phase s p') q (c_length c) data d ; take _ <- release d ; tret q1)
         (step_post e s q [msg] (cmd_id_eqb (c_id c) C_LIB))).
    { intros HP EC. destruct IQ as [IQ|(I1 & I2 & I3)]; [rewrite IQ in HP; destruct HP; discriminate|].
      apply (Wrap _ (fun q1 o => o = olist d ++ Q q1 /\ Blocks (Q q1))).
      - eapply mt_conseq; [apply (mt_lib cfg e (set_phase s p') q (c_length c) data d BQ I1 I2 I3)|lia|].
        intros a o Ho. exists o. split; [reflexivity|exact Ho].
      - intros q1 o (-> & B1). exists []. rewrite app_nil_r. split; [reflexivity|]. split; [cbn; lia|].
        split; [auto|]. split; [exact B1|]. right. left. rewrite EC. reflexivity. }
    pose proof (next_phase_inv _ _ _ N) as NI.
    destruct NI as [(P & I & ->)|[(P & I & ->)|[(P & I & ->)|(P & -> & I)]]].
    - rewrite P. apply Same. destruct (c_number c <? MIN_PROTOCOL_VERSION)%Z; [|exact Nop].
      apply mt_do_send_error; [rewrite app_length; lia|exact Nop].
    - rewrite P, I. cbn [cmd_id_eqb]. rewrite I in Same. apply Same, Nop.
    - destruct P as [P|P]; rewrite P.
      + replace (cmd_id_eqb (c_id c) C_TOOLS) with false by (rewrite I; reflexivity). apply Lib; auto.
      + apply Lib; auto.
    - rewrite P in *.
      assert (Kept : forall m : T ptrs, mt 8 (olist d ++ Q q) m (fun q1 o => kept q q1 d o) ->
        mt 11 (olist d ++ msg :: Q q) (take q1 <- m ; take _ <- release d ; tret q1)
           (step_post e s q [msg] (cmd_id_eqb (c_id c) C_LIB))).
      { intros m Hm. apply (Wrap _ (fun q1 o => kept q q1 d o)).
        - eapply mt_conseq; [exact Hm|lia|]. intros a o Ho. exists o. split; [reflexivity|exact Ho].
        - intros q1 o (-> & B1 & _). exists []. rewrite app_nil_r. split; [reflexivity|]. split; [cbn; lia|]. auto. }
      destruct I as [I|[I|[I|[I|I]]]]; rewrite I in *; cbn [cmd_id_eqb] in *.
      + apply Kept. apply mt_feature, BQ.
      + apply Kept. apply mt_returnfeature, BQ.
      + apply Same, Nop.
      + apply Same, Nop.
      + apply (Wrap _ (fun q1 o => q1 = q /\ left_over e (olist d ++ Q q) o)).
        * apply (mt_file _ _ _ _ _ _ s1 BQ H).
        * intros q1 o (-> & (J & -> & LJ & CJ)). exists J. rewrite app_assoc. auto 8. }
  apply mt_do_malloc; [cbn [length]; lia| |].
  - intros n _. apply (Go (Some (Block n))). intros r0 [<-|[]]. eexists; reflexivity.
  - intros _. apply (Go None). intros r0 [].
Qed.

Lemma mt_step {D} cfg (e : env D) s q msg r s1 : inv s q -> snd (lve_step cfg e s r) = Ok s1 ->
  mt 11 (msg :: Q q) (m_step cfg e s q msg r)
     (fun q1 o => inv s1 q1 /\ left_over e (Q q1) o).
Proof.
  intros I H. pose proof (lve_step_tri cfg e s r) as (es & o' & ES & _ & MV).
  rewrite ES in H. cbn in H. subst o'. specialize (MV s1 eq_refl).
  assert (HL : s_phase s = P_LICENSE -> s_phase s1 = P_LICENSE).
  { intros P. inversion MV; try congruence; match goal with K : _ \/ _ |- _ => destruct K; congruence end. }
  pose proof (Q_le q) as L4.
  unfold m_step.
  assert (H : snd (lve_step cfg e s r) = Ok s1) by (rewrite ES; reflexivity).
  unfold lve_step in H. apply mbind_snd in H as (u & _ & H).
  apply mt_do_malloc; [cbn [length]; lia| |].
  2:{ intros Al. rewrite Al in H. discriminate H. }
  intros token Al. rewrite Al in H. cbn [negb] in H.
  apply mt_do_use; [intros x [= <-]; right; now left|cbn [length]; lia|].
  apply mt_do_use; [intros x [= <-]; now left|cbn [length]; lia|].
  destruct (parse_command ERROR_SIZE (cstr r)) as [[g c] m] eqn:PC.
  set (s0 := match m with Some t => set_buf s t | None => s end) in *.
  assert (P0 : s_phase s0 = s_phase s) by (subst s0; destruct m; reflexivity).
  apply (mt_do_release _ _ _ (msg :: Q q)); [reflexivity|cbn [length]; lia|].
  assert (Rest : forall (x : T ptrs), 
    mt 11 (msg :: Q q) x (fun q1 o => inv s1 q1 /\ left_over e ([msg] ++ Q q1) o) ->
    mt 11 (msg :: Q q) (take q1 <- x ; take _ <- release (Some msg) ; tret q1) (fun q1 o => inv s1 q1 /\ left_over e (Q q1) o)).
  { intros x Hx. eapply mt_bind; [exact Hx|]. intros q1 o (I1 & (J & -> & LJ & CJ)). pose proof (Q_le q1) as L41.
    apply (mt_do_release _ _ _ (Q q1 ++ J)); [reflexivity|rewrite !app_length; cbn [length]; lia|].
    apply (mt_ret _ _ _ _ (Q q1 ++ J)); [rewrite app_length; lia|reflexivity|].
    split; [exact I1|]. exists J. auto. }
  assert (Send : forall t (I1 : inv s1 q), mt 11 (msg :: Q q) (take _ <- m_send_error (e_alloc e) t ; tret q)
     (fun q1 o => inv s1 q1 /\ left_over e ([msg] ++ Q q1) o)).
  { intros t I1. apply mt_do_send_error; [cbn [length]; lia|].
    apply (mt_ret _ _ _ _ (msg :: Q q)); [cbn [length]; lia|reflexivity|]. split; [exact I1|].
    exists []. rewrite app_nil_r. split; [reflexivity|]. split; [cbn; lia|auto]. }
  assert (Iq : inv s1 q).
  { destruct I as [BQ [P|P]]; (split; [exact BQ|]); [left; auto|right; exact P]. }
  apply Rest. destruct g; try (apply Send; exact Iq).
  rewrite P0. unfold handle_command in H. rewrite P0 in H.
  destruct (next_phase (s_phase s) (c_id c)) as [p'|] eqn:N; [|apply Send; exact Iq].
  assert (I0 : inv s0 q) by (apply (inv_phase s); auto).
  eapply mt_conseq; [apply (mt_dispatch cfg e s0 q p' c msg r s1 I0); [rewrite P0; exact N|exact H]|lia|].
  intros q1 o (B1 & Hq & LO). exists o. split; [reflexivity|]. split; [|exact LO].
  destruct Hq as [->|[HLib|P]]; [exact Iq| |split; [exact B1|left; apply HL; rewrite <- P0; exact P]].
  split; [exact B1|]. left. apply cmd_id_eqb_spec in HLib.
  (* LIB: the next phase is LICENSE *)
  pose proof (next_phase_inv _ _ _ N) as NI. rewrite HLib in NI.
  destruct NI as [(_ & X & _)|[(_ & X & _)|[(P & _ & ->)|(_ & _ & X)]]]; try discriminate X;
    [|repeat (destruct X as [X|X]; [discriminate X|]); discriminate X].
  unfold dispatch in H. apply mbind_snd in H as (data & _ & H). rewrite P0 in H.
  assert (HH : snd (run (s1, _) <- handle_lib cfg e false (set_phase s0 P_LICENSE) (c_length c) data ; ret s1) = Ok s1).
  { destruct P as [P|P]; rewrite P in H; [rewrite HLib in H; cbn [cmd_id_eqb] in H|]; exact H. }
  apply mbind_snd in HH as ([s2 b] & HL2 & E2). cbn in E2. injection E2 as ->.
  destruct (handle_lib_tri cfg e false (set_phase s0 P_LICENSE) (c_length c) data) as [_ T2].
  specialize (T2 _ HL2). cbn in T2. apply T2.
Qed.

(** ** reading *)

Lemma mt_ssl_read al evs : forall total buf, Blocks (olist buf) ->
  mt 2 (olist buf) (m_ssl_read al total buf evs) (fun p o => Blocks o /\
    match p with Some r => o = [r] | None => length o <= 1 end).
Proof.
  induction evs as [|ev evs IH]; intros total buf Bb; pose proof (olist_le buf) as Lb; cbn [m_ssl_read].
  - apply (mt_ret _ _ _ _ (olist buf)); [lia|reflexivity|]. auto.
  - destruct ev as [b pending want|c].
    + assert (Stop : mt 2 (olist buf) (tret None) (fun p o => Blocks o /\
        match p with Some r => o = [r] | None => length o <= 1 end)).
      { apply (mt_ret _ _ _ _ (olist buf)); [lia|reflexivity|]. auto. }
      destruct (al _); [|exact Stop].
      apply mt_do_malloc; [lia| |discriminate]. intros n _.
      apply mt_do_use; [intros r [= <-]; now left|cbn [length]; lia|].
      apply mt_do_use; [intros r ->; right; now left|cbn [length]; lia|].
      apply (mt_do_release _ _ _ [Block n]); [perm|cbn [length]; lia|].
      assert (Bn : Blocks [Block n]) by (intros r [<-|[]]; eexists; reflexivity).
      destruct (want || negb (pending =? 0)%Z).
      * apply (IH _ (Some (Block n))). exact Bn.
      * apply (mt_ret _ _ _ _ [Block n]); [cbn; lia|reflexivity|]. auto.
    + assert (Stop : mt 2 (olist buf) (tret None) (fun p o => Blocks o /\
        match p with Some r => o = [r] | None => length o <= 1 end)).
      { apply (mt_ret _ _ _ _ (olist buf)); [lia|reflexivity|]. auto. }
      destruct c; [apply IH, Bb|apply IH, Bb|exact Stop].
Qed.

(** ** sessions *)

Lemma mt_loop {D} cfg : forall (rs : list (round D)) s q, inv s q ->
  mt (12 + length rs) (Q q) (m_loop cfg s q rs)
    (fun q1 o => exists J, o = Q q1 ++ J /\ Blocks (Q q1) /\ length J <= S (length rs)).
Proof.
  induction rs as [|r rs IH]; intros s q I; pose proof (Q_le q) as L4; cbn [m_loop length].
  - apply (mt_ret _ _ _ _ (Q q)); [lia|reflexivity|]. exists []. rewrite app_nil_r.
    split; [reflexivity|]. split; [apply I|]. cbn. lia.
  - apply (mt_call _ 2 _ [] (Q q) _ _ _ _ (mt_ssl_read (e_alloc (r_env r)) (r_reads r) 0 None ltac:(intros x []))); [reflexivity|lia|].
    intros p o (Bo & Ho).
    assert (Lo : length o <= 1) by (destruct p; [subst o; cbn; lia|exact Ho]).
    assert (Stop : mt (12 + S (length rs)) (o ++ Q q) (tret q)
       (fun q1 o => exists J, o = Q q1 ++ J /\ Blocks (Q q1) /\ length J <= S (S (length rs)))).
    { apply (mt_ret _ _ _ _ (Q q ++ o)); [rewrite app_length; lia|apply Permutation_app_comm|].
      exists o. split; [reflexivity|]. split; [apply I|]. lia. }
    destruct (ssl_read_message (e_alloc (r_env r)) (r_reads r)) as [[[[rec|c] fr] rest]|u|]; try exact Stop.
    destruct p as [p|]; [|exact Stop]. subst o.
    destruct (lve_step cfg (r_env r) s rec) as [es [s1|u|]] eqn:ST; try exact Stop.
    assert (H1 : snd (lve_step cfg (r_env r) s rec) = Ok s1) by (rewrite ST; reflexivity).
    eapply (mt_call _ 11 _ (p :: Q q) [] _ _ _ _ (mt_step cfg (r_env r) s q p rec s1 I H1));
      [rewrite app_nil_r; reflexivity|cbn; lia|].
    intros q1 o (I1 & (J & -> & LJ & _)). rewrite app_nil_r. pose proof (Q_le q1) as L41.
    destruct (r_shutdown r).
    + apply (mt_ret _ _ _ _ (Q q1 ++ J)); [rewrite app_length; lia|reflexivity|].
      exists J. split; [reflexivity|]. split; [apply I1|]. lia.
    + eapply mt_conseq; [apply (mt_frame _ _ J _ _ (IH s1 q1 I1))|lia|].
      intros q2 o (o1 & -> & (J2 & -> & B2 & L2)). exists (Q q2 ++ J2 ++ J). split; [rewrite app_assoc; reflexivity|].
      exists (J2 ++ J). split; [reflexivity|]. split; [exact B2|]. rewrite app_length. lia.
Qed.

Lemma mt_loop_clean {D} cfg : forall (rs : list (round D)) s q, inv s q -> Forall (fun r => Clean (r_env r)) rs ->
  mt 11 (Q q) (m_loop cfg s q rs)
    (fun q1 o => exists J, o = Q q1 ++ J /\ Blocks o /\ length J <= 1).
Proof.
  induction rs as [|r rs IH]; intros s q I FA; pose proof (Q_le q) as L4; cbn [m_loop length].
  - apply (mt_ret _ _ _ _ (Q q)); [lia|reflexivity|]. exists []. rewrite app_nil_r.
    split; [reflexivity|]. split; [apply I|]. cbn. lia.
  - inversion FA as [|? ? Cr FA']; subst.
    apply (mt_call _ 2 _ [] (Q q) _ _ _ _ (mt_ssl_read (e_alloc (r_env r)) (r_reads r) 0 None ltac:(intros x []))); [reflexivity|lia|].
    intros p o (Bo & Ho).
    assert (Lo : length o <= 1) by (destruct p; [subst o; cbn; lia|exact Ho]).
    assert (Stop : mt 11 (o ++ Q q) (tret q)
       (fun q1 o => exists J, o = Q q1 ++ J /\ Blocks o /\ length J <= 1)).
    { apply (mt_ret _ _ _ _ (Q q ++ o)); [rewrite app_length; lia|apply Permutation_app_comm|].
      exists o. split; [reflexivity|]. split; [apply Blocks_app; split; [apply I|exact Bo]|]. lia. }
    destruct (ssl_read_message (e_alloc (r_env r)) (r_reads r)) as [[[[rec|c] fr] rest]|u|]; try exact Stop.
    destruct p as [p|]; [|exact Stop]. subst o.
    destruct (lve_step cfg (r_env r) s rec) as [es [s1|u|]] eqn:ST; try exact Stop.
    assert (H1 : snd (lve_step cfg (r_env r) s rec) = Ok s1) by (rewrite ST; reflexivity).
    eapply (mt_call _ 11 _ (p :: Q q) [] _ _ _ _ (mt_step cfg (r_env r) s q p rec s1 I H1));
      [rewrite app_nil_r; reflexivity|cbn; lia|].
    intros q1 o (I1 & (J & -> & LJ & CJ)). rewrite app_nil_r, (CJ Cr), app_nil_r. pose proof (Q_le q1) as L41.
    destruct (r_shutdown r).
    + apply (mt_ret _ _ _ _ (Q q1)); [lia|reflexivity|].
      exists []. rewrite app_nil_r. split; [reflexivity|]. split; [apply I1|]. cbn. lia.
    + exact (IH s1 q1 I1 FA').
Qed.

Lemma inv_start {D} cfg key es (s : lve D) : validate_pubkey cfg key fresh = (es, Ok s) ->
  inv s (with_err no_ptrs (match s_errmsg s with Some _ => Literal | None => NoText end)).
Proof.
  intros _. split; [destruct (s_errmsg s); intros r []|]. right. repeat split. destruct (s_errmsg s); reflexivity.
Qed.

(** From triples to sequences of calls. *)
Lemma mt_trace {A} k (m : T A) post : mt k [] m post ->
  let '(t, a, _) := m 0 in Proper t /\ AtMost k t /\ exists o, post a o /\ Permutation (held t) o.
Proof.
  intros M. specialize (M [] 0 ltac:(intros r []) ltac:(constructor)). destruct (m 0) as [[t a] n].
  destruct M as (o & P & R & S1 & _). rewrite !app_nil_r in *. cbn in S1. rewrite Nat.add_0_r in S1.
  split; [intros before x rest E; exact (safe_proper _ _ _ S1 _ _ _ E)|].
  split; [intros before rest E; exact (safe_bound _ _ _ S1 _ _ E)|].
  exists o. auto.
Qed.

Lemma mt_session {D} cfg key (rs : list (round D)) :
  mt (12 + length rs) [] (m_session cfg key rs)
    (fun q1 o => exists J, o = Q q1 ++ J /\ Blocks (Q q1) /\ length J <= S (length rs)).
Proof.
  unfold m_session. destruct (validate_pubkey cfg key fresh) as [es [s|u|]] eqn:V.
  - pose proof (mt_loop cfg rs s _ (inv_start cfg key es s V)) as H.
    replace (Q (with_err no_ptrs (match s_errmsg s with Some _ => Literal | None => NoText end))) with (@nil res) in H
      by (destruct (s_errmsg s); reflexivity). exact H.
  - apply (mt_ret _ _ _ _ []); [cbn; lia|reflexivity|]. exists []. split; [reflexivity|]. split; [intros r []|cbn; lia].
  - apply (mt_ret _ _ _ _ []); [cbn; lia|reflexivity|]. exists []. split; [reflexivity|]. split; [intros r []|cbn; lia].
Qed.

Lemma mt_session_clean {D} cfg key (rs : list (round D)) : Forall (fun r => Clean (r_env r)) rs ->
  mt 11 [] (m_session cfg key rs)
    (fun q1 o => exists J, o = Q q1 ++ J /\ Blocks o /\ length J <= 1).
Proof.
  intros FA. unfold m_session. destruct (validate_pubkey cfg key fresh) as [es [s|u|]] eqn:V.
  - pose proof (mt_loop_clean cfg rs s _ (inv_start cfg key es s V) FA) as H.
    replace (Q (with_err no_ptrs (match s_errmsg s with Some _ => Literal | None => NoText end))) with (@nil res) in H
      by (destruct (s_errmsg s); reflexivity). exact H.
  - apply (mt_ret _ _ _ _ []); [cbn; lia|reflexivity|]. exists []. split; [reflexivity|]. split; [intros r []|cbn; lia].
  - apply (mt_ret _ _ _ _ []); [cbn; lia|reflexivity|]. exists []. split; [reflexivity|]. split; [intros r []|cbn; lia].
Qed.

(** The end of the process. *)
Lemma mt_process {D} cfg key (rs : list (round D)) :
  mt (12 + length rs) [] (take q <- m_session cfg key rs ; m_shutdown q)
    (fun _ o => length o <= 3 + length rs).
Proof.
  eapply mt_bind; [apply mt_session|]. intros q o (J & -> & BQ & LJ). pose proof (Q_le q) as L4.
  assert (LQ : length (olist (q_cr q) ++ text_res (q_err q)) <= 2)
    by (rewrite app_length; pose proof (olist_le (q_cr q)); pose proof (text_le (q_err q)); lia).
  unfold m_shutdown.
  apply (mt_do_release _ _ _ ((olist (q_lib q) ++ olist (q_cr q) ++ text_res (q_err q)) ++ J));
    [unfold Q; perm|rewrite app_length; lia|].
  apply mt_last.
  apply (mt_do_release _ _ _ ((olist (q_cr q) ++ text_res (q_err q)) ++ J)); [perm| |].
  { pose proof (olist_le (q_lib q)). rewrite !app_length in *. lia. }
  apply (mt_ret _ _ _ _ ((olist (q_cr q) ++ text_res (q_err q)) ++ J)); [rewrite !app_length in *; lia|reflexivity|].
  rewrite !app_length in *. lia.
Qed.

Lemma mt_process_clean {D} cfg key (rs : list (round D)) : Forall (fun r => Clean (r_env r)) rs ->
  mt 11 [] (take q <- m_session cfg key rs ; m_shutdown q)
    (fun _ o => Blocks o /\ length o <= 3).
Proof.
  intros FA. eapply mt_bind; [apply mt_session_clean, FA|]. intros q o (J & -> & BQ & LJ). pose proof (Q_le q) as L4.
  apply Blocks_app in BQ as [BQ BJ].
  assert (BR : Blocks (olist (q_cr q) ++ text_res (q_err q))).
  { unfold Q in BQ. rewrite !Blocks_app in BQ. rewrite Blocks_app. tauto. }
  assert (LQ : length (olist (q_cr q) ++ text_res (q_err q)) <= 2)
    by (rewrite app_length; pose proof (olist_le (q_cr q)); pose proof (text_le (q_err q)); lia).
  unfold m_shutdown.
  apply (mt_do_release _ _ _ ((olist (q_lib q) ++ olist (q_cr q) ++ text_res (q_err q)) ++ J));
    [unfold Q; perm|rewrite app_length; lia|].
  apply mt_last.
  apply (mt_do_release _ _ _ ((olist (q_cr q) ++ text_res (q_err q)) ++ J)); [perm| |].
  { pose proof (olist_le (q_lib q)). rewrite !app_length in *. lia. }
  apply (mt_ret _ _ _ _ ((olist (q_cr q) ++ text_res (q_err q)) ++ J)); [rewrite !app_length in *; lia|reflexivity|].
  split; [apply Blocks_app; auto|]. rewrite !app_length in *. lia.
Qed.

Lemma process_proper {D} cfg key (rs : list (round D)) : Proper (process_memory cfg key rs) /\
  AtMost (12 + length rs) (process_memory cfg key rs) /\ length (held (process_memory cfg key rs)) <= 3 + length rs.
Proof.
  pose proof (mt_trace _ _ _ (mt_process cfg key rs)) as H. unfold process_memory.
  destruct (tbind _ _ 0) as [[t a] n]. destruct H as (P & M & o & L & E).
  split; [exact P|]. split; [exact M|]. rewrite (Permutation_length E). exact L.
Qed.

Lemma blocks_only l : Blocks l -> streams l = [].
Proof.
  induction l as [|r l IH]; [reflexivity|]. intros H. destruct (H r (or_introl eq_refl)) as [n ->]. cbn.
  apply IH. intros x Hx. apply H. now right.
Qed.

Lemma process_plenty {D} cfg key (rs : list (round D)) : Forall (fun r => Plenty (r_env r)) rs ->
  AtMost 11 (process_memory cfg key rs) /\ streams (held (process_memory cfg key rs)) = [] /\
  length (held (process_memory cfg key rs)) <= 3.
Proof.
  intros H. pose proof (mt_trace _ _ _ (mt_process_clean cfg key rs H)) as K. unfold process_memory.
  destruct (tbind _ _ 0) as [[t a] n]. destruct K as (P & M & o & (BO & L) & E).
  split; [exact M|]. split; [apply blocks_only|rewrite (Permutation_length E); exact L].
  intros r Hr. apply BO. apply (Permutation_in _ E Hr).
Qed.
