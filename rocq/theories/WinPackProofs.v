(** Proofs about packaging on Windows: copying, the icon, the archive, removal. *)
From Verif Require Import Base BaseProofs ArgsModel ManifestModel CryptModel CryptSpec PackageModel PackageSpec TreeProofs CopyProofs PackCopyModel
  WinPackModel WinPackSpec.

Lemma backslashed_cons n p : p <> [] -> backslashed (n :: p) = n ++ [BSLASH] ++ backslashed p.
Proof. destruct p; [congruence|reflexivity]. Qed.

(** ** Copying *)

Definition copywin_list (c : bytes -> copy_calls) (w : world) (from to : bytes) : entries -> option entries -> outcome (bool * option entries) :=
  fix go (es : entries) (dst : option entries) : outcome (bool * option entries) :=
    match es with
    | [] => Ok (true, dst)
    | (n, x) :: r =>
        if beq n DOT_LIBRARY then go r dst
        else
          do p <- fit MAX_PATH_LENGTH (back_join from n) ;
          do q <- fit MAX_PATH_LENGTH (back_join to n) ;
          match x with
          | Folder _ =>
              let sub := match dst with
                         | None => None
                         | Some l => match lookup l n with
                                     | None => if w_mkdir w q then Some [] else None
                                     | Some (Folder s) => Some s
                                     | Some _ => None
                                     end
                         end in
              do (_, sub') <- copy_win c w p q x sub ;
              go r (match dst, sub' with Some l, Some s => Some (set_entry n (Folder s) l) | _, _ => dst end)
          | Reg d =>
              if y_stat (c p) && y_calloc (c p) then
                if y_open_read (c p) then
                  match dst with
                  | Some l =>
                      if y_open_write (c p) && match lookup l n with Some (Folder _) => false | _ => true end then
                        let data := firstn (y_read (c p)) d ++ repeat NUL (length d - y_read (c p)) in
                        go r (Some (set_entry n (Reg (firstn (y_write (c p)) data)) l))
                      else UB NullDeref
                  | None => UB NullDeref
                  end
                else UB NullDeref
              else Ok (false, dst)
          | Other => go r dst
          end
    end.
Lemma copywin_folder c w from to es dst : copy_win c w from to (Folder es) dst =
  if w_opendir w Copying from then copywin_list c w from to es dst else Ok (false, dst).
Proof. reflexivity. Qed.
Lemma copywin_cons c w from to n x r dst : copywin_list c w from to ((n, x) :: r) dst =
  if beq n DOT_LIBRARY then copywin_list c w from to r dst
  else
    do p <- fit MAX_PATH_LENGTH (back_join from n) ;
    do q <- fit MAX_PATH_LENGTH (back_join to n) ;
    match x with
    | Folder _ =>
        do (_, sub') <- copy_win c w p q x (match dst with
                   | None => None
                   | Some l => match lookup l n with
                               | None => if w_mkdir w q then Some [] else None
                               | Some (Folder s) => Some s
                               | Some _ => None
                               end
                   end) ;
        copywin_list c w from to r (match dst, sub' with Some l, Some s => Some (set_entry n (Folder s) l) | _, _ => dst end)
    | Reg d =>
        if y_stat (c p) && y_calloc (c p) then
          if y_open_read (c p) then
            match dst with
            | Some l =>
                if y_open_write (c p) && match lookup l n with Some (Folder _) => false | _ => true end then
                  copywin_list c w from to r
                    (Some (set_entry n (Reg (firstn (y_write (c p)) (firstn (y_read (c p)) d ++ repeat NUL (length d - y_read (c p))))) l))
                else UB NullDeref
            | None => UB NullDeref
            end
          else UB NullDeref
        else Ok (false, dst)
    | Other => copywin_list c w from to r dst
    end.
Proof. reflexivity. Qed.

(** What is copied of a directory. *)
Fixpoint strip (t : tree) : tree :=
  match t with
  | Folder es =>
      Folder ((fix go (es : entries) : entries :=
                 match es with
                 | [] => []
                 | (n, x) :: r => if beq n DOT_LIBRARY then go r else match x with Other => go r | _ => (n, strip x) :: go r end
                 end) es)
  | _ => t
  end.
Definition strip_list (es : entries) : entries := match strip (Folder es) with Folder l => l | _ => [] end.
Lemma strip_folder es : strip (Folder es) = Folder (strip_list es).
Proof. reflexivity. Qed.
Lemma strip_cons n x r : strip_list ((n, x) :: r) = if beq n DOT_LIBRARY then strip_list r else match x with Other => strip_list r | _ => (n, strip x) :: strip_list r end.
Proof. reflexivity. Qed.
Lemma strip_in n y es : In (n, y) (strip_list es) <-> exists x, In (n, x) es /\ n <> DOT_LIBRARY /\ x <> Other /\ y = strip x.
Proof.
  induction es as [|[m z] r IH]; [cbn; split; [tauto|intros (x & [] & _)]|]. rewrite strip_cons. destruct (beq m DOT_LIBRARY) eqn:E.
  - apply beq_true in E. rewrite IH. split; intros (x & I & N & O & Y).
    + exists x. split; [now right|]. now repeat split.
    + destruct I as [I|I]; [congruence|]. exists x. now repeat split.
  - apply beq_false in E. assert (G : (exists x, In (n, x) ((m, z) :: r) /\ n <> DOT_LIBRARY /\ x <> Other /\ y = strip x) <->
      (n = m /\ z <> Other /\ y = strip z) \/ In (n, y) (strip_list r)).
    { rewrite IH. split.
      - intros (x & [I|I] & N & O & Y); [left; injection I as <- <-; now repeat split|right; exists x; now repeat split].
      - intros [(-> & O & Y)|(x & I & N & O & Y)]; [exists z; split; [now left|now repeat split]|exists x; split; [now right|now repeat split]]. }
    rewrite G. destruct z as [d|fs|]; cbn [In].
    + split; intros [H|H]; [left; injection H as <- <-; now repeat split|now right|left; destruct H as (-> & _ & ->); reflexivity|now right].
    + split; intros [H|H]; [left; injection H as <- <-; split; [reflexivity|now split]|now right|left; destruct H as (-> & _ & ->); reflexivity|now right].
    + split; [now right|]. intros [(_ & H & _)|H]; [now destruct H|exact H].
Qed.
Lemma strip_at t : forall p x, At (strip t) p x <-> exists y, At t p y /\ ~ In DOT_LIBRARY p /\ x = strip y /\ (y <> Other \/ p = []).
Proof.
  induction t as [d| |es IH] using tree_induction; intros p x.
  - cbn [strip]. rewrite at_reg. split.
    + intros [-> ->]. exists (Reg d). split; [constructor|]. split; [easy|]. split; [reflexivity|now right].
    + intros (y & A & _ & -> & _). apply at_reg in A. destruct A as [-> ->]. now split.
  - cbn [strip]. rewrite at_other. split.
    + intros [-> ->]. exists Other. split; [constructor|]. split; [easy|]. split; [reflexivity|now right].
    + intros (y & A & _ & -> & _). apply at_other in A. destruct A as [-> ->]. now split.
  - rewrite strip_folder. destruct p as [|n p].
    + rewrite at_nil. split.
      * intros <-. exists (Folder es). split; [constructor|]. split; [easy|]. split; [reflexivity|now right].
      * intros (y & A & _ & -> & _). apply at_nil in A. now subst.
    + rewrite at_cons. split.
      * intros (z & I & A). apply strip_in in I. destruct I as (u & I & N & O & ->).
        apply (IH n u I) in A. destruct A as (y & A & Np & -> & Y). exists y. split; [apply at_cons; now exists u|].
        split; [intros [H|H]; [congruence|contradiction]|]. split; [reflexivity|]. left. destruct Y as [Y| ->]; [exact Y|]. apply at_nil in A. now subst.
      * intros (y & A & Np & -> & Y). apply at_cons in A. destruct A as (u & I & A). exists (strip u). split.
        -- apply strip_in. exists u. split; [exact I|]. split; [intros E; apply Np; now left|]. split; [|reflexivity].
           intros ->. apply at_other in A. destruct A as [-> ->]. destruct Y as [Y|Y]; [congruence|discriminate].
        -- apply (IH n u I). exists y. split; [exact A|]. split; [intros H; apply Np; now right|]. split; [reflexivity|]. left. destruct Y as [Y|Y]; [exact Y|discriminate].
Qed.
Lemma strip_names es : incl (map fst (strip_list es)) (map fst es).
Proof.
  intros n I. apply in_map_iff in I. destruct I as ([m y] & <- & I). apply strip_in in I. destruct I as (x & I & _). now apply (in_map fst) in I.
Qed.

Definition AllFine (c : bytes -> copy_calls) : Prop := forall p d, Fine (c p) d.
(** Nothing goes wrong: an exact copy. *)
Lemma copywin_exact c w : (forall p, w_opendir w Copying p = true) -> (forall p, w_mkdir w p = true) ->
  forall t from to, Proper t -> (forall p d, At t p (Reg d) -> Fine (c (from ++ match p with [] => [] | _ => [BSLASH] ++ backslashed p end)) d) ->
  forall es, t = Folder es -> copy_win c w from to t (Some []) = Ok (true, Some (strip_list es)) \/ copy_win c w from to t (Some []) = Blocked.
Proof.
  intros Wo Wm. induction t as [d| |es IH] using tree_induction; intros from to P F fs E; [discriminate|discriminate|]. injection E as <-.
  rewrite copywin_folder, Wo. apply proper_folder in P. destruct P as [ND P].
  assert (G : forall l r, (forall n x, In (n, x) r -> In (n, x) es) -> NoDup (map fst r) -> (forall n, In n (map fst l) -> ~ In n (map fst r)) ->
    copywin_list c w from to r (Some l) = Ok (true, Some (l ++ strip_list r)) \/ copywin_list c w from to r (Some l) = Blocked).
  { intros l r. revert l. induction r as [|[n x] r IHr]; intros l I N D.
    - left. cbn. now rewrite app_nil_r.
    - rewrite copywin_cons, strip_cons. cbn [map fst] in N, D. inversion N as [|? ? Nn N']; subst.
      assert (D' : forall m, In m (map fst l) -> ~ In m (map fst r)) by (intros m Hm Hr; apply (D m Hm); now right).
      assert (D2 : forall m y, In m (map fst (l ++ [(n, y)])) -> ~ In m (map fst r)).
      { intros m y Hm Hr. rewrite map_app in Hm. apply in_app_or in Hm. destruct Hm as [Hm|[Hm|[]]]; [now apply (D' m)|]. cbn [fst] in Hm. subst. contradiction. }
      assert (Nl : ~ In n (map fst l)) by (intros H; apply (D n H); now left).
      assert (I' : forall m y, In (m, y) r -> In (m, y) es) by (intros m y H; apply I; now right).
      destruct (beq n DOT_LIBRARY); [now apply IHr|].
      destruct (fit MAX_PATH_LENGTH (back_join from n)) as [p|u|] eqn:Fp; [|unfold fit in Fp; destruct (_ <? _); discriminate|now right].
      apply fit_ok in Fp. destruct Fp as [-> _]. cbn [bind].
      destruct (fit MAX_PATH_LENGTH (back_join to n)) as [q|u|] eqn:Fq; [|unfold fit in Fq; destruct (_ <? _); discriminate|now right].
      apply fit_ok in Fq. destruct Fq as [-> _]. cbn [bind].
      assert (L : lookup l n = None) by now apply lookup_none. rewrite L.
      assert (In (n, x) es) as Ix by (apply I; now left).
      destruct x as [d|gs|].
      + assert (Fi : Fine (c (back_join from n)) d) by (apply (F [n] d); apply at_cons; exists (Reg d); split; [exact Ix|constructor]).
        destruct Fi as (-> & -> & -> & R & -> & W'). cbn [andb].
        rewrite (firstn_all2 (n := y_read _)) by exact R. replace (length d - _) with 0 by lia. cbn [repeat]. rewrite app_nil_r, firstn_all2 by exact W'.
        rewrite set_entry_absent by exact Nl. specialize (IHr (l ++ [(n, Reg d)]) I' N' (fun m => D2 m (Reg d))).
        rewrite <- app_assoc in IHr. exact IHr.
      + rewrite Wm. assert (Hs : copy_win c w (back_join from n) (back_join to n) (Folder gs) (Some []) = Ok (true, Some (strip_list gs)) \/
          copy_win c w (back_join from n) (back_join to n) (Folder gs) (Some []) = Blocked).
        { apply (IH n _ Ix _ _ (proj2 (P _ _ Ix))); [|reflexivity]. intros p d A. specialize (F (n :: p) d).
          destruct p as [|m p]; [apply at_nil in A; discriminate|]. rewrite backslashed_cons in F by discriminate.
          unfold back_join. rewrite <- !app_assoc. apply F. apply at_cons. exists (Folder gs). now split. }
        destruct Hs as [-> | ->]; [|now right]. cbn [bind]. rewrite set_entry_absent by exact Nl.
        specialize (IHr (l ++ [(n, Folder (strip_list gs))]) I' N' (fun m => D2 m _)). rewrite <- app_assoc in IHr. exact IHr.
      + now apply IHr. }
  apply (G [] es); [easy|exact ND|easy].
Qed.

(** A file that cannot be opened is fatal. *)
Lemma copywin_fatal c w : Enumerates w -> forall t from to, Proper t ->
  (forall p, y_stat (c p) = true /\ y_calloc (c p) = true /\ y_open_write (c p) = true) ->
  forall q d, At t q (Reg d) -> q <> [] -> ~ In DOT_LIBRARY q -> y_open_read (c (from ++ [BSLASH] ++ backslashed q)) = false ->
  (exists u, copy_win c w from to t (Some []) = UB u) \/ copy_win c w from to t (Some []) = Blocked.
Proof.
  intros [Wo Wm]. induction t as [d0| |es IH] using tree_induction; intros from to P F q d A Q NL O.
  1: { apply at_reg in A. destruct A. contradiction. }
  1: { apply at_other in A. destruct A. contradiction. }
  destruct q as [|n0 q]; [contradiction|]. apply at_cons in A. destruct A as (x0 & I0 & A). rewrite copywin_folder, Wo.
  apply proper_folder in P. destruct P as [ND P]. clear Q.
  assert (Noub : forall t from to, Proper t -> (exists e, t = Folder e) -> forall b o, copy_win c w from to t (Some []) = Ok (b, o) -> exists s, o = Some s).
  { clear - Wo Wm F. induction t as [d0| |es IH] using tree_induction; intros from to P [e E] b o H; [discriminate|discriminate|]. clear e E.
    rewrite copywin_folder, Wo in H. assert (G : forall r l, copywin_list c w from to r (Some l) = Ok (b, o) -> exists s, o = Some s).
    { induction r as [|[n x] r IHr]; intros l Hl; [injection Hl as _ <-; now exists l|]. rewrite copywin_cons in Hl.
      destruct (beq n DOT_LIBRARY); [now apply (IHr l)|].
      destruct (fit MAX_PATH_LENGTH (back_join from n)) as [p|u|]; [|discriminate|discriminate]. cbn [bind] in Hl.
      destruct (fit MAX_PATH_LENGTH (back_join to n)) as [q|u|]; [|discriminate|discriminate]. cbn [bind] in Hl.
      destruct x as [d|gs|]; [| |now apply (IHr l)].
      - destruct (F p) as (S1 & S2 & S3). rewrite S1, S2, S3 in Hl. cbn [andb] in Hl. revert Hl. destruct (y_open_read (c p)); [|discriminate].
        match goal with |- (if ?b then _ else _) = _ -> _ => destruct b end; [|discriminate]. apply IHr.
      - match type of Hl with bind ?X _ = _ => destruct X as [[b' o']|u|] end; [|discriminate|discriminate]. cbn [bind] in Hl.
        destruct o' as [s|]; eapply IHr; exact Hl. }
    now apply (G es []). }
  assert (G : forall l r, (forall n x, In (n, x) r -> In (n, x) es) -> NoDup (map fst r) -> (forall n, In n (map fst l) -> ~ In n (map fst r)) -> In (n0, x0) r ->
    (exists u, copywin_list c w from to r (Some l) = UB u) \/ copywin_list c w from to r (Some l) = Blocked).
  { intros l r. revert l. induction r as [|[n x] r IHr]; intros l I N D I1; [contradiction|]. rewrite copywin_cons. cbn [map fst] in N, D.
    inversion N as [|? ? Nn N']; subst.
    assert (D' : forall m, In m (map fst l) -> ~ In m (map fst r)) by (intros m Hm Hr; apply (D m Hm); now right).
    assert (D2 : forall m y, In m (map fst (l ++ [(n, y)])) -> ~ In m (map fst r)).
    { intros m y Hm Hr. rewrite map_app in Hm. apply in_app_or in Hm. destruct Hm as [Hm|[Hm|[]]]; [now apply (D' m)|]. cbn [fst] in Hm. subst. contradiction. }
    assert (Nl : ~ In n (map fst l)) by (intros H; apply (D n H); now left).
    assert (I' : forall m y, In (m, y) r -> In (m, y) es) by (intros m y H; apply I; now right).
    destruct (beq n DOT_LIBRARY) eqn:Eb.
    { apply beq_true in Eb. subst. destruct I1 as [I1|I1]; [injection I1 as <- <-; exfalso; apply NL; now left|]. now apply IHr. }
    destruct (fit MAX_PATH_LENGTH (back_join from n)) as [p|u|] eqn:Fp; [|unfold fit in Fp; destruct (_ <? _); discriminate|now right].
    apply fit_ok in Fp. destruct Fp as [-> _]. cbn [bind].
    destruct (fit MAX_PATH_LENGTH (back_join to n)) as [q'|u|] eqn:Fq; [|unfold fit in Fq; destruct (_ <? _); discriminate|now right].
    apply fit_ok in Fq. destruct Fq as [-> _]. cbn [bind].
    assert (L : lookup l n = None) by now apply lookup_none. rewrite L.
    assert (Ix : In (n, x) es) by (apply I; now left).
    destruct I1 as [I1|I1].
    - injection I1 as <- <-. destruct x as [d1|gs|].
      + apply at_reg in A. destruct A as [-> _]. cbn [backslashed] in O. fold (back_join from n) in O. rewrite O.
        destruct (F (back_join from n)) as (S1 & S2 & S3). rewrite S1, S2. left. now exists NullDeref.
      + rewrite Wm. assert (Hq : q <> []) by (intros ->; apply at_nil in A; discriminate).
        rewrite backslashed_cons in O by exact Hq.
        destruct (IH n _ Ix (back_join from n) (back_join to n) (proj2 (P _ _ Ix)) F q d A Hq) as [[u ->] | ->].
        * intros H. apply NL. now right.
        * unfold back_join. rewrite <- !app_assoc. exact O.
        * left. now exists u.
        * now right.
      + apply at_other in A. destruct A as [_ A]. discriminate.
    - destruct x as [d1|gs|].
      + destruct (F (back_join from n)) as (-> & -> & ->). cbn [andb]. destruct (y_open_read (c (back_join from n))); [|left; now exists NullDeref].
        rewrite set_entry_absent by exact Nl. apply IHr; [exact I'|exact N'|intros m; apply D2|exact I1].
      + rewrite Wm. destruct (copy_win c w (back_join from n) (back_join to n) (Folder gs) (Some [])) as [[b o]|u|] eqn:Ec.
        * destruct (Noub _ _ _ (proj2 (P _ _ Ix)) (ex_intro _ gs eq_refl) _ _ Ec) as [s ->]. cbn [bind]. rewrite set_entry_absent by exact Nl.
          apply IHr; [exact I'|exact N'|intros m; apply D2|exact I1].
        * left. now exists u.
        * now right.
      + now apply IHr. }
  apply (G [] es); [easy|exact ND|easy|exact I0].
Qed.

(** ** The icon *)

Definition findwin_list (w : world) (filename path : bytes) : entries -> option bytes -> outcome (bool * option bytes) :=
  fix go (es : entries) (icon : option bytes) : outcome (bool * option bytes) :=
    match es with
    | [] => Ok (true, icon)
    | (n, x) :: r =>
        do p <- fit (MAX_PATH_LENGTH + 1) (back_join path n) ;
        match x with
        | Folder _ => do (found, icon') <- find_win w filename p x icon ; if found then Ok (true, icon') else go r icon'
        | Reg _ => go r (if beq n filename then Some p else icon)
        | Other => go r icon
        end
    end.
Lemma findwin_folder w f path es icon : find_win w f path (Folder es) icon =
  if w_opendir w Searching path then findwin_list w f path es icon else Ok (false, icon).
Proof. reflexivity. Qed.
Lemma findwin_cons w f path n x r icon : findwin_list w f path ((n, x) :: r) icon =
  do p <- fit (MAX_PATH_LENGTH + 1) (back_join path n) ;
  match x with
  | Folder _ => do (found, icon') <- find_win w f p x icon ; if found then Ok (true, icon') else findwin_list w f path r icon'
  | Reg _ => findwin_list w f path r (if beq n f then Some p else icon)
  | Other => findwin_list w f path r icon
  end.
Proof. reflexivity. Qed.

Lemma seen_nonempty f es p : Seen f es p -> p <> [].
Proof. destruct 1; discriminate. Qed.
Lemma seen_skip f n x r p : ~ IsFolder x -> Seen f r p -> Seen f ((n, x) :: r) p.
Proof.
  intros N [pre d post Hp|pre m es post q Hp Hs].
  - apply (Seen_file f ((n, x) :: pre) d post). now constructor.
  - apply (Seen_below f ((n, x) :: pre) m es post q); [now constructor|exact Hs].
Qed.
Lemma seen_inv f n x r p : Seen f ((n, x) :: r) p ->
  (exists d, x = Reg d /\ n = f /\ p = [f]) \/ (exists fs q, x = Folder fs /\ p = n :: q /\ Seen f fs q) \/ (~ IsFolder x /\ Seen f r p).
Proof.
  intros H. remember ((n, x) :: r) as es eqn:E. destruct H as [pre d post Hp|pre m fs post q Hp Hs]; destruct pre as [|e pre]; cbn [app] in E.
  - injection E as -> <- <-. left. now exists d.
  - injection E as -> <-. right. right. apply Forall_cons_iff in Hp. destruct Hp as [N Hp]. split; [exact N|now constructor].
  - injection E as <- <- <-. right. left. now exists fs, q.
  - injection E as -> <-. right. right. apply Forall_cons_iff in Hp. destruct Hp as [N Hp]. split; [exact N|now constructor].
Qed.

Lemma findwin_spec w f : (forall p, w_opendir w Searching p = true) -> forall t path icon es, t = Folder es ->
  find_win w f path t icon = Blocked \/
  exists icon', find_win w f path t icon = Ok (true, icon') /\
    ((icon' = icon /\ forall p, ~ Seen f es p) \/ exists p, Seen f es p /\ icon' = Some (path ++ [BSLASH] ++ backslashed p)).
Proof.
  intros Wo. induction t as [d| |es0 IH] using tree_induction; intros path icon es E; [discriminate|discriminate|]. injection E as <-.
  rewrite findwin_folder, Wo. revert icon. induction es0 as [|[n x] r IHr]; intros icon.
  - right. exists icon. split; [reflexivity|]. left. split; [reflexivity|]. intros p H. remember [] as es eqn:E. destruct H as [pre ? ?|pre ? ? ?]; destruct pre; discriminate.
  - rewrite findwin_cons. assert (IH' : forall m y, In (m, y) r -> forall path icon es, y = Folder es -> _) by (intros m y I; apply (IH m y); now right).
    specialize (IHr IH'). destruct (fit (MAX_PATH_LENGTH + 1) (back_join path n)) as [q|u|] eqn:Fq; [|unfold fit in Fq; destruct (_ <? _); discriminate|now left].
    apply fit_ok in Fq. destruct Fq as [-> _]. cbn [bind]. destruct x as [d|gs|].
    + assert (NF : ~ IsFolder (Reg d)) by (intros [? H]; discriminate H).
      destruct (IHr (if beq n f then Some (back_join path n) else icon)) as [->|(i' & -> & H)]; [now left|]. right. exists i'. split; [reflexivity|].
      destruct H as [[-> H]|(p & S1 & ->)].
      * destruct (beq n f) eqn:Eb.
        -- apply beq_true in Eb. subst n. right. exists [f]. split; [now apply (Seen_file f [] d r)|reflexivity].
        -- apply beq_false in Eb. left. split; [reflexivity|]. intros p S1. destruct (seen_inv _ _ _ _ _ S1) as [(d' & _ & Nf & _)|[(fs & q & X & _)|[_ X]]]; [contradiction|discriminate|now apply (H p)].
      * right. exists p. split; [now apply seen_skip|reflexivity].
    + destruct (IH n _ (or_introl eq_refl) (back_join path n) icon gs eq_refl) as [->|(i' & -> & H)]; [now left|]. cbn [bind]. right. exists i'. split; [reflexivity|].
      destruct H as [[-> H]|(p & S1 & ->)].
      * left. split; [reflexivity|]. intros p S1. destruct (seen_inv _ _ _ _ _ S1) as [(d' & X & _)|[(fs & q & X & _ & X')|[X _]]]; [discriminate| |].
        -- injection X as <-. now apply (H q).
        -- apply X. now exists gs.
      * right. exists (n :: p). split; [now apply (Seen_below f [] n gs r p)|].
        rewrite backslashed_cons by exact (seen_nonempty _ _ _ S1). unfold back_join. now rewrite <- !app_assoc.
    + assert (NF : ~ IsFolder Other) by (intros [? H]; discriminate H).
      destruct (IHr icon) as [->|(i' & -> & H)]; [now left|]. right. exists i'. split; [reflexivity|].
      destruct H as [[-> H]|(p & S1 & ->)].
      * left. split; [reflexivity|]. intros p S1. destruct (seen_inv _ _ _ _ _ S1) as [(d' & X & _)|[(fs & q & X & _)|[_ X]]]; [discriminate|discriminate|now apply (H p)].
      * right. exists p. split; [now apply seen_skip|reflexivity].
Qed.

(** A folder that comes first ends the search. *)
Lemma byname_first es n x : ByName es -> In (n, x) es -> Ordinary n es -> first_byte n < 48 -> NoDup (map fst es) -> exists r, es = (n, x) :: r.
Proof.
  intros Bn I O L ND. destruct es as [|[m y] r]; [contradiction|]. destruct I as [I|I]; [injection I as -> ->; now exists r|].
  exfalso. inversion Bn as [|e r' H _]; subst. specialize (H _ I). cbn [fst] in H.
  destruct (O m y (or_introl eq_refl)) as [->|O']; [|lia]. cbn [map fst] in ND. inversion ND as [|? ? Nm _]; subst. apply Nm. now apply (in_map fst) in I.
Qed.

(** ** The archive *)

Definition zipwin_list (c : bytes -> copy_calls) (w : world) (staging : bytes) (encrypted : bool) (path : bytes)
  : entries -> bool -> outcome (bool * list (bytes * bytes)) :=
  fix go (es : entries) (result : bool) : outcome (bool * list (bytes * bytes)) :=
    match es with
    | [] => Ok (result, [])
    | (n, x) :: r =>
        do p <- fit MAX_PATH_LENGTH (back_join path n) ;
        match x with
        | Folder _ =>
            do (ok, l1) <- zip_win c w staging encrypted p x ;
            if ok then do (ok2, l2) <- go r true ; Ok (ok2, l1 ++ l2) else Ok (false, l1)
        | Reg d =>
            if negb encrypted || negb (is_modelica n) then
              if y_stat (c p) && y_calloc (c p) then
                if y_open_read (c p) then
                  if (length d <=? y_read (c p)) && w_zip_add w p then
                    do (ok2, l2) <- go r true ; Ok (ok2, (zip_name_win staging p, d) :: l2)
                  else Ok (false, [])
                else UB NullDeref
              else Ok (false, [])
            else go r result
        | Other => go r result
        end
    end.
Lemma zipwin_folder c w st enc path es : zip_win c w st enc path (Folder es) =
  if w_opendir w Zipping path then zipwin_list c w st enc path es false else Ok (false, []).
Proof. reflexivity. Qed.
Lemma zipwin_cons c w st enc path n x r res : zipwin_list c w st enc path ((n, x) :: r) res =
  do p <- fit MAX_PATH_LENGTH (back_join path n) ;
  match x with
  | Folder _ =>
      do (ok, l1) <- zip_win c w st enc p x ;
      if ok then do (ok2, l2) <- zipwin_list c w st enc path r true ; Ok (ok2, l1 ++ l2) else Ok (false, l1)
  | Reg d =>
      if negb enc || negb (is_modelica n) then
        if y_stat (c p) && y_calloc (c p) then
          if y_open_read (c p) then
            if (length d <=? y_read (c p)) && w_zip_add w p then
              do (ok2, l2) <- zipwin_list c w st enc path r true ; Ok (ok2, (zip_name_win st p, d) :: l2)
            else Ok (false, [])
          else UB NullDeref
        else Ok (false, [])
      else zipwin_list c w st enc path r res
  | Other => zipwin_list c w st enc path r res
  end.
Proof. reflexivity. Qed.

(** The files of a directory that belong into the archive. *)
Definition Listing (enc : bool) (t : tree) (L : list (list bytes * bytes)) : Prop :=
  NoDup (map fst L) /\ forall p d, In (p, d) L <-> At t p (Reg d) /\ exists dir n, p = dir ++ [n] /\ Shown enc n.
Definition ListingOf (enc : bool) (es : entries) (L : list (list bytes * bytes)) : Prop := Listing enc (Folder es) L.

Lemma shown_dec enc n : negb enc || negb (is_modelica n) = true <-> Shown enc n.
Proof.
  unfold Shown. rewrite orb_true_iff, !negb_true_iff. destruct enc.
  - split.
    + intros [H|H]; [discriminate|]. intros _ M. apply is_modelica_spec in M. congruence.
    + intros H. right. destruct (is_modelica n) eqn:E; [|reflexivity]. apply is_modelica_spec in E. now destruct (H eq_refl).
  - split; [discriminate|now left].
Qed.

Lemma listing_cons_skip enc n x r L : (forall p d, At x p (Reg d) -> p = [] /\ ~ Shown enc n) -> Listing enc (Folder r) L -> Listing enc (Folder ((n, x) :: r)) L.
Proof.
  intros X [ND H]. split; [exact ND|]. intros p d. rewrite H. split; intros [A S1]; split; try exact S1.
  - destruct p as [|m p]; [apply at_nil in A; discriminate|]. apply at_cons in A. destruct A as (y & I & A). apply at_cons. exists y. split; [now right|exact A].
  - destruct p as [|m p]; [apply at_nil in A; discriminate|]. apply at_cons in A. destruct A as (y & [I|I] & A); [|apply at_cons; now exists y].
    exfalso. injection I as <- <-. destruct (X p d A) as [-> N]. destruct S1 as (dir & k & E & S1). apply app_inj_tail with (x := []) in E as [_ <-]. contradiction.
Qed.
Lemma listing_cons enc n x r L1 L2 : ~ In n (map fst r) -> (forall p d, In (p, d) L1 <-> At x p (Reg d) /\ exists dir k, n :: p = dir ++ [k] /\ Shown enc k) -> NoDup (map fst L1) ->
  Listing enc (Folder r) L2 -> Listing enc (Folder ((n, x) :: r)) (map (fun e => (n :: fst e, snd e)) L1 ++ L2).
Proof.
  intros N H1 ND1 [ND2 H2]. split.
  - rewrite map_app, map_map. cbn [fst]. rewrite <- (map_map fst (cons n)).
    assert (G : forall q, In q (map (cons n) (map fst L1)) -> ~ In q (map fst L2)).
    { intros q I1 I2. apply in_map_iff in I1. destruct I1 as (p & <- & _). apply in_map_iff in I2. destruct I2 as ([q d] & E & I2). cbn [fst] in E. subst q.
      apply H2 in I2. destruct I2 as [A _]. apply at_cons in A. destruct A as (y & I & _). apply N. now apply (in_map fst) in I. }
    revert G. generalize (map fst L2) ND2. intros M NM G. induction (map fst L1) as [|p l IH]; [exact NM|]. cbn [map app]. inversion ND1 as [|? ? Np ND']; subst. constructor.
    + rewrite in_app_iff. intros [I|I]; [|apply (G (n :: p)); [now left|exact I]]. apply in_map_iff in I. destruct I as (p' & E & I). injection E as ->. contradiction.
    + apply IH; [exact ND'|]. intros q I. apply G. now right.
  - intros p d. rewrite in_app_iff, H2. split.
    + intros [I|[A S1]].
      * apply in_map_iff in I. destruct I as ([q e] & E & I). cbn [fst snd] in E. injection E as <- ->. apply H1 in I. destruct I as [A S1]. split; [|exact S1].
        apply at_cons. exists x. split; [now left|exact A].
      * split; [|exact S1]. destruct p as [|m p]; [apply at_nil in A; discriminate|]. apply at_cons in A. destruct A as (y & I & A). apply at_cons. exists y. split; [now right|exact A].
    + intros [A S1]. destruct p as [|m p]; [apply at_nil in A; discriminate|]. apply at_cons in A. destruct A as (y & [I|I] & A).
      * injection I as <- <-. left. apply in_map_iff. exists (p, d). split; [reflexivity|]. apply H1. now split.
      * right. split; [|exact S1]. apply at_cons. now exists y.
Qed.

Lemma zipwin_spec c w st enc : (forall p, w_opendir w Zipping p = true) -> (forall p, w_zip_add w p = true) -> forall t path es, t = Folder es -> Proper t ->
  (forall p d, At t p (Reg d) -> Fine (c (path ++ [BSLASH] ++ backslashed p)) d) ->
  zip_win c w st enc path t = Blocked \/
  exists ok l, zip_win c w st enc path t = Ok (ok, l) /\ (ok = true <-> Filled enc t) /\
    (ok = true -> exists L, Listing enc t L /\ l = map (fun e => (zip_name_win st (path ++ [BSLASH] ++ backslashed (fst e)), snd e)) L /\
       forall p d, In (p, d) L -> length (path ++ [BSLASH] ++ backslashed p) < MAX_PATH_LENGTH).
Proof.
  intros Wo Wz. induction t as [d| |es0 IH] using tree_induction; intros path es E P F; [discriminate|discriminate|]. clear es E.
  rewrite zipwin_folder, Wo. apply proper_folder in P. destruct P as [ND P].
  assert (G : forall r res, (forall n x, In (n, x) r -> In (n, x) es0) -> NoDup (map fst r) ->
    zipwin_list c w st enc path r res = Blocked \/
    exists ok l, zipwin_list c w st enc path r res = Ok (ok, l) /\
      (ok = true <-> (res = true \/ exists n x, In (n, x) r /\ (IsFolder x \/ ((exists d, x = Reg d) /\ Shown enc n))) /\ forall m y, In (m, y) r -> Filled enc y) /\
      (ok = true -> exists L, Listing enc (Folder r) L /\ l = map (fun e => (zip_name_win st (path ++ [BSLASH] ++ backslashed (fst e)), snd e)) L /\
         forall p d, In (p, d) L -> length (path ++ [BSLASH] ++ backslashed p) < MAX_PATH_LENGTH)).
  { induction r as [|[n x] r IHr]; intros res I N.
    - right. exists res, []. split; [reflexivity|]. split.
      + split; [intros ->; split; [now left|intros m y []]|]. intros [[H|(n & x & [] & _)] _]. exact H.
      + intros _. exists []. split; [|split; [reflexivity|intros p d []]]. split; [constructor|]. intros p d. split; [intros []|]. intros [A _].
        destruct p as [|m p]; [apply at_nil in A; discriminate|]. apply at_cons in A. destruct A as (y & [] & _).
    - rewrite zipwin_cons. cbn [map fst] in N. inversion N as [|? ? Nn N']; subst.
      assert (I' : forall m y, In (m, y) r -> In (m, y) es0) by (intros m y H; apply I; now right).
      assert (Ix : In (n, x) es0) by (apply I; now left).
      destruct (fit MAX_PATH_LENGTH (back_join path n)) as [q|u|] eqn:Fq; [|unfold fit in Fq; destruct (_ <? _); discriminate|now left].
      apply fit_ok in Fq. destruct Fq as [-> Lq]. cbn [bind]. destruct x as [d|gs|].
      + destruct (negb enc || negb (is_modelica n)) eqn:Sh.
        * apply shown_dec in Sh.
          assert (Fi : Fine (c (back_join path n)) d) by (apply (F [n] d); apply at_cons; exists (Reg d); split; [exact Ix|constructor]).
          destruct Fi as (-> & -> & -> & R & _). cbn [andb]. rewrite Wz. apply Nat.leb_le in R. rewrite R. cbn [andb].
          destruct (IHr true I' N') as [->|(ok & l & -> & Hok & HL)]; [now left|]. right. cbn [bind]. exists ok, ((zip_name_win st (back_join path n), d) :: l).
          split; [reflexivity|]. split.
          -- rewrite Hok. split; intros [_ H]; (split; [|]).
             ++ right. exists n, (Reg d). split; [now left|]. right. split; [now exists d|exact Sh].
             ++ intros m y [Hy|Hy]; [injection Hy as _ <-; constructor|now apply (H m)].
             ++ now left.
             ++ intros m y Hy. apply (H m). now right.
          -- intros Eok. destruct (HL Eok) as (L & HL1 & -> & HL2). exists (map (fun e => (n :: fst e, snd e)) [([], d)] ++ L). split; [|split; [reflexivity|]].
             ++ apply listing_cons; [exact Nn| |repeat constructor; easy|exact HL1]. intros p e. cbn [In]. split.
                ** intros [[= <- <-]|[]]. split; [constructor|]. exists [], n. now split.
                ** intros [A _]. apply at_reg in A. destruct A as [-> [= ->]]. now left.
             ++ cbn [map app fst snd In]. intros p e [[= <- <-]|H]; [exact Lq|now apply (HL2 p e)].
        * assert (Sh' : ~ Shown enc n) by (intros H; apply shown_dec in H; congruence).
          destruct (IHr res I' N') as [->|(ok & l & -> & Hok & HL)]; [now left|]. right. exists ok, l. split; [reflexivity|]. split.
          -- rewrite Hok. split; intros [H1 H2]; split.
             ++ destruct H1 as [H1|(m & y & Hy & H1)]; [now left|]. right. exists m, y. split; [now right|exact H1].
             ++ intros m y [Hy|Hy]; [injection Hy as _ <-; constructor|now apply (H2 m)].
             ++ destruct H1 as [H1|(m & y & [Hy|Hy] & H1)]; [now left| |right; now exists m, y].
                injection Hy as <- <-. destruct H1 as [[? H1]|[_ H1]]; [discriminate H1|contradiction].
             ++ intros m y Hy. apply (H2 m). now right.
          -- intros Eok. destruct (HL Eok) as (L & HL1 & HL2). exists L. split; [|exact HL2]. apply listing_cons_skip; [|exact HL1].
             intros p e A. apply at_reg in A. destruct A as [-> _]. now split.
      + destruct (IH n _ Ix (back_join path n) gs eq_refl (proj2 (P _ _ Ix))) as [->|(ok1 & l1 & -> & Hok1 & HL1)]; [|now left|].
        { intros p d A. assert (Np : p <> []) by (intros ->; apply at_nil in A; discriminate). specialize (F (n :: p) d). rewrite backslashed_cons in F by exact Np.
          unfold back_join. rewrite <- !app_assoc. apply F. apply at_cons. now exists (Folder gs). }
        cbn [bind]. destruct ok1.
        * destruct (IHr true I' N') as [->|(ok & l & -> & Hok & HL)]; [now left|]. right. cbn [bind]. exists ok, (l1 ++ l). split; [reflexivity|].
          assert (Fg : Filled enc (Folder gs)) by now apply Hok1. split.
          -- rewrite Hok. split; intros [_ H]; split.
             ++ right. exists n, (Folder gs). split; [now left|]. left. now exists gs.
             ++ intros m y [Hy|Hy]; [injection Hy as _ <-; exact Fg|now apply (H m)].
             ++ now left.
             ++ intros m y Hy. apply (H m). now right.
          -- intros Eok. destruct (HL Eok) as (L & HLr & -> & HLl). destruct (HL1 eq_refl) as (L1 & [NDg HLg] & -> & HLgl).
             assert (Ne : forall p d, In (p, d) L1 -> p <> []) by (intros p d H; apply HLg in H; destruct H as [A _]; intros ->; apply at_nil in A; discriminate).
             exists (map (fun e => (n :: fst e, snd e)) L1 ++ L). split; [|split].
             ++ apply listing_cons; [exact Nn| |exact NDg|exact HLr]. intros p d. rewrite HLg. split; intros [A (dir & k & E & S1)]; (split; [exact A|]).
                ** exists (n :: dir), k. subst p. now split.
                ** destruct dir as [|m dir]; cbn [app] in E; injection E as -> ->; [apply at_nil in A; discriminate|]. now exists dir, k.
             ++ rewrite map_app, map_map. f_equal. apply map_ext_in. intros [p d] H. cbn [fst snd]. rewrite backslashed_cons by exact (Ne _ _ H).
                unfold back_join. now rewrite <- !app_assoc.
             ++ intros p d H. apply in_app_or in H. destruct H as [H|H]; [|now apply (HLl p d)]. apply in_map_iff in H. destruct H as ([q e] & E & H).
                cbn [fst snd] in E. injection E as <- ->. rewrite backslashed_cons by exact (Ne _ _ H). specialize (HLgl q d H). unfold back_join in HLgl. rewrite <- !app_assoc in HLgl. exact HLgl.
        * right. exists false, l1. split; [reflexivity|]. split; [|discriminate]. split; [discriminate|]. intros [_ H].
          apply Hok1. apply (H n). now left.
      + destruct (IHr res I' N') as [->|(ok & l & -> & Hok & HL)]; [now left|]. right. exists ok, l. split; [reflexivity|]. split.
        -- rewrite Hok. split; intros [H1 H2]; split.
           ++ destruct H1 as [H1|(m & y & Hy & H1)]; [now left|]. right. exists m, y. split; [now right|exact H1].
           ++ intros m y [Hy|Hy]; [injection Hy as _ <-; constructor|now apply (H2 m)].
           ++ destruct H1 as [H1|(m & y & [Hy|Hy] & H1)]; [now left| |right; now exists m, y].
              injection Hy as <- <-. destruct H1 as [[? H1]|[[? H1] _]]; discriminate H1.
           ++ intros m y Hy. apply (H2 m). now right.
        -- intros Eok. destruct (HL Eok) as (L & HL1 & HL2). exists L. split; [|exact HL2]. apply listing_cons_skip; [|exact HL1].
           intros p e A. apply at_other in A. destruct A as [_ A]. discriminate. }
  destruct (G es0 false (fun _ _ H => H) ND) as [->|(ok & l & -> & Hok & HL)]; [now left|]. right. exists ok, l. split; [reflexivity|]. split; [|exact HL].
  rewrite Hok. split.
  - intros [[H|(n & x & I & H)] H2]; [discriminate|]. now apply (Filled_folder enc es0 n x).
  - intros H. inversion H as [| |es n x I H1 H2]; subst. split; [right; now exists n, x|exact H2].
Qed.

(** Names in the archive. *)
Lemma zip_name_spec st p : Forall (fun n => ~ In BSLASH n) p -> length (st ++ [BSLASH] ++ backslashed p) < MAX_PATH_LENGTH ->
  zip_name_win st (st ++ [BSLASH] ++ backslashed p) = slashed p.
Proof.
  intros F L. unfold zip_name_win, zip_name. rewrite app_assoc. replace (length st + 1) with (length (st ++ [BSLASH])) by (rewrite app_length; cbn; lia).
  rewrite skipn_app, skipn_all, Nat.sub_diag. cbn [app skipn]. unfold snprintf. rewrite !app_length in L.
  rewrite firstn_all2 by (cbn [length] in L; lia). clear L.
  assert (M : forall n, ~ In BSLASH n -> map (fun c => if Ascii.eqb c BSLASH then SLASH else c) n = n).
  { intros n. induction n as [|c n IH]; intros H; [reflexivity|]. cbn [map]. rewrite IH by (intros X; apply H; now right).
    destruct (Ascii.eqb_spec c BSLASH) as [->|]; [exfalso; apply H; now left|reflexivity]. }
  induction p as [|n p IH]; [reflexivity|]. apply Forall_cons_iff in F. destruct F as [Fn F]. destruct p as [|m p]; [exact (M n Fn)|].
  rewrite backslashed_cons, slashed_cons by discriminate. rewrite !map_app, IH by exact F. rewrite (M n Fn). reflexivity.
Qed.
Lemma winnames_at t : WinNames t -> forall p x, At t p x -> Forall (fun n => ~ In BSLASH n) p.
Proof.
  intros W p x A. revert W. induction A as [t|es n y p z I _ IH]; intros W; [constructor|]. inversion W as [| |es' H]; subst. destruct (H _ _ I) as [Hn Hy].
  constructor; [exact Hn|now apply IH].
Qed.
Lemma filled_at enc t : Filled enc t -> forall p es, At t p (Folder es) -> es <> [].
Proof.
  intros W p es A. remember (Folder es) as x eqn:E. revert E W. induction A as [t|fs n y p z I _ IH]; intros E W.
  - subst t. inversion W as [| |es' n x I _ _]; subst. intros ->. contradiction.
  - inversion W as [| |es' m x _ _ H]; subst. apply IH; [reflexivity|]. now apply (H n).
Qed.

(** ** Removal *)

Definition rmwin_list (w : world) (path : bytes) : entries -> bool * entries :=
  fix go (es : entries) : bool * entries :=
    match es with
    | [] => (true, [])
    | (n, x) :: r =>
        let p := back_join path n in
        let '(ok, x') := match x with
                         | Folder _ => remove_win w p x
                         | Reg _ => if w_unlink w p then (true, None) else (false, Some x)
                         | Other => (true, Some x)
                         end in
        let kept := match x' with Some y => [(n, y)] | None => [] end in
        if ok then let '(ok2, r') := go r in (ok2, kept ++ r') else (false, kept ++ r)
    end.
Lemma rmwin_folder w path es : remove_win w path (Folder es) =
  if w_opendir w Removing path then
    let '(ok, rest) := rmwin_list w path es in
    if ok && match rest with [] => w_rmdir w path | _ => false end then (true, None) else (false, Some (Folder rest))
  else (true, Some (Folder es)).
Proof. reflexivity. Qed.
Lemma rmwin_cons w path n x r : rmwin_list w path ((n, x) :: r) =
  let '(ok, x') := match x with
                   | Folder _ => remove_win w (back_join path n) x
                   | Reg _ => if w_unlink w (back_join path n) then (true, None) else (false, Some x)
                   | Other => (true, Some x)
                   end in
  let kept := match x' with Some y => [(n, y)] | None => [] end in
  if ok then let '(ok2, r') := rmwin_list w path r in (ok2, kept ++ r') else (false, kept ++ r).
Proof. reflexivity. Qed.

Lemma rmwin_left w : forall t path ok x, remove_win w path t = (ok, Some x) -> forall p y, At x p y -> exists z, At t p z /\ (forall d, y = Reg d -> z = y).
Proof.
  induction t as [d| |es IH] using tree_induction; intros path ok x H p y A.
  - cbn in H. injection H as _ <-. now exists y.
  - cbn in H. injection H as _ <-. now exists y.
  - rewrite rmwin_folder in H. destruct (w_opendir w Removing path); [|injection H as _ <-; now exists y].
    destruct (rmwin_list w path es) as [ok' rest] eqn:E. destruct (_ && _); [discriminate|]. injection H as _ <-.
    destruct p as [|n p]; [apply at_nil in A; subst y; exists (Folder es); split; [constructor|discriminate]|].
    apply at_cons in A. destruct A as (u & I & A).
    assert (G : exists z, In (n, z) es /\ exists z', At z p z' /\ (forall d, y = Reg d -> z' = y)).
    { revert ok' rest E I. induction es as [|[m v] r IHr]; intros ok' rest E I; [injection E as <- <-; contradiction|].
      rewrite rmwin_cons in E.
      assert (Hv : forall ok1 v', match v with
                   | Folder _ => remove_win w (back_join path m) v
                   | Reg _ => if w_unlink w (back_join path m) then (true, None) else (false, Some v)
                   | Other => (true, Some v)
                   end = (ok1, Some v') -> forall p y, At v' p y -> exists z, At v p z /\ (forall d, y = Reg d -> z = y)).
      { intros ok1 v' Hv. destruct v as [d|fs|].
        - destruct (w_unlink w _); [discriminate|]. injection Hv as _ <-. intros p' y' A'. now exists y'.
        - now apply (IH m (Folder fs) (or_introl eq_refl) (back_join path m) ok1).
        - injection Hv as _ <-. intros p' y' A'. now exists y'. }
      match type of E with (let '(_, _) := ?X in _) = _ => destruct X as [ok1 v'] eqn:E1 end. cbn zeta in E.
      assert (IHr' := IHr (fun n x I => IH n x (or_intror I))).
      assert (Hk : In (n, u) (match v' with Some y => [(m, y)] | None => [] end) -> exists z, In (n, z) ((m, v) :: r) /\ exists z', At z p z' /\ (forall d, y = Reg d -> z' = y)).
      { destruct v' as [v'|]; [|intros []]. intros [[= <- <-]|[]]. exists v. split; [now left|]. now apply (Hv ok1 v' eq_refl). }
      destruct ok1.
      - destruct (rmwin_list w path r) as [ok2 r'] eqn:Er. injection E as <- <-. apply in_app_or in I. destruct I as [I|I]; [now apply Hk|].
        destruct (IHr' _ _ eq_refl I) as (z & Iz & Hz). exists z. split; [now right|exact Hz].
      - injection E as <- <-. apply in_app_or in I. destruct I as [I|I]; [now apply Hk|]. exists u. split; [now right|]. now exists y. }
    destruct G as (z & Iz & z' & Az & Hz). exists z'. split; [|exact Hz]. apply at_cons. now exists z.
Qed.

Lemma rmwin_gone w path es : w_opendir w Removing path = true -> fst (remove_win w path (Folder es)) = true <-> snd (remove_win w path (Folder es)) = None.
Proof.
  intros O. rewrite rmwin_folder, O. destruct (rmwin_list w path es) as [ok rest]. destruct (_ && _); cbn [fst snd]; split; congruence.
Qed.
Lemma rmwin_works w : (forall p, w_opendir w Removing p = true) -> (forall p, w_unlink w p = true) -> (forall p, w_rmdir w p = true) ->
  forall t path es, t = Folder es -> Plain t -> remove_win w path t = (true, None).
Proof.
  intros O U R. induction t as [d| |es IH] using tree_induction; intros path fs E P; [discriminate|discriminate|]. clear fs E.
  rewrite rmwin_folder, O. assert (G : rmwin_list w path es = (true, [])).
  { inversion P as [|es' HP]; subst. clear P. induction es as [|[n x] r IHr]; [reflexivity|]. rewrite rmwin_cons, IHr.
    - destruct x as [d|fs|].
      + now rewrite U.
      + rewrite (IH n (Folder fs) (or_introl eq_refl) _ fs eq_refl); [reflexivity|]. apply (HP n). now left.
      + exfalso. specialize (HP n Other (or_introl eq_refl)). inversion HP.
    - intros m y I. apply (IH m y). now right.
    - intros m y I. apply (HP m y). now right. }
  rewrite G. cbn [andb]. now rewrite R.
Qed.

(** An icon that is found is a file of the library. *)
Lemma seen_file name lib p : Seen name lib p -> exists d, At (Folder lib) p (Reg d).
Proof.
  induction 1 as [pre d post _|pre n es post p _ _ [d IH]]; exists d.
  - apply at_cons. exists (Reg d). split; [apply in_elt|constructor].
  - apply at_cons. exists (Folder es). split; [apply in_elt|exact IH].
Qed.

(** .library comes first. *)
Lemma noicon_listed w name path lib : (forall p, w_opendir w Searching p = true) -> ByName lib -> NoDup (map fst lib) ->
  In (B ".library", Folder []) lib -> Ordinary (B ".library") lib -> length path < 2000 -> locate_win w name path lib = Ok None.
Proof.
  intros Wo Bn ND I O L. destruct (byname_first lib _ _ Bn I O ltac:(cbv; lia) ND) as [r ->]. unfold locate_win. rewrite findwin_folder, Wo, findwin_cons.
  rewrite fit_short.
  - cbn [bind]. rewrite findwin_folder, Wo. reflexivity.
  - unfold back_join. rewrite !app_length. change (length (B ".library")) with 8. change (length [BSLASH]) with 1. unfold MAX_PATH_LENGTH. clear - L. lia.
Qed.
