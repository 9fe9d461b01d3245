(** The packaging tool on Windows from the command line to the archive. *)
From Coq Require Import Permutation.
From Verif Require Import Base BaseProofs ArgsModel ArgsSpec ArgsProofs XmlSpec ManifestModel ManifestSpec ManifestProofs WireModel CryptModel CryptSpec CbcProofs MaskProofs
  DemaskProofs CryptProofs PackageModel PackageSpec TreeProofs CopyProofs EncProofs ZipProofs PackageProofs IconProofs ShipProofs PackCopyModel WinPackModel WinPackSpec WinPackProofs
  WinEncProofs WinToolModel WinToolSpec.

(** ** Names in trees *)

Inductive Names (N : bytes -> Prop) : tree -> Prop :=
| Names_reg d : Names N (Reg d)
| Names_other : Names N Other
| Names_folder es : (forall n x, In (n, x) es -> N n /\ Names N x) -> Names N (Folder es).
Lemma names_in N es n x : Names N (Folder es) -> In (n, x) es -> N n /\ Names N x.
Proof. intros H I. inversion H as [| |? G]; subst. now apply G. Qed.
Lemma names_win t : WinNames t <-> Names (fun n => ~ In BSLASH n) t.
Proof.
  induction t as [d| |es IH] using tree_induction; [split; constructor|split; constructor|]. split; intros H; constructor; intros n x I; inversion H as [| |? G]; subst;
    destruct (G n x I) as [G1 G2]; (split; [exact G1|now apply (IH n x I)]).
Qed.
Lemma names_spelt t : Spelt t <-> Names (fun n => caseeq n (B "package.mo") = true -> n = B "package.mo") t.
Proof.
  induction t as [d| |es IH] using tree_induction; [split; constructor|split; constructor|]. split; intros H; constructor; intros n x I; inversion H as [| |? G]; subst;
    destruct (G n x I) as [G1 G2]; (split; [exact G1|now apply (IH n x I)]).
Qed.
Lemma names_set N es n x : Names N (Folder es) -> N n -> Names N x -> Names N (Folder (set_entry n x es)).
Proof. intros H Hn Hx. constructor. intros m y I. destruct (set_entry_in _ _ _ _ _ I) as [[-> ->]|I']; [now split|now apply (names_in N es)]. Qed.
Lemma names_same N t : forall t', Same t t' -> Names N t -> Names N t'.
Proof.
  induction t as [d| |es IH] using tree_induction; intros t' S0 H.
  - inversion S0; subst. constructor.
  - inversion S0; subst. constructor.
  - inversion S0 as [| |l l1 l2 F P]; subst. constructor. intros n x I. apply (Permutation_in _ (Permutation_sym P)) in I.
    assert (G : exists y, In (n, y) es /\ Same y x).
    { clear - F I. induction F as [|[a u] [b z] la lb [E S0] F IHF]; [contradiction|]. cbn [fst snd] in *. subst b. destruct I as [I|I].
      - injection I as <- <-. exists u. split; [now left|exact S0].
      - destruct (IHF I) as (y & Iy & Sy). exists y. split; [now right|exact Sy]. }
    destruct G as (y & Iy & Sy). destruct (names_in _ _ _ _ H Iy) as [H1 H2]. split; [exact H1|]. exact (IH n y Iy x Sy H2).
Qed.
Lemma names_at N t : Names N t -> forall p x, At t p x -> Forall N p.
Proof.
  intros H p x A. revert H. induction A as [t|es n y p z I _ IH]; intros H; [constructor|]. destruct (names_in _ _ _ _ H I) as [H1 H2]. constructor; [exact H1|now apply IH].
Qed.
Lemma names_strip N t : Names N t -> Names N (strip t).
Proof.
  induction t as [d| |es IH] using tree_induction; intros H; [exact H|exact H|]. rewrite strip_folder. constructor. intros n y I. apply strip_in in I.
  destruct I as (x & I & _ & _ & ->). destruct (names_in _ _ _ _ H I) as [H1 H2]. split; [exact H1|now apply (IH n x I)].
Qed.
Lemma proper_strip t : Proper t -> Proper (strip t).
Proof.
  induction t as [d| |es IH] using tree_induction; intros H; [exact H|exact H|]. rewrite strip_folder. apply proper_folder in H. destruct H as [ND F]. constructor.
  - clear IH F. induction es as [|[n x] r IH]; [constructor|]. rewrite strip_cons. cbn [map fst] in ND. inversion ND as [|? ? Nn ND']; subst.
    destruct (beq n DOT_LIBRARY); [now apply IH|]. assert (G : ~ In n (map fst (strip_list r))) by (intros I; apply Nn; now apply strip_names).
    destruct x; [constructor; [exact G|now apply IH]|constructor; [exact G|now apply IH]|now apply IH].
  - intros n y I. apply strip_in in I. destruct I as (x & I & _ & _ & ->). destruct (F n x I) as [F1 F2]. split; [exact F1|now apply (IH n x I)].
Qed.

(** ** Copying into a folder *)

(** What is in a folder after copying. *)
Definition From (es l l' : entries) : Prop :=
  (Proper (Folder es) -> Proper (Folder l) -> Proper (Folder l')) /\
  (forall N, Names N (Folder es) -> Names N (Folder l) -> Names N (Folder l')) /\
  (forall q d, At (Folder l') q (Reg d) -> At (Folder l) q (Reg d) \/ At (Folder es) q (Reg d)).
Lemma from_refl es l : From es l l.
Proof. split; [tauto|]. split; [tauto|]. intros q d A. now left. Qed.
Lemma from_trans es l l1 l2 : From es l l1 -> From es l1 l2 -> From es l l2.
Proof.
  intros (A1 & A2 & A3) (B1 & B2 & B3). split; [tauto|]. split; [intros N H1 H2; apply B2; [exact H1|now apply A2]|].
  intros q d A. destruct (B3 q d A) as [H|H]; [now apply A3|now right].
Qed.
Lemma from_reg es l n d : In (n, Reg d) es -> From es l (set_entry n (Reg d) l).
Proof.
  intros I. split; [|split].
  - intros P Pl. apply proper_set_entry; [exact Pl| |constructor]. apply proper_folder in P. now apply (proj2 P n (Reg d)).
  - intros N H Hl. apply names_set; [exact Hl|now apply (names_in N es n (Reg d))|constructor].
  - intros q e A. apply at_folder_reg in A. destruct A as (m & q' & x & -> & Im & A). destruct (set_entry_in _ _ _ _ _ Im) as [[-> ->]|I'].
    + right. apply at_cons. eauto.
    + left. apply at_cons. eauto.
Qed.
Lemma from_folder es l n gs s s' : In (n, Folder gs) es -> From gs s s' -> (lookup l n = Some (Folder s) \/ s = []) -> From es l (set_entry n (Folder s') l).
Proof.
  intros I (F1 & F2 & F3) E. split; [|split].
  - intros P Pl. pose proof (proj2 (proper_folder _ P) _ _ I) as [Hn Hx]. apply proper_set_entry; [exact Pl|exact Hn|]. apply F1; [exact Hx|].
    destruct E as [E| ->]; [|exact proper_empty]. apply lookup_in in E. now apply (proj2 (proper_folder _ Pl) _ _ E).
  - intros N H Hl. destruct (names_in _ _ _ _ H I) as [Hn Hx]. apply names_set; [exact Hl|exact Hn|]. apply F2; [exact Hx|].
    destruct E as [E| ->]; [|constructor; intros ? ? []]. apply lookup_in in E. now apply (names_in N l n).
  - intros q e A. apply at_folder_reg in A. destruct A as (m & q' & x & -> & Im & A). destruct (set_entry_in _ _ _ _ _ Im) as [[-> ->]|I'].
    + destruct (F3 q' e A) as [A'|A'].
      * left. destruct E as [E| ->]; [|apply at_folder_reg in A'; destruct A' as (? & ? & ? & _ & [] & _)]. apply lookup_in in E. apply at_cons. eauto.
      * right. apply at_cons. eauto.
    + left. apply at_cons. eauto.
Qed.
Lemma copywin_from c w : forall t es from to l ok o, t = Folder es -> (forall p d, At t p (Reg d) -> Fine (c (from ++ [BSLASH] ++ backslashed p)) d) ->
  copy_win c w from to t (Some l) = Ok (ok, o) -> exists l', o = Some l' /\ From es l l'.
Proof.
  induction t as [d0| |es0 IH] using tree_induction; intros es from to l ok o E F H; [discriminate|discriminate|]. injection E as <-.
  rewrite copywin_folder in H. destruct (w_opendir w Copying from); [|injection H as _ <-; exists l; split; [reflexivity|apply from_refl]].
  assert (G : forall r l, (forall n x, In (n, x) r -> In (n, x) es0) -> copywin_list c w from to r (Some l) = Ok (ok, o) -> exists l', o = Some l' /\ From es0 l l').
  { clear H l. induction r as [|[n x] r IHr]; intros l I H; [injection H as _ <-; exists l; split; [reflexivity|apply from_refl]|]. rewrite copywin_cons in H.
    assert (I' : forall m y, In (m, y) r -> In (m, y) es0) by (intros m y Im; apply I; now right). assert (Ix : In (n, x) es0) by (apply I; now left).
    destruct (beq n DOT_LIBRARY); [now apply IHr|].
    destruct (fit MAX_PATH_LENGTH (back_join from n)) as [p|u|] eqn:Fp; [|discriminate|discriminate]. apply fit_ok in Fp. destruct Fp as [-> _]. cbn [bind] in H.
    destruct (fit MAX_PATH_LENGTH (back_join to n)) as [q|u|] eqn:Fq; [|discriminate|discriminate]. apply fit_ok in Fq. destruct Fq as [-> _]. cbn [bind] in H.
    destruct x as [d|gs|]; [| |now apply IHr].
    - assert (Fi : Fine (c (back_join from n)) d) by (apply (F [n] d); apply at_cons; exists (Reg d); split; [exact Ix|constructor]).
      destruct Fi as (S1 & S2 & S3 & R & S4 & W'). rewrite S1, S2, S3, S4 in H. cbn [andb] in H.
      rewrite (firstn_all2 (n := y_read _)) in H by exact R. replace (length d - _) with 0 in H by (clear - R; lia). cbn [repeat] in H. rewrite app_nil_r, firstn_all2 in H by exact W'.
      destruct (lookup l n) as [[?|?|]|]; try discriminate; (destruct (IHr _ I' H) as (l' & -> & Fr); exists l'; split; [reflexivity|]; exact (from_trans _ _ _ _ (from_reg _ _ _ _ Ix) Fr)).
    - assert (Fs : forall p d, At (Folder gs) p (Reg d) -> Fine (c (back_join from n ++ [BSLASH] ++ backslashed p)) d).
      { intros p d A. specialize (F (n :: p) d). destruct p as [|m p]; [apply at_nil in A; discriminate|]. rewrite backslashed_cons in F by discriminate.
        unfold back_join. rewrite <- !app_assoc. apply F. apply at_cons. exists (Folder gs). now split. }
      match type of H with context [copy_win c w _ _ _ ?S] => set (sub := S) in H; assert (Hs : sub = None \/ exists s, sub = Some s /\ (lookup l n = Some (Folder s) \/ s = [])) end.
      { subst sub. destruct (lookup l n) as [[?|s|]|]; [now left|right; exists s; split; [reflexivity|now left]|now left|]. destruct (w_mkdir w _); [right; exists []; split; [reflexivity|now right]|now left]. }
      destruct (copy_win c w (back_join from n) (back_join to n) (Folder gs) sub) as [[b o']|u|] eqn:Ec; [|discriminate|discriminate]. cbn [bind] in H.
      destruct Hs as [Hs|(s & Hs & El)]; rewrite Hs in Ec.
      + assert (o' = None) as ->.
        { clear - Ec. revert Ec. generalize (back_join from n) (back_join to n). clear from to n. revert b o'. generalize (Folder gs). clear gs.
          induction t as [d0| |es IH] using tree_induction; intros b o' from to H; [now injection H|now injection H|].
          rewrite copywin_folder in H. destruct (w_opendir w Copying from); [|now injection H].
          assert (G : forall r, (forall n x, In (n, x) r -> In (n, x) es) -> copywin_list c w from to r None = Ok (b, o') -> o' = None).
          { clear H. induction r as [|[n x] r IHr]; intros I H; [now injection H|]. rewrite copywin_cons in H.
            assert (I' : forall m y, In (m, y) r -> In (m, y) es) by (intros m y Im; apply I; now right). assert (Ix : In (n, x) es) by (apply I; now left).
            destruct (beq n DOT_LIBRARY); [now apply IHr|].
            destruct (fit MAX_PATH_LENGTH (back_join from n)) as [p|u|]; [|discriminate|discriminate]. cbn [bind] in H.
            destruct (fit MAX_PATH_LENGTH (back_join to n)) as [q|u|]; [|discriminate|discriminate]. cbn [bind] in H.
            destruct x as [d|gs|]; [| |now apply IHr].
            - destruct (y_stat (c p) && y_calloc (c p)); [|now injection H]. destruct (y_open_read (c p)); discriminate.
            - destruct (copy_win c w p q (Folder gs) None) as [[b1 o1]|u|]; [|discriminate|discriminate]. cbn [bind] in H. now apply IHr. }
          now apply (G es). }
        now apply IHr.
      + destruct (IH n _ Ix gs _ _ _ _ _ eq_refl Fs Ec) as (s' & -> & Fg). destruct (IHr _ I' H) as (l' & -> & Fr). exists l'. split; [reflexivity|].
        exact (from_trans _ _ _ _ (from_folder _ _ _ _ _ _ Ix Fg El) Fr). }
  now apply (G es0 l).
Qed.

(** ** The archive *)

Lemma zipwin_made c w st enc : forall t es path ok l, t = Folder es -> zip_win c w st enc path t = Ok (ok, l) ->
  (ok = true -> forall dir, ~ At t dir (Folder [])) /\
  exists L, l = map (fun e => (zip_name_win st (path ++ [BSLASH] ++ backslashed (fst e)), snd e)) L /\
    (forall p d, In (p, d) L -> At t p (Reg d) /\ (exists dir n, p = dir ++ [n] /\ Shown enc n) /\ length (path ++ [BSLASH] ++ backslashed p) < MAX_PATH_LENGTH) /\
    (ok = true -> forall dir n d, At t (dir ++ [n]) (Reg d) -> Shown enc n -> In (dir ++ [n], d) L).
Proof.
  induction t as [d0| |es0 IH] using tree_induction; intros es path ok l E H; [discriminate|discriminate|]. injection E as <-.
  rewrite zipwin_folder in H. destruct (w_opendir w Zipping path).
  2: { injection H as <- <-. split; [discriminate|]. exists []. split; [reflexivity|]. split; [intros p d []|discriminate]. }
  assert (G : forall r res ok l, (forall n x, In (n, x) r -> In (n, x) es0) -> zipwin_list c w st enc path r res = Ok (ok, l) ->
    (ok = true -> (res = true \/ r <> []) /\ forall n x dir, In (n, x) r -> ~ At x dir (Folder [])) /\
    exists L, l = map (fun e => (zip_name_win st (path ++ [BSLASH] ++ backslashed (fst e)), snd e)) L /\
      (forall p d, In (p, d) L -> At (Folder r) p (Reg d) /\ (exists dir n, p = dir ++ [n] /\ Shown enc n) /\ length (path ++ [BSLASH] ++ backslashed p) < MAX_PATH_LENGTH) /\
      (ok = true -> forall dir n d, At (Folder r) (dir ++ [n]) (Reg d) -> Shown enc n -> In (dir ++ [n], d) L)).
  { clear H ok l. induction r as [|[n x] r IHr]; intros res ok l I H.
    - cbn in H. injection H as <- <-. split; [intros ->; split; [now left|intros n x dir []]|]. exists []. split; [reflexivity|]. split; [intros p d []|].
      intros _ dir m d A. apply at_folder_reg in A. destruct A as (? & ? & ? & _ & [] & _).
    - rewrite zipwin_cons in H. assert (I' : forall m y, In (m, y) r -> In (m, y) es0) by (intros m y Im; apply I; now right).
      destruct (fit MAX_PATH_LENGTH (back_join path n)) as [p|u|] eqn:Fp; [|discriminate|discriminate]. apply fit_ok in Fp. destruct Fp as [-> Lp]. cbn [bind] in H.
      assert (Up : forall q y, At (Folder r) q y -> q <> [] -> At (Folder ((n, x) :: r)) q y).
      { intros q y A Q. destruct q as [|m q]; [contradiction|]. apply at_cons in A. destruct A as (z & Iz & A). apply at_cons. exists z. split; [now right|exact A]. }
      assert (Dn : forall q y, At (Folder ((n, x) :: r)) q y -> q = [] \/ (exists q', q = n :: q' /\ At x q' y) \/ At (Folder r) q y).
      { intros q y A. destruct q as [|m q]; [now left|]. right. apply at_cons in A. destruct A as (z & [Iz|Iz] & A); [left; injection Iz as <- <-; now exists q|]. right. apply at_cons. now exists z. }
      assert (Tail : forall res2 ok2 l2 L1, zipwin_list c w st enc path r res2 = Ok (ok2, l2) ->
        (forall p d, In (p, d) L1 -> At (Folder ((n, x) :: r)) p (Reg d) /\ (exists dir n, p = dir ++ [n] /\ Shown enc n) /\ length (path ++ [BSLASH] ++ backslashed p) < MAX_PATH_LENGTH) ->
        (forall q dir m d, n :: q = dir ++ [m] -> At x q (Reg d) -> Shown enc m -> In (n :: q, d) L1) ->
        (forall dir, ~ At x dir (Folder [])) ->
        (ok2 = true -> forall m y dir, In (m, y) ((n, x) :: r) -> ~ At y dir (Folder [])) /\
        exists L, map (fun e => (zip_name_win st (path ++ [BSLASH] ++ backslashed (fst e)), snd e)) L1 ++ l2 = map (fun e => (zip_name_win st (path ++ [BSLASH] ++ backslashed (fst e)), snd e)) L /\
          (forall p d, In (p, d) L -> At (Folder ((n, x) :: r)) p (Reg d) /\ (exists dir n, p = dir ++ [n] /\ Shown enc n) /\ length (path ++ [BSLASH] ++ backslashed p) < MAX_PATH_LENGTH) /\
          (ok2 = true -> forall dir m d, At (Folder ((n, x) :: r)) (dir ++ [m]) (Reg d) -> Shown enc m -> In (dir ++ [m], d) L)).
      { intros res2 ok2 l2 L1 H2 S1 S2 S3. destruct (IHr _ _ _ I' H2) as (N2 & L2 & -> & A2 & C2). split.
        - intros T m y dir [Im|Im]; [injection Im as <- <-; apply S3|]. now apply (proj2 (N2 T) m y dir).
        - exists (L1 ++ L2). split; [now rewrite map_app|]. split.
          + intros p d Ip. apply in_app_or in Ip. destruct Ip as [Ip|Ip]; [now apply S1|]. destruct (A2 p d Ip) as (A & (dir & m & -> & Sh) & Ln).
            split; [apply Up; [exact A|now destruct dir]|]. split; [now exists dir, m|exact Ln].
          + intros T dir m d A Sh. apply in_or_app. destruct (Dn _ _ A) as [E|[(q' & E & A')|A']]; [now destruct dir| |right; now apply C2].
            left. rewrite E. now apply (S2 q' dir m d). }
      destruct x as [d|gs|].
      + destruct (negb enc || negb (is_modelica n)) eqn:Sh.
        * apply shown_dec in Sh. assert (No : (false = true -> (res = true \/ (n, Reg d) :: r <> []) /\ forall m y dir, In (m, y) ((n, Reg d) :: r) -> ~ At y dir (Folder [])) /\
            exists L, @nil (bytes * bytes) = map (fun e => (zip_name_win st (path ++ [BSLASH] ++ backslashed (fst e)), snd e)) L /\
            (forall p e, In (p, e) L -> At (Folder ((n, Reg d) :: r)) p (Reg e) /\ (exists dir n, p = dir ++ [n] /\ Shown enc n) /\ length (path ++ [BSLASH] ++ backslashed p) < MAX_PATH_LENGTH) /\
            (false = true -> forall dir m e, At (Folder ((n, Reg d) :: r)) (dir ++ [m]) (Reg e) -> Shown enc m -> In (dir ++ [m], e) L)).
          { split; [discriminate|]. exists []. split; [reflexivity|]. split; [intros p e []|discriminate]. }
          destruct (y_stat _ && y_calloc _); [|injection H as <- <-; exact No]. destruct (y_open_read _); [|discriminate].
          destruct (_ && w_zip_add w _); [|injection H as <- <-; exact No]. clear No.
          destruct (zipwin_list c w st enc path r true) as [[ok2 l2]|u|] eqn:H2; [|discriminate|discriminate]. cbn [bind] in H. injection H as <- <-.
          destruct (Tail true ok2 l2 [([n], d)] H2) as [T1 T2].
          -- intros p e [Ip|[]]. injection Ip as <- <-. split; [apply at_cons; exists (Reg d); split; [now left|constructor]|]. split; [exists [], n; now split|exact Lp].
          -- intros q dir m e Eq A _. apply at_reg in A. destruct A as [-> A]. injection A as ->. now left.
          -- intros dir A. apply at_reg in A. destruct A. discriminate.
          -- split; [|exact T2]. intros T. split; [right; discriminate|now apply T1].
        * destruct (Tail res ok l [] H) as [T1 T2].
          -- intros p e [].
          -- intros q dir m e Eq A Sm. apply at_reg in A. destruct A as [-> A]. exfalso. apply app_inj_tail with (x := []) in Eq. destruct Eq as [_ <-]. apply shown_dec in Sm. congruence.
          -- intros dir A. apply at_reg in A. destruct A. discriminate.
          -- split; [|exact T2]. intros T. split; [right; discriminate|now apply T1].
      + destruct (zip_win c w st enc (back_join path n) (Folder gs)) as [[ok1 l1]|u|] eqn:H1; [|discriminate|discriminate]. cbn [bind] in H.
        destruct (IH n (Folder gs) (I _ _ (or_introl eq_refl)) gs _ _ _ eq_refl H1) as (N1 & L1 & -> & A1 & C1).
        assert (Em : map (fun e => (zip_name_win st (back_join path n ++ [BSLASH] ++ backslashed (fst e)), snd e)) L1 =
          map (fun e => (zip_name_win st (path ++ [BSLASH] ++ backslashed (fst e)), snd e)) (map (fun e => (n :: fst e, snd e)) L1)).
        { rewrite map_map. cbn [fst snd]. apply map_ext_in. intros [q e] Iq. cbn [fst snd]. destruct (A1 q e Iq) as (_ & (dir & m & -> & _) & _).
          unfold back_join. rewrite backslashed_cons by now destruct dir. now rewrite <- !app_assoc. }
        assert (S1 : forall p d, In (p, d) (map (fun e => (n :: fst e, snd e)) L1) ->
          At (Folder ((n, Folder gs) :: r)) p (Reg d) /\ (exists dir n, p = dir ++ [n] /\ Shown enc n) /\ length (path ++ [BSLASH] ++ backslashed p) < MAX_PATH_LENGTH).
        { intros p e Ip. apply in_map_iff in Ip. destruct Ip as ([q e'] & E & Iq). cbn [fst snd] in E. injection E as <- <-. destruct (A1 q e' Iq) as (A & (dir & m & -> & Sh) & Ln).
          split; [apply at_cons; exists (Folder gs); split; [now left|exact A]|]. split; [exists (n :: dir), m; now split|].
          rewrite backslashed_cons by now destruct dir. unfold back_join in Ln. now rewrite <- !app_assoc in Ln. }
        rewrite Em in H. destruct ok1.
        * destruct (zipwin_list c w st enc path r true) as [[ok2 l2]|u|] eqn:H2; [|discriminate|discriminate]. cbn [bind] in H. injection H as <- <-.
          destruct (Tail true ok2 l2 (map (fun e => (n :: fst e, snd e)) L1) H2 S1) as [T1 T2].
          -- intros q dir m e Eq A Sm. apply in_map_iff. exists (q, e). split; [reflexivity|]. destruct dir as [|k dir].
             ++ injection Eq as _ ->. apply at_nil in A. discriminate.
             ++ injection Eq as _ ->. now apply C1.
          -- now apply N1.
          -- split; [|exact T2]. intros T. split; [right; discriminate|now apply T1].
        * injection H as <- <-. split; [discriminate|]. exists (map (fun e => (n :: fst e, snd e)) L1). split; [reflexivity|]. split; [exact S1|discriminate].
      + destruct (Tail res ok l [] H) as [T1 T2].
        * intros p e [].
        * intros q dir m e Eq A _. apply at_other in A. destruct A. discriminate.
        * intros dir A. apply at_other in A. destruct A. discriminate.
        * split; [|exact T2]. intros T. split; [right; discriminate|now apply T1]. }
  destruct (G es0 false ok l (fun _ _ H0 => H0) H) as (N1 & L & El & A1 & C1). split; [|now exists L]. intros T dir A. destruct (N1 T) as [[N2|N2] N3]; [discriminate|].
  destruct dir as [|m dir]; [apply at_nil in A; congruence|]. apply at_cons in A. destruct A as (y & I & A). exact (N3 m y dir I A).
Qed.

(** Reading a directory again. *)
Lemma same_empty t : forall t' p, Same t t' -> At t p (Folder []) -> At t' p (Folder []).
Proof.
  induction t as [d| |es IH] using tree_induction; intros t' p S0 A.
  - apply at_reg in A. destruct A. discriminate.
  - apply at_other in A. destruct A. discriminate.
  - destruct (same_folder_inv _ _ S0) as (l & ->). destruct p as [|n p].
    + apply at_nil in A. injection A as ->. apply at_nil. f_equal. destruct (same_folder _ _ S0) as (l1 & F & P). inversion F; subst. now apply Permutation_nil in P.
    + apply at_cons in A. destruct A as (x & I & A). destruct (same_in _ _ S0 n x I) as (y & Iy & Sy). apply at_cons. exists y. split; [exact Iy|]. now apply (IH n x I).
Qed.
(** Empty folders are still there after encryption. *)
Lemma enc_empty pr K w top : forall t rd tbl tbl' t' p, Proper t -> encrypt_dir pr K w top (relstr rd) t tbl = Ok (true, tbl', t') ->
  At t p (Folder []) -> At t' p (Folder []).
Proof.
  induction t as [e| |es IH] using tree_induction; intros rd tbl tbl' t' q P H A; [discriminate|discriminate|].
  rewrite encrypt_folder in H.
  destruct (fit _ (match relstr rd with Some r => _ | None => _ end)) as [full| |]; [|discriminate|discriminate]. cbn [bind] in H.
  destruct (fit _ (full ++ B "/package.mo")) as [pkg| |]; [|discriminate|discriminate]. cbn [bind] in H.
  rewrite rel_join_path in H. destruct (fit _ (path_of rd PACKAGE_MO)) as [prel| |] eqn:Fp; [|discriminate|discriminate]. cbn [bind] in H.
  apply fit_ok in Fp. destruct Fp as [-> _].
  match type of H with bind ?X _ = _ => destruct X as [[[ok1 tbl1] newp]| |] eqn:E1 end; [|discriminate|discriminate]. cbn [bind] in H.
  destruct ok1; [|discriminate]. cbn [andb] in H. destruct (w_opendir w Encrypting full); [|discriminate].
  destruct (proper_folder es P) as [ND Fe].
  assert (Np : forall m, In m (map fst newp) -> forall fs, lookup es m <> Some (Folder fs)).
  { intros m I. destruct (lookup es PACKAGE_MO) as [x|]; [|injection E1 as _ <-; contradiction]. destruct (w_open w pkg); [|injection E1 as _ <-; contradiction].
    apply encrypt_file_ok in E1. destruct E1 as (d & out & _ & -> & F & _). destruct I as [<-|[]]. exact F. }
  destruct (enc_list pr K w top (relstr rd) es es tbl1) as [[[[ok2 tbl2] es2] new2]| |] eqn:E2; [|discriminate|discriminate]. cbn [bind] in H. injection H as -> _ <-.
  assert (G : forall l tblA tblB l2 new, (forall n x, In (n, x) l -> In (n, x) es) -> enc_list pr K w top (relstr rd) es l tblA = Ok (true, tblB, l2, new) ->
    (forall m, In m (map fst new) -> forall fs, lookup es m <> Some (Folder fs)) /\
    (forall n x q, In (n, x) l -> At x q (Folder []) -> exists y, In (n, y) l2 /\ At y q (Folder [])) /\ (l = [] -> l2 = [] /\ new = [])).
  { clear E2 E1 Np newp new2 es2 tbl1 tbl2. induction l as [|[n x] l IHl]; intros tblA tblB l2 new I H.
    - injection H as _ <- <-. split; [intros m []|]. split; [intros n x q' []|now split].
    - rewrite enc_list_cons in H. destruct (enc_one pr K w top (relstr rd) es n x tblA) as [[[[o1 t1] x1] n1]| |] eqn:E1; [|discriminate|discriminate]. cbn [bind] in H.
      destruct o1; [|discriminate]. destruct (enc_list pr K w top (relstr rd) es l t1) as [[[[o2 t2] l3] n2]| |] eqn:E2; [|discriminate|discriminate]. cbn [bind] in H.
      injection H as -> _ <- <-. assert (I' : forall m y, In (m, y) l -> In (m, y) es) by (intros m y Im; apply I; now right). assert (Ix : In (n, x) es) by (apply I; now left).
      destruct (IHl _ _ _ _ I' E2) as (N2 & X2 & _).
      assert (One : (forall m, In m (map fst n1) -> forall fs, lookup es m <> Some (Folder fs)) /\ forall q, At x q (Folder []) -> At x1 q (Folder [])).
      { unfold enc_one in E1. destruct (caseeq n PACKAGE_MO); [injection E1 as _ <- <-; split; [intros m []|tauto]|].
        rewrite rel_join_path in E1. destruct (fit _ (path_of rd n)) as [pp| |] eqn:Fp; [|discriminate|discriminate]. cbn [bind] in E1. apply fit_ok in Fp. destruct Fp as [-> _].
        destruct x as [d|fs|]; [| |injection E1 as _ <- <-; split; [intros m []|tauto]].
        - destruct (is_modelica n); [|injection E1 as _ <- <-; split; [intros m []|tauto]].
          destruct (encrypt_file _ _ _ _ _ _ _ _ _) as [[[oo tt1] nn]| |] eqn:Ef; [|discriminate|discriminate]. cbn [bind] in E1. injection E1 as -> _ <- <-.
          apply encrypt_file_ok in Ef. destruct Ef as (d' & out & _ & -> & F & _). split; [|tauto]. intros m [<-|[]]. exact F.
        - rewrite <- relstr_snoc in E1. destruct (encrypt_dir _ _ _ _ _ _ _) as [[[oo tt1] y1]| |] eqn:Ed; [|discriminate|discriminate]. cbn [bind] in E1. injection E1 as -> _ <- <-.
          split; [intros m []|]. intros q' A'. exact (IH n _ Ix _ _ _ _ q' (proj2 (Fe _ _ Ix)) Ed A'). }
      destruct One as [N1 X1]. split; [|split; [|discriminate]].
      + intros m Im. rewrite map_app in Im. apply in_app_or in Im. destruct Im as [Im|Im]; [now apply N1|now apply N2].
      + intros m y q' [Im|Im] A'; [injection Im as <- <-; exists x1; split; [now left|now apply X1]|]. destruct (X2 m y q' Im A') as (z & Iz & Az). exists z. split; [now right|exact Az]. }
  destruct (G es tbl1 tbl2 es2 new2 (fun _ _ H => H) E2) as (N2 & X2 & Z2). destruct q as [|n q].
  - apply at_nil in A. injection A as ->. destruct (Z2 eq_refl) as [-> ->]. cbn [lookup] in E1. injection E1 as _ <-. constructor.
  - apply at_cons in A. destruct A as (x & I & A). destruct (X2 n x q I A) as (y & Iy & Ay). apply at_cons. exists y. split; [|exact Ay].
    assert (Fx : exists fs, x = Folder fs) by (inversion A; subst; eauto). destruct Fx as (fs & ->).
    apply set_files_old; [|exact Iy]. rewrite map_app. intros J. apply (in_lookup _ _ _ ND) in I. apply in_app_or in J. destruct J as [J|J]; [exact (Np n J fs I)|exact (N2 n J fs I)].
Qed.

(** ** The command line *)

Lemma rfind_split c p q : ~ In c q -> rfind_byte c (p ++ c :: q) = Some (length p).
Proof. intros N. now rewrite (rfind_byte_app_in c p q N). Qed.
Lemma skip_pre {A} (p : list A) c q : skipn (S (length p)) (p ++ c :: q) = q.
Proof. change (p ++ c :: q) with (p ++ [c] ++ q). rewrite app_assoc, skipn_app. replace (S (length p)) with (length (p ++ [c])) by (rewrite app_length; cbn [length]; lia). now rewrite skipn_all, Nat.sub_diag. Qed.
Lemma rfind_before c d p q : c <> d -> ~ In c q -> rfind_byte c (p ++ d :: q) = rfind_byte c p.
Proof.
  intros N Nq. assert (N2 : ~ In c (d :: q)) by (intros [E|I]; [now apply N|contradiction]).
  destruct (rfind_byte c p) as [i|] eqn:R.
  - apply rfind_byte_some in R. destruct R as (a & b & -> & Nb & <-). rewrite <- app_assoc. cbn [app]. apply rfind_split.
    intros I. apply in_app_or in I. destruct I as [I|I]; contradiction.
  - apply rfind_byte_none in R. apply rfind_byte_none. intros I. apply in_app_or in I. destruct I as [I|I]; contradiction.
Qed.
Lemma rfind_lt c p i : rfind_byte c p = Some i -> i < length p.
Proof. intros R. apply rfind_byte_some in R. destruct R as (a & b & -> & _ & <-). rewrite app_length. cbn [length]. lia. Qed.
Lemma after_last_component p name : WinComponent p name -> after_last p = name.
Proof.
  intros (pre & -> & (Nn & Ns & _) & Nb & Hp). unfold after_last. destruct Hp as [->|(q & c & -> & Hc)].
  - cbn [app]. now rewrite (proj2 (rfind_byte_none SLASH name) Ns), (proj2 (rfind_byte_none BSLASH name) Nb).
  - rewrite <- app_assoc. cbn [app]. destruct Hc as [-> | ->].
    + rewrite (rfind_split SLASH q name Ns), (rfind_before BSLASH SLASH q name) by (assumption || discriminate).
      destruct (rfind_byte BSLASH q) as [j|] eqn:R; [|apply skip_pre]. apply rfind_lt in R. assert (length q <? j = false) as -> by (apply Nat.ltb_ge; lia). apply skip_pre.
    + rewrite (rfind_split BSLASH q name Nb), (rfind_before SLASH BSLASH q name) by (assumption || discriminate).
      destruct (rfind_byte SLASH q) as [j|] eqn:R; [|apply skip_pre]. apply rfind_lt in R. assert (j <? length q = true) as -> by (apply Nat.ltb_lt; lia). apply skip_pre.
Qed.

(** The arguments of a request. *)
Definition SlotsW (v : windows) (args : list bytes) (o : list (bytes * bytes)) (name p : bytes) (t : slots) : Prop :=
  validate (stats_of (v_sys v)) (count_lve (v_sys v)) args = Ok (Some t) /\ CommandLine AnyByte args o /\ library_name_win t = Ok name /\ WinComponent p name /\
  value_of t (B "librarypath") = Some p /\ using_encryption t = encrypted o.
Lemma request_win pr K v args o name lib r : WinRequest v args o name lib -> package_win pr K v args = r ->
  r = stop 1 None \/ (exists u, r = UB u) \/ r = Blocked \/
  exists t p, SlotsW v args o name p t /\ w_disk (v_sys v) p = Some (Folder lib) /\ stage_and_pack_win pr K v t = r.
Proof.
  intros (C & H1 & H2 & p & p' & Ip & T & LC & D) H. unfold package_win in H.
  destruct args as [|a args]; [inversion C; subst; contradiction|]. rewrite (proj2 (help_none _) (conj H1 H2)) in H.
  destruct (validate _ _ _) as [[t|]| |] eqn:V; cbn [bind] in H; [|now left|right; left; eauto|right; right; now left]. right. right. right. exists t, p'.
  split; [|now split]. pose proof (validate_keeps _ _ _ _ _ C V (B "librarypath") known_lib) as Kp.
  destruct (value_of t (B "librarypath")) as [x|] eqn:Ev; [|exfalso; apply Kp; exact (in_map fst _ _ Ip)].
  destruct Kp as (v0 & Iv & [(_ & Tv)|[(E & _)|(E & _)]]); [|discriminate|congruence].
  assert (v0 = p). { apply (value_command _ _ _ _ _ C) in Iv. apply (value_command _ _ _ _ _ C) in Ip. congruence. } subst v0.
  rewrite (trimmed_fun _ _ _ Tv T) in *. clear Tv. split; [exact V|]. split; [exact C|]. split; [|split; [exact LC|split; [exact Ev|exact (encrypted_using _ _ _ _ _ V C)]]].
  unfold library_name_win. rewrite Ev. f_equal. now apply after_last_component.
Qed.

(** ** The passes *)

Definition StagedW (v : windows) (t : slots) (p staging name : bytes) (es : entries) (icon : option bytes) (lves : list (option bytes)) (dot1 lib1 dot2 : entries) (doc : bytes) (L : entries) : Prop :=
  temp_dir_win v = Ok (Some staging) /\
  (exists o, copy_win (v_calls v) (v_sys v) p (staging ++ [BSLASH] ++ name) (Folder es) (Some []) = Ok (true, o) /\ lib1 = match o with Some l => l | None => [] end) /\
  lookup lib1 DOT_LIBRARY = None /\
  prepare_icon_win v t (staging ++ [BSLASH] ++ name) (w_order (v_sys v) Searching (set_entry DOT_LIBRARY (Folder []) lib1)) = Ok (Some icon) /\
  copy_lve (v_sys v) t ((staging ++ [BSLASH] ++ name) ++ B "/.library") [] = (true, lves, dot1) /\
  copy_extra_win v ((staging ++ [BSLASH] ++ name) ++ B "/.library") dot1 = Ok (true, dot2) /\
  (exists b t1, create_manifest b (read_of (v_sys v)) lves icon (set_value t (B "librarypath") name) = Ok (t1, doc)) /\
  L = set_entry DOT_LIBRARY (Folder (set_entry (B "manifest.xml") (Reg doc) dot2)) lib1.
Lemma stage_win_inv pr K v args o name p t lib r : SlotsW v args o name p t -> w_disk (v_sys v) p = Some (Folder lib) -> stage_and_pack_win pr K v t = Ok r ->
  (k_archive r = None /\ 2 <= k_code r <= 6) \/
  exists staging icon lves dot1 lib1 dot2 doc L, StagedW v t p staging name lib icon lves dot1 lib1 dot2 doc L /\ encrypt_and_zip_win pr K v t staging name (staging ++ [BSLASH] ++ name) L = Ok r.
Proof.
  intros (V & C & Hn & _ & Ep & _) D H. unfold stage_and_pack_win in H.
  destruct (temp_dir_win v) as [[staging|]| |] eqn:Et; [|injection H as <-; left; cbn; split; [reflexivity|lia]|discriminate|discriminate]. cbn [bind] in H.
  rewrite Hn in H. cbn [bind] in H.
  destruct (create_staging_win v staging); [injection H as <-; left; cbn; split; [reflexivity|lia]|].
  destruct (new_name name && w_mkdir (v_sys v) (staging ++ [BSLASH] ++ name)); [|injection H as <-; left; cbn; split; [reflexivity|lia]].
  rewrite Ep in H. unfold stage_files_win in H.
  destruct (fit MAX_PATH_LENGTH (p ++ B "\*.*")); [|discriminate|discriminate]. cbn [bind] in H. rewrite D in H.
  destruct (copy_win _ _ _ _ _ _) as [[ok oo]| |] eqn:Cw; [|discriminate|discriminate]. cbn [bind] in H.
  destruct ok; [|injection H as <-; left; cbn; split; [reflexivity|lia]]. set (lib1 := match oo with Some l => l | None => [] end) in *.
  unfold complete_win in H. destruct (lookup lib1 DOT_LIBRARY) eqn:Ld; [injection H as <-; left; cbn; split; [reflexivity|lia]|].
  destruct (w_mkdir (v_sys v) _); [|injection H as <-; left; cbn; split; [reflexivity|lia]].
  destruct (prepare_icon_win _ _ _ _) as [[icon|]| |] eqn:Pi; [|injection H as <-; left; cbn; split; [reflexivity|lia]|discriminate|discriminate]. cbn [bind] in H.
  destruct (copy_lve _ _ _ _) as [[ok lves] dot1] eqn:Cl. destruct ok; [|injection H as <-; left; cbn; split; [reflexivity|lia]].
  destruct (copy_extra_win _ _ _) as [[ok dot2]| |] eqn:Ce; [|discriminate|discriminate]. cbn [bind] in H.
  destruct ok; [|injection H as <-; left; cbn; split; [reflexivity|lia]].
  destruct (fit _ _) as [f| |]; [|discriminate|discriminate]. cbn [bind] in H.
  match type of H with bind (create_manifest ?b0 _ _ _ _) _ = _ => destruct (create_manifest b0 (read_of (v_sys v)) lves icon (set_value t (B "librarypath") name)) as [[t1 doc]| |] eqn:Cm end; [|discriminate|discriminate]. cbn [bind] in H.
  right. exists staging, icon, lves, dot1, lib1, dot2, doc. eexists. split; [|exact H].
  split; [exact Et|]. split; [exists oo; split; [exact Cw|reflexivity]|]. split; [exact Ld|]. split; [exact Pi|]. split; [exact Cl|]. split; [exact Ce|]. split; [|reflexivity].
  eexists. exists t1. exact Cm.
Qed.

Lemma lve_nobslash n : In n lve_names -> ~ In BSLASH n.
Proof. intros I J. cbn [lve_names In] in I. repeat destruct I as [<-|I]; try contradiction; cbn in J; repeat destruct J as [J|J]; try discriminate J; exact J. Qed.
Lemma lve_notpackage n : In n lve_names -> caseeq n (B "package.mo") = true -> n = B "package.mo".
Proof. intros I J. cbn [lve_names In] in I. repeat destruct I as [<-|I]; try contradiction; discriminate J. Qed.

(** The copy of the library. *)
Lemma stagedw_lib v t p staging name es icon lves dot1 lib1 dot2 doc L : WinSane v -> WinCopies v -> w_disk (v_sys v) p = Some (Folder es) ->
  StagedW v t p staging name es icon lves dot1 lib1 dot2 doc L -> lib1 = strip_list es.
Proof.
  intros (_ & Sp & _) ((_ & Wm & Wo & _) & _ & Fi) D (_ & (oo & Cw & ->) & _).
  assert (F' : forall q d, At (Folder es) q (Reg d) -> Fine (v_calls v (p ++ match q with [] => [] | _ => [BSLASH] ++ backslashed q end)) d).
  { intros q d A. destruct q as [|n q]; [apply at_nil in A; discriminate|]. exact (Fi _ _ _ _ D A). }
  destruct (copywin_exact (v_calls v) (v_sys v) Wo Wm (Folder es) p (staging ++ [BSLASH] ++ name) (proj1 (Sp _ _ D)) F' es eq_refl) as [E|E]; rewrite E in Cw; [|discriminate].
  injection Cw as <-. reflexivity.
Qed.
(** The folder .library. *)
Lemma stagedw_dot v t p staging name es icon lves dot1 lib1 dot2 doc L : WinSane v -> WinCopies v -> StagedW v t p staging name es icon lves dot1 lib1 dot2 doc L ->
  Proper (Folder dot2) /\
  (forall N : bytes -> Prop, (forall n, In n lve_names -> N n) -> (forall exe x, w_exe (v_sys v) = Some exe -> w_disk (v_sys v) (exe ++ B "/.library") = Some x -> Names N x) -> Names N (Folder dot2)) /\
  (PlainLves (v_sys v) -> forall q d, At (Folder dot2) q (Reg d) -> Origin (v_sys v) es (DOT_LIBRARY :: q) d).
Proof.
  intros (_ & Sp & _) ((Wc & _) & _ & Fi) (_ & _ & _ & _ & Cl & Ce & _).
  assert (D1 : Proper (Folder dot1) /\ (forall N : bytes -> Prop, (forall n, In n lve_names -> N n) -> Names N (Folder dot1)) /\
    (PlainLves (v_sys v) -> forall q d, At (Folder dot1) q (Reg d) -> Origin (v_sys v) es (DOT_LIBRARY :: q) d)).
  { unfold copy_lve in Cl. destruct (using_encryption t).
    2: { injection Cl as _ <-. split; [exact proper_empty|]. split; [intros N _; constructor; intros ? ? []|]. intros _ q d A. apply at_folder_reg in A. destruct A as (? & ? & ? & _ & [] & _). }
    destruct (w_exe (v_sys v)) as [exe|] eqn:Ex; [|discriminate]. destruct (copy_lves_inv _ _ _ _ _ _ _ _ Cl (fun n I => I)) as [Y1 Y2]. split; [exact (Y1 proper_empty)|]. split.
    - intros N HN. constructor. intros n x I. destruct (Y2 n x I) as [[]|(y & f & tt & d0 & In0 & _ & _ & _ & (e & ->))]. split; [now apply HN|constructor].
    - intros Pl q d A. apply at_folder_reg in A. destruct A as (n & q' & x & -> & I & A). destruct (Y2 n x I) as [[]|(y & f & tt & d0 & In0 & Dy & Ed & Ef & (e & ->))].
      apply at_reg in A. destruct A as [-> [= ->]]. rewrite lve_shipped in In0. destruct (Pl exe n y Ex In0) as (d2 & ->); [exact Dy|]. subst d0.
      rewrite Wc in Ef. cbn [fst] in Ef. injection Ef as <-. now apply From_lve with exe. }
  destruct D1 as (P1 & N1 & O1). unfold copy_extra_win in Ce. destruct (w_exe (v_sys v)) as [exe|] eqn:Ex; [|discriminate].
  destruct (w_disk (v_sys v) (exe ++ B "/.library")) as [y|] eqn:Dx; [|injection Ce as <-; split; [exact P1|split; [intros N HN _; now apply N1|exact O1]]].
  unfold stage_files_win in Ce. destruct (fit _ _) as [f| |]; [|discriminate|discriminate]. cbn [bind] in Ce.
  rewrite Dx in Ce. destruct y as [e|xs|]; [discriminate| |discriminate].
  destruct (copy_win _ _ _ _ _ _) as [[ok oo]| |] eqn:Cw; [|discriminate|discriminate]. cbn [bind] in Ce. injection Ce as -> <-.
  destruct (copywin_from _ _ (Folder xs) xs _ _ _ _ _ eq_refl (fun q d A => Fi _ _ _ _ Dx A) Cw) as (l' & -> & F1 & F2 & F3).
  split; [|split].
  - apply F1; [exact (proj1 (Sp _ _ Dx))|exact P1].
  - intros N HN HX. apply F2; [exact (HX exe _ eq_refl Dx)|now apply N1].
  - intros Pl q d A. destruct (F3 q d A) as [A'|A']; [now apply O1|]. apply From_extra with exe (Folder xs); [exact Ex|exact Dx|exact A'].
Qed.

Lemma stagedw_facts v t p staging name es icon lves dot1 lib1 dot2 doc L : WinSane v -> WinCopies v -> PlainLves (v_sys v) -> w_disk (v_sys v) p = Some (Folder es) ->
  StagedW v t p staging name es icon lves dot1 lib1 dot2 doc L ->
  Proper (Folder L) /\ WinNames (Folder L) /\ (AllSpelt v es -> Spelt (Folder L)) /\
  (forall q d, At (Folder L) q (Reg d) -> Origin (v_sys v) es q d) /\
  (forall q d, hd [] q <> DOT_LIBRARY -> (At (Folder L) q (Reg d) <-> At (Folder es) q (Reg d) /\ ~ In DOT_LIBRARY q)) /\
  (forall q, At (Folder es) q (Folder []) -> ~ In DOT_LIBRARY q -> q <> [] -> At (Folder L) q (Folder [])).
Proof.
  intros Sa W Pl D St. pose proof (stagedw_lib _ _ _ _ _ _ _ _ _ _ _ _ _ Sa W D St) as El. destruct (stagedw_dot _ _ _ _ _ _ _ _ _ _ _ _ _ Sa W St) as (P2 & N2 & O2).
  destruct St as (_ & _ & _ & _ & _ & _ & _ & EL). destruct Sa as (_ & Sp & _). destruct (Sp _ _ D) as [Pe We].
  assert (HL : forall N : bytes -> Prop, Names N (Folder es) -> (forall n, In n lve_names -> N n) -> N DOT_LIBRARY -> N (B "manifest.xml") ->
    (forall exe x, w_exe (v_sys v) = Some exe -> w_disk (v_sys v) (exe ++ B "/.library") = Some x -> Names N x) -> Names N (Folder L)).
  { intros N H1 H2 H3 H4 H5. subst L. apply names_set; [|exact H3|apply names_set; [now apply N2|exact H4|constructor]]. subst lib1. rewrite <- strip_folder. now apply names_strip. }
  split; [|split; [|split; [|split; [|split]]]].
  - subst L. apply proper_set_entry; [|exact dot_filename|apply proper_set_entry; [exact P2|exact manifest_filename|constructor]]. subst lib1. rewrite <- strip_folder. now apply proper_strip.
  - apply names_win. apply HL; [now apply names_win|exact lve_nobslash| | |].
    + intros J. cbn in J. repeat destruct J as [J|J]; try discriminate J; exact J.
    + intros J. cbn in J. repeat destruct J as [J|J]; try discriminate J; exact J.
    + intros exe x Ex Dx. apply names_win. exact (proj2 (Sp _ _ Dx)).
  - intros [S1 S2]. apply names_spelt. apply HL; [now apply names_spelt|exact lve_notpackage|discriminate|discriminate|]. intros exe x Ex Dx. apply names_spelt. now apply (S2 exe).
  - intros q d A. subst L. apply at_folder_reg in A. destruct A as (n & q' & x & -> & I & A). destruct (set_entry_in _ _ _ _ _ I) as [[-> ->]|I'].
    + apply at_folder_reg in A. destruct A as (m & q2 & x2 & -> & I2 & A). destruct (set_entry_in _ _ _ _ _ I2) as [[-> ->]|I3].
      * apply at_reg in A. destruct A as [-> _]. apply From_manifest.
      * apply (O2 Pl). apply at_cons. eauto.
    + assert (A' : At (strip (Folder es)) (n :: q') (Reg d)) by (rewrite strip_folder, <- El; apply at_cons; eauto). apply strip_at in A'. destruct A' as (y & Ay & _ & Ey & _).
      destruct y; [|discriminate|discriminate]. injection Ey as <-. now apply From_library.
  - intros q d Nq. assert (Es : At (Folder lib1) q (Reg d) <-> At (Folder es) q (Reg d) /\ ~ In DOT_LIBRARY q).
    { rewrite El, <- strip_folder, strip_at. split.
      - intros (y & Ay & Ny & Ey & _). destruct y; [|discriminate|discriminate]. injection Ey as <-. now split.
      - intros [Ay Ny]. exists (Reg d). split; [exact Ay|]. split; [exact Ny|]. split; [reflexivity|left; discriminate]. }
    rewrite <- Es. subst L. split.
    + intros A. apply at_folder_reg in A. destruct A as (n & q' & x & -> & I & A). cbn [hd] in Nq. destruct (set_entry_in _ _ _ _ _ I) as [[-> _]|I']; [contradiction|]. apply at_cons. eauto.
    + intros A. apply at_folder_reg in A. destruct A as (n & q' & x & -> & I & A). cbn [hd] in Nq. apply at_cons. exists x. split; [|exact A]. now apply set_entry_old.
  - intros q A Nq Q. subst L. destruct q as [|n q]; [contradiction|].
    assert (A' : At (strip (Folder es)) (n :: q) (Folder [])).
    { apply strip_at. exists (Folder []). split; [exact A|]. split; [exact Nq|]. split; [reflexivity|left; discriminate]. }
    rewrite strip_folder, <- El in A'. apply at_cons in A'. destruct A' as (x & I & A'). apply at_cons. exists x. split; [|exact A']. apply set_entry_old; [|exact I].
    intros ->. apply Nq. now left.
Qed.

(** ** The archive *)

Lemma zip_top_win v old removed enc staging name lib2 ok l : WinSane v -> ~ In BSLASH name -> (forall q d, At (Folder lib2) q (Reg d) -> Forall (fun n => ~ In BSLASH n) q) ->
  create_zip_win (v_calls v) (v_sys v) old removed enc staging (w_order (v_sys v) Zipping [(name, Folder lib2)]) = Ok (ok, l) ->
  exists l', l = (if removed then [] else old) ++ l' /\ Packed enc name (Folder lib2) ok l' /\ (ok = true -> forall dir, ~ At (Folder lib2) dir (Folder [])).
Proof.
  intros (Or & _) Nn Nb H. unfold create_zip_win in H. destruct (same_single _ _ _ (Or Zipping [(name, Folder lib2)])) as (y & Ey & Sy). rewrite Ey in H. clear Ey.
  destruct (zip_win _ _ _ _ _ _) as [[ok1 l1]| |] eqn:Z; [|discriminate|discriminate]. cbn [bind] in H. injection H as -> <-. exists l1. split; [reflexivity|].
  destruct (zipwin_made _ _ _ _ _ _ _ _ _ eq_refl Z) as (Ne & LL & -> & A1 & C1).
  assert (Sub : forall p d, At (Folder [(name, y)]) p (Reg d) -> exists q, p = name :: q /\ At (Folder lib2) q (Reg d)).
  { intros p d A. apply at_folder_reg in A. destruct A as (n & q & x & -> & [I|[]] & A). injection I as <- <-. exists q. split; [reflexivity|]. now apply (same_at _ _ _ _ Sy). }
  assert (Nm : forall p d, In (p, d) LL -> exists dir n, p = name :: dir ++ [n] /\ At (Folder lib2) (dir ++ [n]) (Reg d) /\ Shown enc n /\
    zip_name_win staging (staging ++ [BSLASH] ++ backslashed p) = path_of (name :: dir) n).
  { intros p d I. destruct (A1 p d I) as (A & (dir & n & Ep & Sh) & Ln). destruct (Sub p d A) as (q & -> & Aq).
    destruct dir as [|c dir]; cbn [app] in Ep.
    - injection Ep as _ ->. apply at_nil in Aq. discriminate.
    - injection Ep as _ ->. exists dir, n. split; [reflexivity|]. split; [exact Aq|]. split; [exact Sh|].
      rewrite zip_name_spec; [|constructor; [exact Nn|exact (Nb _ _ Aq)]|exact Ln]. change (name :: dir ++ [n]) with ((name :: dir) ++ [n]). apply slashed_path. }
  split; [split|].
  - intros e d I. apply in_map_iff in I. destruct I as ([p d'] & E & I). pose proof (f_equal fst E) as E1. pose proof (f_equal snd E) as E2. cbn [fst snd] in E1, E2. subst d'.
    destruct (Nm p d I) as (dir & n & -> & A & Sh & En). exists dir, n. split; [congruence|]. split; [exact A|]. intros ->. destruct (is_modelica n) eqn:M; [|reflexivity].
    exfalso. apply (Sh eq_refl). now apply is_modelica_spec.
  - intros T dir n d A M. assert (I : In ((name :: dir) ++ [n], d) LL).
    { apply C1; [exact T| |]. 
      - cbn [app]. apply at_cons. exists y. split; [now left|]. now apply (same_at _ _ _ _ Sy) in A.
      - intros -> Hm. apply is_modelica_spec in Hm. rewrite (M eq_refl) in Hm. discriminate. }
    apply in_map_iff. exists ((name :: dir) ++ [n], d). split; [|exact I]. cbn [fst snd]. f_equal. destruct (Nm _ _ I) as (dir' & n' & E & _ & _ & ->).
    injection E as E. apply app_inj_tail in E. destruct E as [-> ->]. reflexivity.
  - intros T dir A. apply (Ne T (name :: dir)). apply at_cons. exists y. split; [now left|]. exact (same_empty _ _ _ Sy A).
Qed.

(** The draws of a system on which paths are spelt with slashes. *)
Definition slashing (w : world) : world :=
  {| w_disk := w_disk w; w_readable := w_readable w; w_opendir := w_opendir w; w_mkdir := w_mkdir w; w_copy := w_copy w; w_exe := w_exe w; w_staging := w_staging w;
     w_tmpdir := w_tmpdir w; w_order := w_order w; w_manifest := w_manifest w; w_open := w_open w;
     w_iv := fun p => w_iv w (bk p); w_mask := fun p => w_mask w (bk p); w_encrypts := fun p => w_encrypts w (bk p);
     w_zip_open := w_zip_open w; w_zip_add := w_zip_add w; w_unlink := w_unlink w; w_rmdir := w_rmdir w |}.
Lemma slashing_same w : (forall p, w_open w p = true) -> (forall p, w_opendir w Encrypting p = true) -> SameDraws (slashing w) w.
Proof.
  intros O D. split; [exact O|]. split; [exact O|]. split; [exact D|]. split; [exact D|]. intros p F. rewrite (slashed_bk p F). now repeat split.
Qed.
Lemma origin_slashing w lib q d : Origin w lib q d <-> Origin (slashing w) lib q d.
Proof.
  split; intros H; destruct H as [p d A|exe n d E I D|exe t p d E D A|doc].
  1, 5: now apply From_library. 1, 4: now apply From_lve with exe. 1, 3: now apply From_extra with exe t. all: apply From_manifest.
Qed.

Definition PackedW (pr : primitives) (K : bytes) (v : windows) (args : list bytes) (o : list (bytes * bytes)) (name : bytes) (lib : entries) (r : packed)
    (t : slots) (p staging : bytes) (icon : option bytes) (lves : list (option bytes)) (dot1 lib1 dot2 : entries) (doc : bytes) (L lib2 : entries) (l' : list (bytes * bytes)) : Prop :=
  SlotsW v args o name p t /\ w_disk (v_sys v) p = Some (Folder lib) /\ StagedW v t p staging name lib icon lves dot1 lib1 dot2 doc L /\
  Proper (Folder lib2) /\ Packed (encrypted o) name (Folder lib2) (k_code r =? 0) l' /\
  (k_code r = 0 -> forall dir, ~ At (Folder lib2) dir (Folder [])) /\
  ((encrypted o = true /\ exists tbl tr, Trace pr K (slashing (v_sys v)) [] tr tbl /\ Good (slashing (v_sys v)) [] (Folder L) (Folder lib2) tr /\
      forall dir, At (Folder L) dir (Folder []) -> At (Folder lib2) dir (Folder [])) \/ (encrypted o = false /\ lib2 = L)).
Lemma package_win_inv pr K v args o name lib r : WinSane v -> WinCopies v -> PlainLves (v_sys v) -> AllSpelt v lib -> WinRequest v args o name lib ->
  package_win pr K v args = Ok r -> (k_archive r = None /\ k_code r <> 0) \/
  exists l l', l = (if v_removed v then [] else v_old v) ++ l' /\ k_archive r = match l with [] => None | _ => Some (archive_name name, l) end /\ (k_code r = 0 \/ k_code r = 9) /\
  exists t p staging icon lves dot1 lib1 dot2 doc L lib2, PackedW pr K v args o name lib r t p staging icon lves dot1 lib1 dot2 doc L lib2 l'.
Proof.
  intros Sa W Pl Sp Rq H. destruct (request_win _ _ _ _ _ _ _ _ Rq H) as [E|[(u & E)|[E|(t & p & Sl & D & Hs)]]]; [injection E as ->; left; split; [reflexivity|discriminate]|discriminate|discriminate|].
  destruct (stage_win_inv _ _ _ _ _ _ _ _ _ _ Sl D Hs) as [(N & N0)|(staging & icon & lves & dot1 & lib1 & dot2 & doc & L & St & He)]; [left; split; [exact N|lia]|].
  destruct (stagedw_facts _ _ _ _ _ _ _ _ _ _ _ _ _ Sa W Pl D St) as (PL & WL & SL & _). specialize (SL Sp). pose proof Sa as (Or & _). pose proof W as ((_ & _ & _ & Wo) & We & _).
  pose proof Sl as (_ & _ & _ & (pre & _ & _ & Nb & _) & _ & Ue). unfold encrypt_and_zip_win in He. rewrite Ue in He.
  assert (X : (k_archive r = None /\ k_code r <> 0) \/ exists lib2, Proper (Folder lib2) /\ (forall q d, At (Folder lib2) q (Reg d) -> Forall (fun n => ~ In BSLASH n) q) /\
      ((encrypted o = true /\ exists tbl tr, Trace pr K (slashing (v_sys v)) [] tr tbl /\ Good (slashing (v_sys v)) [] (Folder L) (Folder lib2) tr /\
        forall dir, At (Folder L) dir (Folder []) -> At (Folder lib2) dir (Folder [])) \/ (encrypted o = false /\ lib2 = L)) /\
      (do (ok2, l) <- create_zip_win (v_calls v) (v_sys v) (v_old v) (v_removed v) (encrypted o) staging (w_order (v_sys v) Zipping [(name, Folder lib2)]) ;
        let archive := match l with [] => None | _ => Some (snprintf MAX_STRING (name ++ B ".mol"), l) end in
        if ok2 then
          Ok {| k_code := 0;
                k_staging := match delete_staging_win (v_sys v) staging (w_order (v_sys v) Removing [(name, Folder lib2)]) with
                             | (_, Some (Folder es)) => Some es
                             | _ => None
                             end;
                k_archive := archive |}
        else Ok {| k_code := 9; k_staging := Some [(name, Folder lib2)]; k_archive := archive |}) = Ok r).
  { destruct (encrypted o).
    - pose proof (same_proper _ _ (Or Encrypting L) PL) as PL'.
      assert (WL' : WinNames (Folder (w_order (v_sys v) Encrypting L))) by (apply names_win; apply (names_same _ (Folder L)); [apply Or|now apply names_win]).
      assert (SL' : Spelt (Folder (w_order (v_sys v) Encrypting L))) by (apply names_spelt; apply (names_same _ (Folder L)); [apply Or|now apply names_spelt]).
      pose proof (proj1 (encrypt_bk pr K (slashing (v_sys v)) (v_sys v) (staging ++ [BSLASH] ++ name) (slashing_same _ Wo We) (Folder (w_order (v_sys v) Encrypting L)) [] [] _ eq_refl PL' WL' SL'
        ltac:(constructor) ltac:(constructor))) as Eb.
      change (option_map bk (relstr [])) with (@None bytes) in Eb. change (bkt []) with (@nil (bytes * bytes)) in Eb. rewrite Eb in He. clear Eb.
      destruct (encrypt_dir _ _ _ _ _ _ _) as [[[ok tbl] lib2]| |] eqn:E; [|discriminate|discriminate]. cbn [bkf bind] in He.
      destruct (encrypt_dir_folder _ _ _ _ _ _ _ _ _ _ E) as (l2 & ->). destruct ok; [|injection He as <-; left; split; [reflexivity|discriminate]]. right.
      destruct (enc_trace _ _ _ _ _ [] _ _ _ PL' E) as (tr & T & G). apply (good_same _ _ _ _ _ _ (Or Encrypting L)) in G.
      exists l2. split; [apply G|]. split; [|split; [|exact He]].
      + intros q d A. pose proof G as (G1 & _ & _ & G4 & _). destruct (G4 q d A) as [A'|(s & dir & Is & Ed & -> & _)]; [exact (winnames_at _ WL _ _ A')|].
        destruct (G1 s Is) as (dir2 & Ed2 & A2 & _). cbn [app] in Ed, Ed2. assert (dir2 = dir) as -> by congruence. pose proof (winnames_at _ WL _ _ A2) as F.
        apply Forall_app in F. destruct F as [F1 F2]. apply Forall_cons_iff in F2. apply Forall_app. split; [exact F1|]. constructor; [|constructor].
        intros J. apply in_app_or in J. destruct J as [J|[J|[]]]; [exact (proj1 F2 J)|discriminate J].
      + left. split; [reflexivity|]. exists tbl, tr. split; [exact T|]. split; [exact G|]. intros dir A. apply (enc_empty _ _ _ _ _ [] _ _ _ dir PL' E). exact (same_empty _ _ _ (Or Encrypting L) A).
    - cbn [bind] in He. right. exists L. split; [exact PL|]. split; [intros q d A; exact (winnames_at _ WL _ _ A)|]. split; [|exact He]. right. now split. }
  clear He. destruct X as [X|(lib2 & P2 & Nb2 & Hd & He)]; [now left|right].
  destruct (create_zip_win _ _ _ _ _ _ _) as [[ok2 l2]| |] eqn:Z; [|discriminate|discriminate]. cbn [bind] in He.
  destruct (zip_top_win _ _ _ _ _ _ _ _ _ Sa Nb Nb2 Z) as (l' & E2 & Pk & Ne). exists l2, l'. split; [exact E2|].
  assert (R : k_code r = (if ok2 then 0 else 9) /\ k_archive r = match l2 with [] => None | _ => Some (archive_name name, l2) end) by (destruct ok2; injection He as <-; now split).
  destruct R as [Rc Ra]. split; [exact Ra|]. split; [rewrite Rc; destruct ok2; tauto|].
  exists t, p, staging, icon, lves, dot1, lib1, dot2, doc, L, lib2. unfold PackedW. rewrite Rc. split; [exact Sl|]. split; [exact D|]. split; [exact St|]. split; [exact P2|].
  split; [destruct ok2; exact Pk|]. split; [destruct ok2; [intros _; now apply Ne|discriminate]|exact Hd].
Qed.
(** What is in .library. *)
Lemma dotw_packed pr K v args o name lib r t p staging icon lves dot1 lib1 dot2 doc L lib2 l' : k_code r = 0 ->
  PackedW pr K v args o name lib r t p staging icon lves dot1 lib1 dot2 doc L lib2 l' ->
  forall n d, In (n, Reg d) (set_entry (B "manifest.xml") (Reg doc) dot2) -> is_modelica n = false -> last_byte n <> Some (ch 99) -> In (slashed [name; B ".library"; n], d) l'.
Proof.
  intros Cd (_ & _ & St & _ & (_ & P1) & _ & En) n d I M Lc. rewrite Cd in P1. destruct St as (_ & _ & _ & _ & _ & _ & _ & EL).
  assert (A : At (Folder L) [DOT_LIBRARY; n] (Reg d)).
  { subst L. apply at_cons. eexists. split; [apply set_entry_new|]. apply at_cons. exists (Reg d). split; [exact I|constructor]. }
  assert (A2 : At (Folder lib2) ([DOT_LIBRARY] ++ [n]) (Reg d)).
  { destruct En as [(_ & tbl & tr & _ & (_ & _ & _ & _ & G5 & _) & _)|(_ & ->)]; [|exact A].
    destruct (G5 [DOT_LIBRARY] n d A) as [A'|(s & _ & _ & ->)]; [exact A'|]. exfalso. apply Lc. apply (last_byte_app (s_name s) (ch 99)). }
  exact (P1 eq_refl [DOT_LIBRARY] n d A2 (fun _ => M)).
Qed.
Lemma archive_win pr K v args o name lib r : WinSane v -> WinCopies v -> PlainLves (v_sys v) -> AllSpelt v lib -> WinRequest v args o name lib ->
  package_win pr K v args = Ok r -> k_code r = 0 \/ k_archive r <> None ->
  exists l l', k_archive r = Some (archive_name name, l) /\ l = (if v_removed v then [] else v_old v) ++ l' /\
  exists t p staging icon lves dot1 lib1 dot2 doc L lib2, PackedW pr K v args o name lib r t p staging icon lves dot1 lib1 dot2 doc L lib2 l'.
Proof.
  intros Sa W Pl Sp Rq H Hc. destruct (package_win_inv _ _ _ _ _ _ _ _ Sa W Pl Sp Rq H) as [[E1 E2]|(l & l' & El & Ea & Cc & t & p & st & icon & lves & dot1 & lib1 & dot2 & doc & L & lib2 & PW)]; [tauto|].
  exists l, l'. split; [|split; [exact El|eauto 20]]. destruct l as [|e l]; [exfalso|exact Ea]. destruct Hc as [Hc|Hc]; [|contradiction].
  symmetry in El. apply app_eq_nil in El. destruct El as [_ ->].
  exact (dotw_packed _ _ _ _ _ _ _ _ _ _ _ _ _ _ _ _ _ _ _ _ Hc PW _ _ (set_entry_new _ _ _) eq_refl ltac:(discriminate)).
Qed.

Lemma built_win pr K v args o name lib r l : WinSane v -> WinCopies v -> PlainLves (v_sys v) -> AllSpelt v lib -> WinRequest v args o name lib -> encrypted o = true ->
  package_win pr K v args = Ok r -> k_code r = 0 -> k_archive r = Some (archive_name name, l) ->
  exists l', l = (if v_removed v then [] else v_old v) ++ l' /\ Built pr K (slashing (v_sys v)) name lib l'.
Proof.
  intros Sa W Pl Sp Rq En H Cd Ea.
  destruct (archive_win _ _ _ _ _ _ _ _ Sa W Pl Sp Rq H (or_introl Cd)) as (l0 & l' & Ea' & El & t & p & st & icon & lves & dot1 & lib1 & dot2 & doc & L & lib2 & Sl & D & St & P2 & Pk & _ & Ec).
  assert (l0 = l) as -> by congruence. destruct Ec as [(_ & tbl & tr & T & Gd & _)|(He' & _)]; [|congruence]. rewrite Cd, En in Pk. exists l'. split; [exact El|].
  destruct (stagedw_facts _ _ _ _ _ _ _ _ _ _ _ _ _ Sa W Pl D St) as (_ & _ & _ & O & A & _).
  exists L, lib2, tbl, tr. split; [exact P2|]. split.
  { destruct Sl as (_ & _ & _ & (pre & _ & (_ & Ns & _) & _) & _). exact Ns. }
  split; [exact Pk|]. split; [exact T|]. split; [exact Gd|]. split; [intros q d Aq; apply (proj1 (origin_slashing _ _ _ _)); now apply O|exact A].
Qed.

Lemma origin_names v lib q d : WinSane v -> PlainLves (v_sys v) -> (exists p, w_disk (v_sys v) p = Some (Folder lib)) -> Origin (v_sys v) lib q d -> Forall Name q.
Proof.
  intros (_ & Sp & _) Pl (p & D) O.
  assert (T : forall t x, Proper t -> WinNames t -> forall q, At t q x -> Forall Name q).
  { intros t x P W q0 A. destruct (proper_at _ _ _ P A) as [_ F1]. pose proof (winnames_at _ W _ _ A) as F2. rewrite Forall_forall in *. intros n I.
    destruct (F1 n I) as (N1 & N2 & N3 & N4). specialize (F2 n I). unfold Name. tauto. }
  assert (Dt : Name (B ".library") /\ Name (B "manifest.xml")).
  { split; (split; [discriminate|]); (split; [|split]); intros J; cbn in J; repeat destruct J as [J|J]; try discriminate J; exact J. }
  destruct Dt as [Dt Mt].
  destruct O as [q d A|exe n d E I D0|exe t q d E D0 A|doc].
  - destruct (Sp _ _ D) as [P W]. exact (T _ _ P W _ A).
  - constructor; [exact Dt|]. constructor; [|constructor]. cbn [shipped map fst In] in I. repeat destruct I as [<-|I]; try contradiction; 
      (split; [discriminate|]); (split; [|split]); intros J; cbn in J; repeat destruct J as [J|J]; try discriminate J; exact J.
  - destruct (Sp _ _ D0) as [P W]. constructor; [exact Dt|]. exact (T _ _ P W _ A).
  - constructor; [exact Dt|]. constructor; [exact Mt|constructor].
Qed.

(** ** The archive of an encrypted library, and of another *)

Lemma contents_win pr K v args o name lib r z l : GoodPrimitives pr -> length K = 32 -> WinSane v -> WinCopies v -> PlainLves (v_sys v) -> AllSpelt v lib ->
  WinRequest v args o name lib -> package_win pr K v args = Ok r -> k_archive r = Some (z, l) ->
  z = archive_name name /\
  forall e d, In (e, d) l -> (v_removed v = false /\ In (e, d) (v_old v)) \/ exists q, e = slashed (name :: q) /\
    ((Origin (v_sys v) lib q d /\ (encrypted o = true -> ~ Modelica e)) \/
     (encrypted o = true /\ exists dir n src, q = dir ++ [n ++ B "c"] /\ Modelica n /\ Origin (v_sys v) lib (dir ++ [n]) src /\
        Concealed pr (w_iv (v_sys v) (backslashed (dir ++ [n]))) (w_mask (v_sys v) (backslashed (dir ++ [n]))) src d)).
Proof.
  intros G LK Sa W Pl Sp Rq H Ea.
  destruct (archive_win _ _ _ _ _ _ _ _ Sa W Pl Sp Rq H) as (l0 & l' & Ea' & El & t & p & st & icon & lves & dot1 & lib1 & dot2 & doc & L & lib2 & Sl & D & St & P2 & (P1 & _) & _ & En); [right; congruence|].
  assert (z = archive_name name /\ l = l0) as [-> ->] by (split; congruence). split; [reflexivity|]. intros e d I. rewrite El in I. apply in_app_or in I.
  destruct I as [I|I]; [left; destruct (v_removed v); [destruct I|now split]|right].
  destruct (P1 e d I) as (dir & n & Ee & A & M). exists (dir ++ [n]). split; [rewrite Ee; change (name :: dir ++ [n]) with ((name :: dir) ++ [n]); now rewrite slashed_path|].
  destruct (stagedw_facts _ _ _ _ _ _ _ _ _ _ _ _ _ Sa W Pl D St) as (_ & _ & _ & O & _).
  assert (NM : encrypted o = true -> ~ Modelica e).
  { intros He Hm. rewrite Ee in Hm. destruct (path_last dir n name) as (a & Ep). rewrite Ep in Hm. apply modelica_path in Hm. apply is_modelica_spec in Hm. rewrite (M He) in Hm. discriminate. }
  destruct En as [(He & tbl & tr & T & Gd & _)|(He & ->)]; [|left; split; [now apply O|exact NM]].
  pose proof Gd as (G1 & _ & _ & G4 & _). destruct (G4 _ _ A) as [A'|(s & dir' & Is & Ed & Ep & ->)]; [left; split; [now apply O|exact NM]|].
  right. split; [exact He|]. cbn [app] in Ed. subst dir'. exists (s_dir s), (s_name s), (s_data s). destruct (G1 s Is) as (dir2 & Ed & A' & _ & Ms & _). cbn [app] in Ed. subst dir2.
  split; [exact Ep|]. split; [now apply is_modelica_spec|]. split; [now apply O|]. rewrite (slashed_bk _ (origin_names _ _ _ _ Sa Pl (ex_intro _ p D) (O _ _ A'))), slashed_path. fold (s_rel s).
  destruct Sa as (_ & _ & Sr). assert (Sr' : forall x, length (w_iv (slashing (v_sys v)) x) = 16 /\ length (w_mask (slashing (v_sys v)) x) = 32) by (intros x; apply Sr).
  apply (trace_concealed pr K (slashing (v_sys v)) G LK Sr' _ _ _ T); [|exact Is]. intros q x F. discriminate.
Qed.
Lemma complete_archive_win pr K v args o name lib r : WinSane v -> WinCopies v -> PlainLves (v_sys v) -> AllSpelt v lib -> WinRequest v args o name lib ->
  package_win pr K v args = Ok r -> k_code r = 0 ->
  exists l, k_archive r = Some (archive_name name, l) /\
  forall dir n d, At (Folder lib) (dir ++ [n]) (Reg d) -> ~ In (B ".library") (dir ++ [n]) ->
    (encrypted o = false -> In (slashed (name :: dir ++ [n]), d) l) /\
    (encrypted o = true -> ~ Modelica n -> (forall m e, n = m ++ B "c" -> Modelica m -> ~ At (Folder lib) (dir ++ [m]) (Reg e)) ->
       In (slashed (name :: dir ++ [n]), d) l) /\
    (encrypted o = true -> Modelica n -> Forall (fun c => caseeq c (B "package.mo") = false) dir ->
       exists out, In (slashed (name :: dir ++ [n ++ B "c"]), out) l /\
         (GoodPrimitives pr -> length K = 32 -> Concealed pr (w_iv (v_sys v) (backslashed (dir ++ [n]))) (w_mask (v_sys v) (backslashed (dir ++ [n]))) d out)).
Proof.
  intros Sa W Pl Sp Rq H Cd.
  destruct (archive_win _ _ _ _ _ _ _ _ Sa W Pl Sp Rq H (or_introl Cd)) as (l & l' & Ea & El & t & p & st & icon & lves & dot1 & lib1 & dot2 & doc & L & lib2 & Sl & D & St & P2 & (_ & P1) & _ & En).
  rewrite Cd in P1. specialize (P1 eq_refl). exists l. split; [exact Ea|]. intros dir n d A Nd.
  destruct (stagedw_facts _ _ _ _ _ _ _ _ _ _ _ _ _ Sa W Pl D St) as (_ & _ & _ & O & SA & _).
  assert (Il : forall x, In x l' -> In x l) by (intros x I; rewrite El; apply in_or_app; now right).
  assert (Hh : forall m, (dir = [] -> m <> DOT_LIBRARY) -> hd [] (dir ++ [m]) <> DOT_LIBRARY).
  { intros m Hm. destruct dir as [|c dir]; [now apply Hm|]. cbn [app hd]. intros ->. apply Nd. now left. }
  assert (AL : At (Folder L) (dir ++ [n]) (Reg d)). { apply SA; [|now split]. apply Hh. intros -> ->. apply Nd. now left. }
  assert (Sx : forall m, slashed (name :: dir ++ [m]) = path_of (name :: dir) m).
  { intros m. change (name :: dir ++ [m]) with ((name :: dir) ++ [m]). apply slashed_path. }
  split; [|split].
  - intros He. destruct En as [(He' & _)|(_ & ->)]; [congruence|]. rewrite Sx. apply Il, P1; [exact AL|congruence].
  - intros He Nm Ov. destruct En as [(_ & tbl & tr & T & Gd & _)|(He' & _)]; [|congruence]. destruct Gd as (G1 & _ & _ & _ & G5 & _). rewrite Sx. apply Il, P1.
    + destruct (G5 _ _ _ AL) as [A'|(s & Is & Ed & Es)]; [exact A'|exfalso]. cbn [app] in Ed. destruct (G1 s Is) as (dir2 & Ed2 & A2 & _ & Ms & _). cbn [app] in Ed2.
      subst dir2. rewrite Ed in A2. apply (Ov (s_name s) (s_data s) Es); [now apply is_modelica_spec|]. apply SA in A2; [apply A2|].
      apply Hh. intros _ E. rewrite E in Ms. discriminate.
    + intros _. apply not_true_iff_false. intros Hm. apply is_modelica_spec in Hm. contradiction.
  - intros He Mn Fd. destruct En as [(_ & tbl & tr & T & Gd & _)|(He' & _)]; [|congruence]. destruct Gd as (G1 & _ & _ & _ & _ & G6 & _).
    apply is_modelica_spec in Mn. destruct W as ((_ & _ & _ & Wo) & _).
    assert (Cp : caseeq n PACKAGE_MO = true -> n = PACKAGE_MO).
    { destruct Sp as [Sp _]. apply names_spelt in Sp. pose proof (names_at _ _ Sp _ _ A) as F. apply Forall_app in F. destruct F as [_ F]. apply Forall_cons_iff in F. apply F. }
    destruct (G6 Wo dir n d AL Mn Cp Fd) as (s & Is & Ed & Es & Ds). cbn [app] in Ed.
    destruct (G1 s Is) as (dir2 & Ed2 & _ & A2 & _). cbn [app] in Ed2. subst dir2. rewrite Ed, Es in A2. exists (s_out s). split.
    + rewrite Sx. apply Il, P1; [exact A2|]. intros _. now apply modelica_c.
    + intros G LK. rewrite (slashed_bk _ (origin_names _ _ _ _ Sa Pl (ex_intro _ p D) (O _ _ AL))), slashed_path. destruct Sa as (_ & _ & Sr).
      assert (Sr' : forall x, length (w_iv (slashing (v_sys v)) x) = 16 /\ length (w_mask (slashing (v_sys v)) x) = 32) by (intros x; apply Sr).
      assert (TL : TableLen pr []) by (intros q x F; discriminate). pose proof (trace_concealed pr K (slashing (v_sys v)) G LK Sr' _ _ _ T TL s Is) as Cc.
      unfold s_rel in Cc. now rewrite Ed, Es, Ds in Cc.
Qed.
Lemma empty_win pr K v args o name lib r q : WinSane v -> WinCopies v -> PlainLves (v_sys v) -> AllSpelt v lib -> WinRequest v args o name lib ->
  package_win pr K v args = Ok r -> At (Folder lib) q (Folder []) -> q <> [] -> ~ In (B ".library") q -> k_code r <> 0.
Proof.
  intros Sa W Pl Sp Rq H A Q Nq Cd.
  destruct (archive_win _ _ _ _ _ _ _ _ Sa W Pl Sp Rq H (or_introl Cd)) as (l & l' & Ea & El & t & p & st & icon & lves & dot1 & lib1 & dot2 & doc & L & lib2 & Sl & D & St & P2 & _ & Ne & En).
  destruct (stagedw_facts _ _ _ _ _ _ _ _ _ _ _ _ _ Sa W Pl D St) as (_ & _ & _ & _ & _ & SE). specialize (SE q A Nq Q).
  destruct En as [(_ & tbl & tr & _ & _ & Ke)|(_ & ->)]; [exact (Ne Cd q (Ke q SE))|exact (Ne Cd q SE)].
Qed.

(** ** The icon *)

Lemma after_last_split p : exists pre, p = pre ++ after_last p /\ ~ In SLASH (after_last p) /\ ~ In BSLASH (after_last p) /\ (pre = [] \/ exists a c, pre = a ++ [c] /\ (c = SLASH \/ c = BSLASH)).
Proof.
  assert (C : forall (a : bytes) c b, exists pre, a ++ c :: b = pre ++ b /\ pre = a ++ [c]) by (intros a c b; exists (a ++ [c]); now rewrite <- app_assoc).
  unfold after_last. destruct (rfind_byte SLASH p) as [i|] eqn:Ri, (rfind_byte BSLASH p) as [j|] eqn:Rj.
  - apply rfind_byte_some in Ri, Rj. destruct Ri as (a & b & E1 & N1 & <-), Rj as (a2 & b2 & E2 & N2 & <-). destruct (Nat.ltb_spec (length a) (length a2)) as [Lt|Ge].
    + rewrite E2, skip_pre. destruct (C a2 BSLASH b2) as (pre & E & ->). exists (a2 ++ [BSLASH]). split; [exact E|]. split; [|split; [exact N2|right; eauto]].
      intros I. apply N1. rewrite E2 in E1. clear - E1 Lt I. revert a2 Lt E1. induction a as [|x a IH]; intros [|y a2] Lt E1; cbn [length app] in *; try lia.
      * injection E1 as _ <-. apply in_or_app. right. now right.
      * injection E1 as _ E1. apply (IH a2); [lia|exact E1].
    + rewrite E1, skip_pre. destruct (C a SLASH b) as (pre & E & ->). exists (a ++ [SLASH]). split; [exact E|]. split; [exact N1|split; [|right; eauto]].
      intros I. apply N2. rewrite E1 in E2. clear - E2 Ge I. revert a Ge E2. induction a2 as [|x a2 IH]; intros [|y a] Ge E2; cbn [length app] in *; try lia.
      * discriminate E2.
      * injection E2 as _ <-. apply in_or_app. right. now right.
      * injection E2 as _ E2. apply (IH a); [lia|exact E2].
  - apply rfind_byte_some in Ri. apply rfind_byte_none in Rj. destruct Ri as (a & b & -> & N1 & <-). rewrite skip_pre. destruct (C a SLASH b) as (pre & E & ->). exists (a ++ [SLASH]).
    split; [exact E|]. split; [exact N1|]. split; [|right; eauto]. intros I. apply Rj. apply in_or_app. right. now right.
  - apply rfind_byte_some in Rj. apply rfind_byte_none in Ri. destruct Rj as (a & b & -> & N1 & <-). rewrite skip_pre. destruct (C a BSLASH b) as (pre & E & ->). exists (a ++ [BSLASH]).
    split; [exact E|]. split; [|split; [exact N1|right; eauto]]. intros I. apply Ri. apply in_or_app. right. now right.
  - apply rfind_byte_none in Ri, Rj. exists []. split; [reflexivity|]. split; [exact Ri|]. split; [exact Rj|now left].
Qed.
Lemma extract_after p : extract_filename_win p = after_last p.
Proof.
  unfold extract_filename_win, after_last. destruct (rfind_byte SLASH p) as [i|] eqn:Ri.
  - apply rfind_byte_some in Ri. destruct Ri as (a & b & -> & N1 & <-). 
    assert (E : skipn (length a) (a ++ SLASH :: b) = SLASH :: b) by (rewrite skipn_app, skipn_all, Nat.sub_diag; reflexivity). rewrite E. clear E.
    destruct (rfind_byte BSLASH b) as [j|] eqn:Rb.
    + apply rfind_byte_some in Rb. destruct Rb as (c & e & -> & N2 & <-).
      change (SLASH :: c ++ BSLASH :: e) with ((SLASH :: c) ++ BSLASH :: e). rewrite (rfind_byte_app_in BSLASH _ _ N2).
      replace (a ++ (SLASH :: c) ++ BSLASH :: e) with ((a ++ SLASH :: c) ++ BSLASH :: e) by (rewrite <- app_assoc; reflexivity).
      rewrite (rfind_byte_app_in BSLASH _ _ N2), skip_pre. rewrite app_length. cbn [length]. destruct (Nat.ltb_spec (length a) (length a + S (length c))); [|lia].
      replace (S (length a + S (length c))) with (S (length (a ++ SLASH :: c))) by (rewrite app_length; reflexivity). now rewrite skip_pre.
    + apply rfind_byte_none in Rb. assert (Nb : rfind_byte BSLASH (SLASH :: b) = None) by (apply rfind_byte_none; intros [X|X]; [discriminate X|contradiction]). rewrite Nb.
      rewrite (rfind_before BSLASH SLASH a b) by (discriminate || assumption). destruct (rfind_byte BSLASH a) as [j|] eqn:Ra; [|reflexivity].
      apply rfind_lt in Ra. destruct (Nat.ltb_spec (length a) j); [lia|reflexivity].
  - destruct (rfind_byte BSLASH p); reflexivity.
Qed.
Lemma back_slashed q : Forall (fun n => ~ In BSLASH n) q -> map (fun c => if Ascii.eqb c BSLASH then SLASH else c) (backslashed q) = slashed q.
Proof.
  assert (M : forall n, ~ In BSLASH n -> map (fun c => if Ascii.eqb c BSLASH then SLASH else c) n = n).
  { induction n as [|c n IH]; intros N; [reflexivity|]. cbn [map]. rewrite IH by (intros X; apply N; now right). destruct (Ascii.eqb_spec c BSLASH) as [->|_]; [exfalso; apply N; now left|reflexivity]. }
  induction q as [|n q IH]; intros F; [reflexivity|]. apply Forall_cons_iff in F. destruct F as [Fn Fq]. destruct q as [|m q]; [exact (M n Fn)|].
  rewrite backslashed_cons, slashed_cons by discriminate. rewrite !map_app, (M n Fn), (IH Fq). reflexivity.
Qed.
Lemma icon_win v t p staging name es icon lves dot1 lib1 dot2 doc L i : WinSane v -> WinCopies v -> (forall q, w_opendir (v_sys v) Searching q = true) -> TempDir v ->
  ~ In BSLASH name -> w_disk (v_sys v) p = Some (Folder es) -> StagedW v t p staging name es icon lves dot1 lib1 dot2 doc L -> value_of t (B "icon") = Some i ->
  exists q, WinIconFile es i q /\ icon = Some (slashed (name :: q)).
Proof.
  intros Sa W So (d & Td & Tp & Tm) Nn D St Ei. pose proof (stagedw_lib _ _ _ _ _ _ _ _ _ _ _ _ _ Sa W D St) as El. destruct St as (Et & _ & _ & Pi & _).
  assert (Es : exists u, staging = d ++ B "\" ++ u /\ u <> [] /\ ~ In BSLASH u).
  { unfold temp_dir_win in Et. rewrite Tp in Et. destruct (_ <=? _); [discriminate|]. destruct (_ <? _); [discriminate|]. injection Et as Et. rewrite <- app_assoc in Et. now apply Tm. }
  destruct Es as (u & -> & Nu & Bu). unfold prepare_icon_win in Pi. rewrite Ei in Pi. unfold locate_win in Pi.
  set (order := w_order (v_sys v) Searching (set_entry DOT_LIBRARY (Folder []) lib1)) in *.
  destruct (findwin_spec (v_sys v) (extract_filename_win i) So (Folder order) ((d ++ B "\" ++ u) ++ [BSLASH] ++ name) None order eq_refl) as [E|(x & E & Dx)]; rewrite E in Pi; [discriminate|].
  cbn [bind] in Pi. destruct Dx as [[-> _]|(q & S1 & ->)]; [discriminate|]. rewrite extract_after in S1.
  assert (S2 : forall n l q, Seen n l q -> exists dir, q = dir ++ [n]).
  { induction 1 as [|pre m fs post q0 _ _ (dir & ->)]; [now exists []|now exists (m :: dir)]. }
  destruct (S2 _ _ _ S1) as (dir & Eq). clear S2. destruct (seen_file _ _ _ S1) as (e & A).
  assert (Al : At (Folder es) q (Reg e)).
  { pose proof Sa as (Or & _). apply (same_at _ _ _ _ (Or Searching (set_entry DOT_LIBRARY (Folder []) lib1))) in A. apply at_folder_reg in A. destruct A as (n & q' & y & -> & I & A).
    destruct (set_entry_in _ _ _ _ _ I) as [[-> ->]|I']; [apply at_folder_reg in A; destruct A as (? & ? & ? & _ & [] & _)|].
    assert (A' : At (strip (Folder es)) (n :: q') (Reg e)) by (rewrite strip_folder, <- El; apply at_cons; eauto). apply strip_at in A'. destruct A' as (z & Az & _ & Ez & _).
    destruct z; [|discriminate|discriminate]. now injection Ez as <-. }
  exists q. destruct (after_last_split i) as (pre & Ep & Ns & Nb & Hp). split; [exists dir, (after_last i), e, pre; now repeat split|].
  destruct Sa as (_ & Sp & _). destruct (Sp _ _ D) as [Pe We]. pose proof (winnames_at _ We _ _ Al) as Fb.
  rewrite Td in Pi. unfold clean_up_icon_win in Pi.
  assert (Sk : ((d ++ B "\" ++ u) ++ [BSLASH] ++ name) ++ B "\" ++ backslashed q = (d ++ [BSLASH]) ++ u ++ BSLASH :: (name ++ [BSLASH] ++ backslashed q)).
  { change (B "\") with [BSLASH]. rewrite <- !app_assoc. reflexivity. }
  change ([BSLASH] ++ backslashed q) with (B "\" ++ backslashed q) in Pi. rewrite Sk in Pi. clear Sk.
  rewrite app_length in Pi. destruct (Nat.ltb_spec (length (d ++ [BSLASH]) + length (u ++ BSLASH :: name ++ [BSLASH] ++ backslashed q)) (length d + 1)) as [X|_];
    [rewrite (app_length d) in X; cbn [length] in X; lia|].
  replace (length d + 1) with (length (d ++ [BSLASH])) in Pi by (rewrite app_length; reflexivity). rewrite skipn_app, skipn_all, Nat.sub_diag in Pi. cbn [app skipn] in Pi.
  destruct u as [|c u]; [contradiction|]. cbn [app] in Pi. change (c :: u ++ BSLASH :: name ++ BSLASH :: backslashed q) with ((c :: u) ++ BSLASH :: name ++ BSLASH :: backslashed q) in Pi.
  rewrite (find_byte_app_in BSLASH _ _ Bu) in Pi. cbn [length] in Pi. rewrite skip_pre in Pi.
  assert (Nq : q <> []) by (rewrite Eq; now destruct dir).
  assert (Em : map (fun c => if Ascii.eqb c BSLASH then SLASH else c) (name ++ BSLASH :: backslashed q) = slashed (name :: q)).
  { change (name ++ BSLASH :: backslashed q) with (name ++ [BSLASH] ++ backslashed q). rewrite <- backslashed_cons by exact Nq. apply back_slashed. now constructor. }
  destruct (name ++ BSLASH :: backslashed q) as [|x X] eqn:EX; [destruct name; discriminate EX|]. rewrite Em in Pi. cbn [bind] in Pi. injection Pi as <-. reflexivity.
Qed.

(** ** The manifest *)

Lemma component_writable p name : WinComponent p name -> Writable p -> Writable name.
Proof.
  intros (pre & -> & _ & _ & Hp) W. destruct Hp as [->|(q & c & -> & Hc)]; [exact W|]. rewrite <- app_assoc in W. cbn [app] in W. apply writable_cut in W; [apply W|].
  destruct Hc as [-> | ->]; [change (nat_of_ascii SLASH) with 47|change (nat_of_ascii BSLASH) with 92]; lia.
Qed.
Lemma last_none (s : bytes) : last_byte s = None -> s = [].
Proof. destruct s as [|x s _] using rev_ind; [reflexivity|]. rewrite last_byte_app. discriminate. Qed.
Lemma last_some (s : bytes) c : last_byte s = Some c -> In c s.
Proof. destruct s as [|x s _] using rev_ind; [discriminate|]. rewrite last_byte_app. intros [= ->]. apply in_or_app. right. now left. Qed.
Lemma set_set t k x : set_value (set_value t k x) k x = set_value t k x.
Proof.
  induction t as [|[k' y] t IH]; cbn [set_value]; [reflexivity|]. destruct (beq k' k) eqn:E; cbn [set_value]; rewrite E; [reflexivity|now rewrite IH].
Qed.
Lemma manifest_win pr K v args o name lib r ver lang ns1 ns2 : WinSane v -> WinCopies v -> (forall q, w_opendir (v_sys v) Searching q = true) -> PlainLves (v_sys v) -> AllSpelt v lib -> TempDir v ->
  WinRequest v args o name lib -> package_win pr K v args = Ok r -> k_code r = 0 ->
  In (B "version", ver) o -> In (B "language", lang) o -> Forall (fun kv => Writable (snd kv)) o -> (forall q d, At (Folder lib) q (Reg d) -> Writable (slashed q)) ->
  Named (read_of (v_sys v)) o (B "tools") ns1 -> Named (read_of (v_sys v)) o (B "dependencies") ns2 ->
  exists l doc root icon, k_archive r = Some (archive_name name, l) /\ In (slashed [name; B ".library"; B "manifest.xml"], doc) l /\ XmlText doc /\ read_xml doc = Some root /\
    Says root (manifest_shape (map attribute_char) name (option_of o) ver lang (if encrypted o then Some (beside (v_sys v)) else None) icon (ns1 ++ ns2)) /\
    match option_of o (B "icon") with
    | None => icon = None
    | Some i => exists q, WinIconFile lib i q /\ icon = Some (slashed (name :: q))
    end.
Proof.
  intros Sa W So Pl Sp Td Rq H Cd Iv Il Fw Fl N1 N2.
  destruct (archive_win _ _ _ _ _ _ _ _ Sa W Pl Sp Rq H (or_introl Cd)) as (l & l' & Ea & El & t & p & st & icon & lves & dot1 & lib1 & dot2 & doc & L & lib2 & PW).
  pose proof (dotw_packed _ _ _ _ _ _ _ _ _ _ _ _ _ _ _ _ _ _ _ _ Cd PW) as Dp. destruct PW as (Sl & D & St & _). exists l, doc.
  pose proof Sl as (V & C & Hn & Wc & Ev & Eu). pose proof Wc as (pre & _ & (Nn & Ns & _) & Nb & _).
  assert (Kv : forall key, lookup_argument key = true -> key <> B "librarypath" -> key <> B "encrypt" -> value_of (set_value t (B "librarypath") name) key = option_of o key).
  { intros key Lk K1 K2. rewrite set_value_other by (intros E; now apply K1). exact (kept_value _ _ _ _ _ _ V C (known _ Lk) K1 K2). }
  assert (Wn : Writable name).
  { apply (component_writable p name Wc). apply (kept_writable _ _ _ _ _ V C Fw (B "librarypath") p known_lib Ev). }
  pose proof St as (_ & _ & _ & Pi & Cl & _ & (b & t1 & Cm) & _).
  assert (Ic : match option_of o (B "icon") with None => icon = None | Some i => exists q, WinIconFile lib i q /\ icon = Some (slashed (name :: q)) end).
  { rewrite <- (kept_value _ _ _ _ _ (B "icon") V C (known (B "icon") eq_refl)) by discriminate. destruct (value_of t (B "icon")) as [i|] eqn:Ei.
    - exact (icon_win _ _ _ _ _ _ _ _ _ _ _ _ _ _ Sa W So Td Nb D St Ei).
    - unfold prepare_icon_win in Pi. rewrite Ei in Pi. now injection Pi as <-. }
  set (t2 := set_value t (B "librarypath") name) in *. set (execs := if encrypted o then beside (v_sys v) else []).
  assert (Eu2 : using_encryption t2 = encrypted o) by (rewrite <- Eu; unfold using_encryption, t2; now rewrite set_value_other by discriminate).
  assert (Ln : library_name t2 = Ok (Some name, t2)).
  { unfold library_name, t2. rewrite (set_value_same _ _ _ _ Ev). destruct (last_byte name) as [c|] eqn:Lb; [|exfalso; apply Nn; now apply last_none].
    assert (Ascii.eqb c SLASH = false) as ->.
    { destruct (Ascii.eqb_spec c SLASH) as [->|]; [|reflexivity]. exfalso. apply Ns. now apply last_some. }
    rewrite (proj2 (rfind_byte_none SLASH name) Ns), set_set. reflexivity. }
  assert (b = true) as -> by (destruct (manifest_slots _ _ _ _ _ _ _ _ Ln Cm); assumption).
  destruct (manifest_doc t2 name ver lang (read_of (v_sys v)) lves execs icon ns1 ns2) as (doc' & root & E & Wd & R & S0).
  - intros k x Kk E. destruct (beq_spec (B "librarypath") k) as [<-|Nk].
    + unfold t2 in E. rewrite (set_value_same _ _ _ _ Ev) in E. now injection E as <-.
    + unfold t2 in E. rewrite set_value_other in E by exact Nk. exact (kept_writable _ _ _ _ _ V C Fw k x Kk E).
  - exact Wn.
  - rewrite Kv by (reflexivity || discriminate). rewrite option_of_value. now apply (value_command _ _ _ _ _ C).
  - rewrite Kv by (reflexivity || discriminate). rewrite option_of_value. now apply (value_command _ _ _ _ _ C).
  - exact Ln.
  - rewrite Eu2. intros He. unfold execs. rewrite He. unfold copy_lve in Cl. rewrite Eu, He in Cl. destruct (w_exe (v_sys v)) as [exe|] eqn:Ex; [|discriminate].
    destruct W as ((Wk & _) & _). destruct (copy_lves_list (v_sys v) exe _ Wk _ _ _ _ _ Cl) as (_ & El2 & _ & _).
    rewrite <- (beside_list (v_sys v) exe Ex), El2. apply present_executables. intros f I. apply in_map_iff in I. destruct I as (n & E & I). cbv beta in E.
    destruct (w_disk (v_sys v) (lve_path exe n)); [|discriminate]. injection E as <-. now rewrite <- lve_shipped.
  - unfold execs. destruct (encrypted o); [|constructor]. apply Forall_forall. intros [f pf] I. apply in_beside in I. destruct I as [I _].
    destruct (shipped_platform f pf I) as (_ & Lf & Of & _). split; [exact Lf|apply Of].
  - rewrite Kv by (reflexivity || discriminate). intros No. destruct (option_of o (B "icon")) as [i|]; [|now contradiction No].
    destruct Ic as (q & (dir & n & d & pre' & Eq & _ & _ & _ & _ & A) & ->). eexists. split; [reflexivity|]. rewrite slashed_cons by (rewrite Eq; now destruct dir).
    apply writable_app; [exact Wn|]. apply writable_app; [now apply plain_writable|exact (Fl q d A)].
  - unfold t2. rewrite set_value_other by discriminate. apply (named_value _ _ _ _ _ _ _ _ V C); [now apply known|discriminate|discriminate|exact N1].
  - unfold t2. rewrite set_value_other by discriminate. apply (named_value _ _ _ _ _ _ _ _ V C); [now apply known|discriminate|discriminate|exact N2].
  - rewrite Cm in E. injection E as _ <-. exists root, icon. split; [exact Ea|]. split; [|split; [apply Wd|split; [exact R|split; [|exact Ic]]]].
    + rewrite El. apply in_or_app. right. apply Dp; [apply set_entry_new|reflexivity|discriminate].
    + assert (Ei : match value_of t2 (B "icon") with Some _ => icon | None => None end = icon).
      { rewrite Kv by (reflexivity || discriminate). destruct (option_of o (B "icon")); [reflexivity|now rewrite Ic]. }
      rewrite Ei, Eu2 in S0. unfold execs in S0. replace (if encrypted o then Some (if encrypted o then beside (v_sys v) else []) else None) with (if encrypted o then Some (beside (v_sys v)) else None) in S0 by (now destruct (encrypted o)).
      unfold manifest_shape, given in *. repeat rewrite Kv in S0 by (reflexivity || discriminate). exact S0.
Qed.
(** When directories are listed by name, the icon is not found. *)
Lemma noicon_win pr K v args o name lib r i : WinSane v -> WinCopies v -> (forall q, w_opendir (v_sys v) Searching q = true) -> (forall es, ByName (w_order (v_sys v) Searching es)) ->
  (forall n x, In (n, x) lib -> n <> B ".library" -> 48 <= first_byte n) -> (forall q s, v_mktemp v q = Some s -> length s + length name < 1990) ->
  WinRequest v args o name lib -> In (B "icon", i) o -> package_win pr K v args = Ok r -> k_archive r = None /\ k_code r <> 0.
Proof.
  intros Sa W So Bn Od Ls Rq Ii H.
  destruct (request_win _ _ _ _ _ _ _ _ Rq H) as [E|[(u & E)|[E|(t & p & Sl & D & Hs)]]]; [injection E as ->; split; [reflexivity|discriminate]|discriminate|discriminate|].
  destruct (stage_win_inv _ _ _ _ _ _ _ _ _ _ Sl D Hs) as [(N & N0)|(staging & icon & lves & dot1 & lib1 & dot2 & doc & L & St & _)]; [split; [exact N|lia]|exfalso].
  pose proof (stagedw_lib _ _ _ _ _ _ _ _ _ _ _ _ _ Sa W D St) as El. destruct St as (Et & _ & Ld & Pi & _). destruct Sl as (V & C & _).
  pose proof (kept_value _ _ _ _ _ (B "icon") V C (known (B "icon") eq_refl) ltac:(discriminate) ltac:(discriminate)) as Ev. rewrite option_of_value in Ev.
  apply (value_command _ _ _ _ _ C) in Ii. rewrite Ii in Ev. unfold prepare_icon_win in Pi. rewrite Ev in Pi.
  assert (Lst : length staging + length name < 1990).
  { unfold temp_dir_win in Et. destruct (v_temp_path v) as [q|]; [|discriminate]. destruct (_ <=? _); [discriminate|]. destruct (_ <? _); [discriminate|]. injection Et as Et. exact (Ls _ _ Et). }
  pose proof Sa as (Or & Sp & _). set (before := set_entry DOT_LIBRARY (Folder []) lib1) in *. pose proof (Or Searching before) as Sm.
  assert (Pb : Proper (Folder before)).
  { apply proper_set_entry; [|exact dot_filename|exact proper_empty]. rewrite El, <- strip_folder. apply proper_strip. exact (proj1 (Sp _ _ D)). }
  rewrite (noicon_listed (v_sys v)) in Pi; [discriminate|exact So|apply Bn| | | |].
  - apply (proper_folder _ (same_proper _ _ Sm Pb)).
  - destruct (same_in _ _ Sm DOT_LIBRARY (Folder []) (set_entry_new _ _ _)) as (y & Iy & Sy). destruct (same_folder_inv _ _ Sy) as (ys & ->).
    pose proof (same_empty _ _ [] Sy ltac:(constructor)) as Ay. apply at_nil in Ay. injection Ay as <-. exact Iy.
  - intros n x I. destruct (same_in_r _ _ Sm n x I) as (x' & I' & _). destruct (set_entry_in _ _ _ _ _ I') as [[-> _]|I2]; [now left|right].
    rewrite El in I2. apply strip_in in I2. destruct I2 as (z & Iz & Nz & _). exact (Od n z Iz Nz).
  - rewrite !app_length. cbn [length]. clear - Lst. lia.
Qed.
