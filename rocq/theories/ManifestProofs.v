(** Proofs about the manifest. *)
From Verif Require Import Base BaseProofs ArgsModel ArgsSpec ArgsProofs XmlSpec XmlProofs ManifestModel ManifestSpec.

(** ** Reading what the printer writes *)

Lemma ascii_of c n : nat_of_ascii c = n -> c = ch n.
Proof. intros <-. unfold ch. now rewrite ascii_nat_embedding. Qed.
Lemma escape_cases c :
  (c = LT /\ escape c = B "&lt;") \/ (c = GT /\ escape c = B "&gt;") \/ (c = QUOT /\ escape c = B "&quot;") \/ (c = AMP /\ escape c = B "&amp;") \/
  (c <> LT /\ c <> GT /\ c <> QUOT /\ c <> AMP /\ escape c = [c]).
Proof.
  unfold escape. destruct (Nat.eqb_spec (nat_of_ascii c) 60) as [E1|N1]; [apply ascii_of in E1; subst; now left|].
  destruct (Nat.eqb_spec (nat_of_ascii c) 62) as [E2|N2]; [apply ascii_of in E2; subst; now right; left|].
  destruct (Nat.eqb_spec (nat_of_ascii c) 34) as [E3|N3]; [apply ascii_of in E3; subst; now right; right; left|].
  destruct (Nat.eqb_spec (nat_of_ascii c) 38) as [E4|N4]; [apply ascii_of in E4; subst; now right; right; right; left|].
  right; right; right; right. repeat (split; [intros ->; (now apply N1) || (now apply N2) || (now apply N3) || (now apply N4)|]). reflexivity.
Qed.

Lemma chars_escaped stop norm v r : stop = QUOT \/ stop = LT -> (forall c, c = LT \/ c = GT \/ c = QUOT \/ c = AMP -> norm c = c) ->
  chars stop norm None (escaped v ++ stop :: r) = Some (map norm v, stop :: r).
Proof.
  intros Hs Hn. induction v as [|c v IH].
  - cbn [escaped flat_map app chars map]. now rewrite Ascii.eqb_refl.
  - cbn [escaped flat_map map]. rewrite <- app_assoc. fold (escaped v).
    destruct (escape_cases c) as [[-> ->]|[[-> ->]|[[-> ->]|[[-> ->]|(N1 & N2 & N3 & N4 & ->)]]]].
    1-4: rewrite Hn by tauto; destruct Hs as [->| ->];
      cbn [B list_ascii_of_string app chars]; cbn [Ascii.eqb Bool.eqb LT GT QUOT AMP SEMI ch ascii_of_nat];
      unfold LT, GT, QUOT, AMP in *; cbn in IH |- *; rewrite IH; reflexivity.
    cbn [app chars]. assert (Ns : c <> stop) by (destruct Hs as [->| ->]; assumption).
    rewrite (proj2 (Ascii.eqb_neq _ _) Ns), (proj2 (Ascii.eqb_neq _ _) N4), (proj2 (Ascii.eqb_neq _ _) N1), (proj2 (Ascii.eqb_neq _ _) N2).
    cbn [orb]. now rewrite IH.
Qed.

Definition good_name (n : bytes) : bool := match n with c :: _ => name_start c && forallb name_char n | [] => false end.
Lemma name_chars_good n c r : forallb name_char n = true -> name_char c = false -> name_chars (n ++ c :: r) = (n, c :: r).
Proof.
  intros H Hc. induction n as [|x n IH]; cbn [app name_chars forallb] in *; [now rewrite Hc|].
  apply andb_prop in H. destruct H as [Hx H]. now rewrite Hx, IH.
Qed.
Lemma read_name_good n c r : good_name n = true -> name_char c = false -> read_name (n ++ c :: r) = Some (n, c :: r).
Proof.
  intros H Hc. unfold good_name in H. destruct n as [|x n]; [discriminate|]. apply andb_prop in H. destruct H as [Hx H].
  cbn [app read_name]. rewrite Hx. f_equal. change (x :: n ++ c :: r) with ((x :: n) ++ c :: r). now apply name_chars_good.
Qed.
Lemma good_name_start n : good_name n = true -> exists c r, n = c :: r /\ c <> SLASH /\ c <> GT /\ is_space c = false /\ c <> LT /\ c <> ch 63.
Proof.
  unfold good_name. destruct n as [|c r]; [discriminate|]. intros H. apply andb_prop in H. destruct H as [H _]. exists c, r.
  split; [reflexivity|]. split; [intros ->; discriminate H|]. split; [intros ->; discriminate H|].
  split; [|split; intros ->; discriminate H].
  unfold is_space. rewrite !orb_false_iff. repeat split; apply Ascii.eqb_neq; intros ->; discriminate H.
Qed.

(** Attributes as they are printed. *)
Definition print_attr (a : bytes * bytes) : bytes := B " " ++ fst a ++ B "=""" ++ escaped (snd a) ++ B """".
Definition print_attrs (l : list (bytes * bytes)) : bytes := concat (map print_attr l).
Definition normal (l : list (bytes * bytes)) : list (bytes * bytes) := map (fun a => (fst a, map attribute_char (snd a))) l.
Lemma attr_norm c : c = LT \/ c = GT \/ c = QUOT \/ c = AMP -> attribute_char c = c.
Proof. intros [->|[->|[->| ->]]]; reflexivity. Qed.

Lemma read_attrs l s b r : Forall (fun a => good_name (fst a) = true) l -> Attributes s [] b r -> Attributes (print_attrs l ++ s) (normal l) b r.
Proof.
  induction 1 as [|[n v] l G F IH]; intros A; [exact A|]. specialize (IH A). destruct IH as [f IH].
  exists (S f). apply step_attributes. cbn [fst] in G. destruct (good_name_start n G) as (c0 & n' & En & Ns & Ng & Nsp & _).
  unfold print_attrs. cbn [map concat]. unfold print_attr at 1. cbn [fst snd]. rewrite <- !app_assoc.
  eapply (AS_next _ _ _ _ _ (n' ++ B "=""" ++ escaped v ++ B """" ++ concat (map print_attr l) ++ s) c0 n _ _ QUOT
            (escaped v ++ B """" ++ concat (map print_attr l) ++ s) (map attribute_char v)
            (concat (map print_attr l) ++ s) (normal l) EQUALS).
  - change (B " ") with [SP]. cbn [app skip_space]. replace (is_space SP) with true by reflexivity. rewrite En. cbn [app skip_space]. now rewrite Nsp.
  - exact Ng.
  - exact Ns.
  - rewrite En. cbn [B list_ascii_of_string app length]. lia.
  - replace (c0 :: n' ++ B "=""" ++ escaped v ++ B """" ++ concat (map print_attr l) ++ s)
      with (n ++ EQUALS :: QUOT :: escaped v ++ B """" ++ concat (map print_attr l) ++ s) by (rewrite En; reflexivity).
    apply read_name_good; [exact G|reflexivity].
  - reflexivity.
  - reflexivity.
  - reflexivity.
  - change (B """") with [QUOT]. cbn [app]. apply chars_escaped; [now left|exact attr_norm].
  - exact IH.
  - reflexivity.
Qed.
Lemma attrs_close r : Attributes (GT :: r) [] false r.
Proof. exists 1. reflexivity. Qed.
Lemma attrs_empty r : Attributes (SLASH :: GT :: r) [] true r.
Proof. exists 1. reflexivity. Qed.
(** What follows the name of an element. *)
Lemma print_attrs_head l s : (exists c r, s = c :: r /\ name_char c = false) -> exists c r, print_attrs l ++ s = c :: r /\ name_char c = false.
Proof.
  intros H. destruct l as [|[n v] l]; [exact H|]. exists SP. eexists. split; [reflexivity|reflexivity].
Qed.
Lemma open_printed n l s b r : good_name n = true -> Forall (fun a => good_name (fst a) = true) l -> distinct l = true ->
  Attributes s [] b r -> (exists c r', s = c :: r' /\ name_char c = false) ->
  open_tag (n ++ print_attrs l ++ s) = Some (n, normal l, b, r).
Proof.
  intros G F D A H. destruct (print_attrs_head l s H) as (c & r' & E & Hc).
  apply open_tag_of with (r := print_attrs l ++ s).
  - rewrite E. now apply read_name_good.
  - now apply read_attrs.
  - clear - D. unfold normal. induction l as [|[n v] l IH]; [reflexivity|]. cbn [map distinct fst] in *. apply andb_prop in D. destruct D as [D1 D2].
    rewrite IH by exact D2. rewrite andb_true_r. apply negb_true_iff in D1. apply negb_true_iff.
    rewrite <- D1. clear. induction l as [|[m w] l IH]; [reflexivity|]. cbn [map existsb fst]. now rewrite IH.
Qed.
Lemma close_printed n r : good_name n = true -> close_tag n (n ++ B ">" ++ r) = Some r.
Proof.
  intros G. unfold close_tag. change (B ">" ++ r) with (GT :: r). rewrite (read_name_good n GT r G) by reflexivity. now rewrite beq_refl.
Qed.

(** ** Items of contents *)

(** Reading [rest], with any white space before it, gives elements as in [l] and leaves [r]. *)
Definition Tail (rest : bytes) (l : list shape) (r : bytes) : Prop :=
  forall w, Blank w -> exists ns, Contents (w ++ rest) ns r /\ SayAll ns l.
Definition Item (s : bytes) (e : shape) : Prop := forall rest l r, Tail rest l r -> Tail (s ++ rest) (e :: l) r.

Lemma blank_app a b : Blank (a ++ b) <-> Blank a /\ Blank b.
Proof. unfold Blank. rewrite forallb_app. apply andb_true_iff. Qed.
Lemma blank_char c : is_space c = true -> c <> LT /\ c <> GT /\ c <> AMP.
Proof. intros H. repeat split; intros ->; discriminate H. Qed.
Lemma chars_blank w r : Blank w -> chars LT (fun c => c) None (w ++ LT :: r) = Some (w, LT :: r).
Proof.
  intros H. induction w as [|c w IH]; [reflexivity|]. unfold Blank in H. cbn [forallb] in H. apply andb_prop in H. destruct H as [Hc H].
  destruct (blank_char c Hc) as (N1 & N2 & N3). cbn [app chars].
  now rewrite (proj2 (Ascii.eqb_neq _ _) N1), (proj2 (Ascii.eqb_neq _ _) N2), (proj2 (Ascii.eqb_neq _ _) N3), (IH H).
Qed.
(** White space before something that starts with '<'. *)
Lemma tail_of s ns l r : Contents (LT :: s) ns r -> SayAll ns l -> Tail (LT :: s) l r.
Proof.
  intros C S0 w Hw. destruct w as [|c w]; [now exists ns|]. exists (Text (c :: w) :: ns). split; [|now apply Say_blank].
  cbn [app]. assert (Hc : is_space c = true) by (unfold Blank in Hw; cbn [forallb] in Hw; now apply andb_prop in Hw).
  eapply Contents_text; [apply (blank_char c Hc)| |exact C]. change (c :: w ++ LT :: s) with ((c :: w) ++ LT :: s). now apply chars_blank.
Qed.
Lemma tail_end r : Tail (LT :: SLASH :: r) [] r.
Proof. eapply tail_of; [apply Contents_end|constructor]. Qed.
Lemma tail_blank v rest l r : Blank v -> Tail rest l r -> Tail (v ++ rest) l r.
Proof. intros Hv T w Hw. rewrite app_assoc. apply T. now apply blank_app. Qed.
Lemma tail_contents rest l r : Tail rest l r -> exists ns, Contents rest ns r /\ SayAll ns l.
Proof. intros T. apply (T []). reflexivity. Qed.

(** An empty element. *)
Lemma item_leaf n l : good_name n = true -> Forall (fun a => good_name (fst a) = true) l -> distinct l = true ->
  Item (B "<" ++ n ++ print_attrs l ++ B "/>") (Container n (normal l) []).
Proof.
  intros G F D rest ls r T. destruct (tail_contents _ _ _ T) as (ns & C & S0).
  rewrite <- !app_assoc. change (B "<" ++ n ++ print_attrs l ++ B "/>" ++ rest) with (LT :: n ++ print_attrs l ++ SLASH :: GT :: rest).
  eapply tail_of with (ns := Elem n (normal l) [] :: ns).
  - destruct (good_name_start n G) as (c & n' & En & Ns & _). rewrite En at 1. cbn [app].
    eapply Contents_empty; [exact Ns| |exact C].
    change (c :: n' ++ print_attrs l ++ SLASH :: GT :: rest) with ((c :: n') ++ print_attrs l ++ SLASH :: GT :: rest). rewrite <- En.
    apply open_printed; try assumption; [apply attrs_empty|now exists SLASH, (GT :: rest)].
  - apply Say_cons; [|exact S0]. apply Says_container. constructor.
Qed.
(** An element with contents. *)
Lemma item_elem n l body e : good_name n = true -> Forall (fun a => good_name (fst a) = true) l -> distinct l = true ->
  (forall r, exists kids, Contents (body ++ B "</" ++ r) kids r /\ Says (Elem n (normal l) kids) e) ->
  Item (B "<" ++ n ++ print_attrs l ++ B ">" ++ body ++ B "</" ++ n ++ B ">") e.
Proof.
  intros G F D H rest ls r T. destruct (tail_contents _ _ _ T) as (ns & C & S0).
  destruct (H (n ++ B ">" ++ rest)) as (kids & Ck & Sk).
  rewrite <- !app_assoc. change (B "<" ++ n ++ print_attrs l ++ B ">" ++ body ++ B "</" ++ n ++ B ">" ++ rest)
    with (LT :: n ++ print_attrs l ++ GT :: body ++ B "</" ++ n ++ B ">" ++ rest).
  eapply tail_of with (ns := Elem n (normal l) kids :: ns).
  - destruct (good_name_start n G) as (c & n' & En & Ns & _). rewrite En at 1. cbn [app].
    eapply Contents_elem; [exact Ns| |exact Ck|apply close_printed; exact G|exact C].
    change (c :: n' ++ print_attrs l ++ GT :: body ++ B "</" ++ n ++ B ">" ++ rest)
      with ((c :: n') ++ print_attrs l ++ GT :: body ++ B "</" ++ n ++ B ">" ++ rest). rewrite <- En.
    apply open_printed; try assumption; [apply attrs_close|now exists GT, (body ++ B "</" ++ n ++ B ">" ++ rest)].
  - apply Say_cons; [exact Sk|exact S0].
Qed.
(** An element with text on the same line. *)
Lemma map_same {A} (l : list A) : map (fun c => c) l = l.
Proof. apply map_id. Qed.
Lemma escaped_head c v : exists d r, escaped (c :: v) = d :: r /\ d <> LT.
Proof.
  cbn [escaped flat_map]. destruct (escape_cases c) as [[-> ->]|[[-> ->]|[[-> ->]|[[-> ->]|(N1 & _ & _ & _ & ->)]]]];
  (eexists; eexists; split; [reflexivity|try discriminate; assumption]).
Qed.
Lemma item_text n v : good_name n = true -> Item (B "<" ++ n ++ B ">" ++ escaped v ++ B "</" ++ n ++ B ">") (Textual n v).
Proof.
  intros G. apply (item_elem n [] (escaped v)); [exact G|constructor|reflexivity|]. intros r. destruct v as [|c v].
  - exists []. split; [apply Contents_end|apply Says_empty].
  - exists [Text (c :: v)]. split; [|apply Says_text; discriminate].
    destruct (escaped_head c v) as (d & q & E & Nd). pose proof (chars_escaped LT (fun c => c) (c :: v) (SLASH :: r) (or_intror eq_refl) (fun c _ => eq_refl)) as K.
    change (B "</" ++ r) with (LT :: SLASH :: r). rewrite E in *. cbn [app] in *. rewrite map_same in K.
    eapply Contents_text; [exact Nd|exact K|apply Contents_end].
Qed.
(** An element with text on a line of its own. *)
Lemma chars_app_free stop w s t r : ~ In stop w -> forallb (fun c => negb (Ascii.eqb c AMP || Ascii.eqb c LT || Ascii.eqb c GT)) w = true ->
  chars stop (fun c => c) None s = Some (t, r) -> chars stop (fun c => c) None (w ++ s) = Some (w ++ t, r).
Proof.
  intros Ns F C. induction w as [|c w IH]; [exact C|]. cbn [app chars forallb In] in *. apply andb_prop in F. destruct F as [F1 F2].
  apply negb_true_iff in F1. rewrite !orb_false_iff in F1. destruct F1 as [[A1 A2] A3].
  destruct (Ascii.eqb_spec c stop) as [E|_]; [exfalso; apply Ns; now left|]. rewrite A1, A2, A3. cbn [orb]. rewrite IH; [reflexivity|tauto|exact F2].
Qed.
Lemma blank_free w : Blank w -> ~ In LT w /\ forallb (fun c => negb (Ascii.eqb c AMP || Ascii.eqb c LT || Ascii.eqb c GT)) w = true.
Proof.
  unfold Blank. intros H. rewrite forallb_forall in H. split.
  - intros I. apply H in I. discriminate I.
  - apply forallb_forall. intros c I. apply H in I. destruct (blank_char c I) as (N1 & N2 & N3).
    now rewrite (proj2 (Ascii.eqb_neq _ _) N1), (proj2 (Ascii.eqb_neq _ _) N2), (proj2 (Ascii.eqb_neq _ _) N3).
Qed.
Lemma chars_text_blank v w r : Blank w -> chars LT (fun c => c) None (escaped v ++ w ++ LT :: r) = Some (v ++ w, LT :: r).
Proof.
  intros Hw. induction v as [|c v IH].
  - apply chars_blank. exact Hw.
  - cbn [escaped flat_map]. rewrite <- app_assoc. fold (escaped v).
    destruct (escape_cases c) as [[-> ->]|[[-> ->]|[[-> ->]|[[-> ->]|(N1 & N2 & N3 & N4 & ->)]]]].
    1-4: cbn [B list_ascii_of_string app chars]; cbn [Ascii.eqb Bool.eqb LT GT QUOT AMP SEMI ch ascii_of_nat];
      unfold LT, GT, QUOT, AMP in *; cbn in IH |- *; rewrite IH; reflexivity.
    cbn [app chars]. rewrite (proj2 (Ascii.eqb_neq _ _) N1), (proj2 (Ascii.eqb_neq _ _) N4), (proj2 (Ascii.eqb_neq _ _) N2). cbn [orb]. now rewrite IH.
Qed.
Lemma item_spaced n v a b : good_name n = true -> Blank a -> a <> [] -> Blank b ->
  Item (B "<" ++ n ++ B ">" ++ (a ++ escaped v ++ b) ++ B "</" ++ n ++ B ">") (Spaced n v).
Proof.
  intros G Ha Na Hb. apply (item_elem n [] (a ++ escaped v ++ b)); [exact G|constructor|reflexivity|]. intros r.
  exists [Text (a ++ v ++ b)]. split; [|now apply Says_spaced].
  pose proof (chars_text_blank v b (SLASH :: r) Hb) as K. destruct (blank_free a Ha) as [N F].
  apply (chars_app_free LT a _ _ _ N F) in K. change (B "</" ++ r) with (LT :: SLASH :: r). rewrite <- !app_assoc.
  destruct a as [|c a]; [congruence|]. cbn [app] in *. eapply Contents_text; [|exact K|apply Contents_end].
  unfold Blank in Ha. cbn [forallb] in Ha. apply andb_prop in Ha. destruct Ha as [Hc _]. apply (blank_char c Hc).
Qed.

(** Several items, with white space around each. *)
Inductive Items : bytes -> list shape -> Prop :=
| Items_nil : Items [] []
| Items_cons w s w2 rest e l : Blank w -> Item s e -> Blank w2 -> Items rest l -> Items (w ++ s ++ w2 ++ rest) (e :: l).
Lemma items_tail s l rest l2 r : Items s l -> Tail rest l2 r -> Tail (s ++ rest) (l ++ l2) r.
Proof.
  intros I T. induction I as [|w s w2 rest' e l Hw He Hw2 I IH]; [exact T|]. rewrite <- !app_assoc. apply tail_blank; [exact Hw|].
  apply He. apply tail_blank; [exact Hw2|]. exact IH.
Qed.
Lemma items_app a la b lb : Items a la -> Items b lb -> Items (a ++ b) (la ++ lb).
Proof.
  induction 1 as [|w s w2 rest e l Hw He Hw2 I IH]; intros Ib; [exact Ib|]. rewrite <- !app_assoc. cbn [app].
  apply Items_cons; [exact Hw|exact He|exact Hw2|now apply IH].
Qed.
Lemma items_one w s w2 e : Blank w -> Item s e -> Blank w2 -> Items (w ++ s ++ w2) [e].
Proof. intros Hw He Hw2. rewrite <- (app_nil_r w2). apply Items_cons; [exact Hw|exact He|exact Hw2|constructor]. Qed.
Lemma item_node n l body kids b b2 : good_name n = true -> Forall (fun a => good_name (fst a) = true) l -> distinct l = true ->
  Items body kids -> Blank b -> Blank b2 ->
  Item (B "<" ++ n ++ print_attrs l ++ B ">" ++ (b ++ body ++ b2) ++ B "</" ++ n ++ B ">") (Container n (normal l) kids).
Proof.
  intros G F D I Hb Hb2. apply item_elem; try assumption. intros r.
  assert (T : Tail (b ++ body ++ b2 ++ LT :: SLASH :: r) (kids ++ []) r)
    by (apply tail_blank; [exact Hb|]; apply items_tail; [exact I|apply tail_blank; [exact Hb2|apply tail_end]]).
  rewrite app_nil_r in T. destruct (tail_contents _ _ _ T) as (ns & C & S0). exists ns. rewrite <- !app_assoc. split; [exact C|]. now apply Says_container.
Qed.
(** An element from another document. *)
Lemma skip_space_nil s : skip_space s = [] -> Blank s.
Proof.
  induction s as [|c s IH]; [reflexivity|]. cbn [skip_space]. destruct (is_space c) eqn:E; [|discriminate]. intros H.
  unfold Blank. cbn [forallb]. rewrite E. now apply IH.
Qed.
Lemma skip_space_split s : exists w, Blank w /\ s = w ++ skip_space s.
Proof.
  induction s as [|c s (w & Hw & E)]; [now exists []|]. cbn [skip_space]. destruct (is_space c) eqn:Ec; [|now exists []].
  exists (c :: w). split; [unfold Blank; cbn [forallb]; now rewrite Ec|]. cbn [app]. now f_equal.
Qed.
Lemma open_tag_start s x : open_tag s = Some x -> exists c r, s = c :: r /\ c <> SLASH.
Proof.
  unfold open_tag, read_name. destruct s as [|c r]; [discriminate|]. destruct (name_start c) eqn:N; [|discriminate]. intros _.
  exists c, r. split; [reflexivity|]. intros ->. discriminate N.
Qed.
Lemma foreign_item s n : match skip_space s with
    | c :: r =>
        if Ascii.eqb c LT then
          match open_tag r with
          | Some (n, a, true, r1) => if beq (skip_space r1) [] then Some (Elem n a []) else None
          | Some (n, a, false, r1) =>
              match contents (S (length r1)) r1 with
              | Some (kids, r2) =>
                  match close_tag n r2 with
                  | Some r3 => if beq (skip_space r3) [] then Some (Elem n a kids) else None
                  | None => None
                  end
              | None => None
              end
          | None => None
          end
        else None
    | [] => None
    end = Some n -> Item s (Foreign n).
Proof.
  intros H rest l r T. destruct (skip_space_split s) as (w & Hw & Es). destruct (skip_space s) as [|c r0] eqn:K; [discriminate|].
  destruct (Ascii.eqb_spec c LT) as [->|]; [|discriminate]. rewrite Es, <- app_assoc. apply tail_blank; [exact Hw|].
  destruct (open_tag r0) as [[[[m a] []] r1]|] eqn:O; [| |discriminate];
    destruct (open_tag_start _ _ O) as (d & q & Ed & Nd); pose proof (open_tag_app _ _ _ _ _ rest O) as O'; rewrite Ed in O' |- *; cbn [app] in O' |- *.
  - destruct (beq_spec (skip_space r1) []) as [B1|]; [|discriminate]. injection H as <-. apply skip_space_nil in B1.
    destruct (T r1 B1) as (ns & C & S0). eapply tail_of; [|apply Say_cons; [apply Says_foreign|exact S0]].
    eapply Contents_empty; [exact Nd|exact O'|exact C].
  - destruct (contents (S (length r1)) r1) as [[kids r2]|] eqn:C1; [|discriminate]. destruct (close_tag m r2) as [r3|] eqn:C2; [|discriminate].
    destruct (beq_spec (skip_space r3) []) as [B1|]; [|discriminate]. injection H as <-. apply skip_space_nil in B1.
    destruct (T r3 B1) as (ns & C & S0). eapply tail_of; [|apply Say_cons; [apply Says_foreign|exact S0]].
    eapply Contents_elem; [exact Nd|exact O'| |exact (close_tag_app _ _ _ rest C2)|exact C].
    apply Contents_app. eexists. exact C1.
Qed.

(** ** Characters *)

Lemma xml_app a b : XmlText a -> XmlText b -> XmlText (a ++ b).
Proof. induction 1 as [|c s Hc Hs IH]; intros Hb; [exact Hb|]. rewrite <- app_assoc. apply XT_cons; [exact Hc|now apply IH]. Qed.
Lemma writable_app a b : Writable a -> Writable b -> Writable (a ++ b).
Proof. intros [A1 A2] [B1 B2]. split; [now apply xml_app|]. rewrite in_app_iff. tauto. Qed.
Definition plain (c : byte) : bool := let n := nat_of_ascii c in ((32 <=? n) && (n <=? 127)) || (n =? 9) || (n =? 10).
Lemma plain_char c : plain c = true -> XmlChar [c] /\ c <> CR.
Proof.
  unfold plain. rewrite !orb_true_iff, andb_true_iff, !Nat.leb_le, !Nat.eqb_eq. intros [[H|H]|H].
  - split; [now apply XC_ascii|]. intros ->. change (nat_of_ascii CR) with 13 in H. lia.
  - apply ascii_of in H. subst. split; [apply XC_control; now left|discriminate].
  - apply ascii_of in H. subst. split; [apply XC_control; now right; left|discriminate].
Qed.
Lemma plain_writable s : forallb plain s = true -> Writable s.
Proof.
  induction s as [|c s IH]; [intros _; split; [constructor|intros []]|]. cbn [forallb]. intros H. apply andb_prop in H. destruct H as [Hc H].
  apply IH in H. apply plain_char in Hc. destruct Hc as [X N]. change (c :: s) with ([c] ++ s). apply writable_app; [|exact H].
  split; [rewrite <- (app_nil_r [c]); apply XT_cons; [exact X|constructor]|]. cbn [In]. intros [E|[]]. congruence.
Qed.
Lemma escaped_app a b : escaped (a ++ b) = escaped a ++ escaped b.
Proof. apply flat_map_app. Qed.
Lemma escape_high c : 128 <= nat_of_ascii c -> escape c = [c].
Proof.
  intros H. destruct (escape_cases c) as [[-> _]|[[-> _]|[[-> _]|[[-> _]|(_ & _ & _ & _ & E)]]]]; try (cbn in H; lia). exact E.
Qed.
Lemma xml_char_escaped c : XmlChar c -> XmlText (escaped c).
Proof.
  assert (One : forall c, XmlChar [c] -> XmlText (escaped [c])).
  { intros d Hd. cbn [escaped flat_map]. rewrite app_nil_r.
    destruct (escape_cases d) as [[_ ->]|[[_ ->]|[[_ ->]|[[_ ->]|(_ & _ & _ & _ & ->)]]]]; try (apply (fun s h => proj1 (plain_writable s h)); reflexivity).
    rewrite <- (app_nil_r [d]). apply XT_cons; [exact Hd|constructor]. }
  intros H. destruct H as [c H|c H|a b Ha Hb|a b c Ha Hb Hc X1 X2 X3|a b c d Ha Hb Hc Hd X1 X2].
  - apply One. now apply XC_control.
  - apply One. now apply XC_ascii.
  - unfold in_range in *. cbn [escaped flat_map]. rewrite !escape_high by lia. rewrite app_nil_r. cbn [app].
    rewrite <- (app_nil_r [a; b]). apply XT_cons; [now apply XC_2|constructor].
  - unfold in_range in *. cbn [escaped flat_map]. rewrite !escape_high by lia. rewrite app_nil_r. cbn [app].
    rewrite <- (app_nil_r [a; b; c]). apply XT_cons; [now apply XC_3|constructor].
  - unfold in_range in *. cbn [escaped flat_map]. rewrite !escape_high by lia. rewrite app_nil_r. cbn [app].
    rewrite <- (app_nil_r [a; b; c; d]). apply XT_cons; [now apply XC_4|constructor].
Qed.
Lemma escaped_cr v : In CR (escaped v) -> In CR v.
Proof.
  unfold escaped. rewrite in_flat_map. intros (c & I & H).
  destruct (escape_cases c) as [[_ E]|[[_ E]|[[_ E]|[[_ E]|(_ & _ & _ & _ & E)]]]]; rewrite E in H;
    try (cbn in H; repeat destruct H as [H|H]; try discriminate H; contradiction).
  destruct H as [<-|[]]. exact I.
Qed.
Lemma escaped_writable v : Writable v -> Writable (escaped v).
Proof.
  intros [X N]. split; [|intros H; apply N; now apply escaped_cr]. clear N. induction X as [|c s Hc Hs IH]; [constructor|].
  rewrite escaped_app. apply xml_app; [now apply xml_char_escaped|exact IH].
Qed.
(** Text can be cut at ASCII characters. *)
Lemma xml_cut s : XmlText s -> forall a c b, s = a ++ c :: b -> nat_of_ascii c < 128 -> XmlText a /\ XmlText b.
Proof.
  induction 1 as [|k s Hk Hs IH]; intros a c b E L; [destruct a; discriminate|].
  assert (High : forall x, in_range 128 191 x \/ in_range 194 223 x \/ in_range 224 239 x \/ in_range 240 244 x -> x <> c).
  { unfold in_range. intros x H ->. lia. }
  assert (Split : a = [] /\ k = [c] /\ b = s \/ exists a', a = k ++ a' /\ s = a' ++ c :: b).
  { destruct Hk as [x H|x H|x y Hx Hy|x y z Hx Hy Hz X1 X2 X3|x y z u Hx Hy Hz Hu X1 X2].
    - destruct a as [|a0 a]; cbn [app] in E; injection E as -> E; [left; now rewrite E|right; now exists a].
    - destruct a as [|a0 a]; cbn [app] in E; injection E as -> E; [left; now rewrite E|right; now exists a].
    - right. destruct a as [|a0 a]; cbn [app] in E; injection E as E0 E; [exfalso; apply (High x); tauto|].
      destruct a as [|a1 a]; cbn [app] in E; injection E as E1 E; [exfalso; apply (High y); tauto|].
      exists a. subst. now split.
    - right. destruct a as [|a0 a]; cbn [app] in E; injection E as E0 E; [exfalso; apply (High x); tauto|].
      destruct a as [|a1 a]; cbn [app] in E; injection E as E1 E; [exfalso; apply (High y); tauto|].
      destruct a as [|a2 a]; cbn [app] in E; injection E as E2 E; [exfalso; apply (High z); tauto|].
      exists a. subst. now split.
    - right. destruct a as [|a0 a]; cbn [app] in E; injection E as E0 E; [exfalso; apply (High x); tauto|].
      destruct a as [|a1 a]; cbn [app] in E; injection E as E1 E; [exfalso; apply (High y); tauto|].
      destruct a as [|a2 a]; cbn [app] in E; injection E as E2 E; [exfalso; apply (High z); tauto|].
      destruct a as [|a3 a]; cbn [app] in E; injection E as E3 E; [exfalso; apply (High u); tauto|].
      exists a. subst. now split. }
  destruct Split as [(-> & _ & ->)|(a' & -> & Es)]; [split; [constructor|exact Hs]|].
  destruct (IH a' c b Es L) as [Ha Hb]. split; [now apply XT_cons|exact Hb].
Qed.
Lemma writable_cut a c b : Writable (a ++ c :: b) -> nat_of_ascii c < 128 -> Writable a /\ Writable b.
Proof.
  intros [X N] L. destruct (xml_cut _ X a c b eq_refl L) as [Xa Xb]. split; split; try assumption; intros I; apply N; apply in_or_app; cbn [In]; tauto.
Qed.
Lemma print_attrs_writable l : Forall (fun a => forallb plain (fst a) = true /\ Writable (snd a)) l -> Writable (print_attrs l).
Proof.
  induction 1 as [|[n v] l [Hn Hv] F IH]; [now apply plain_writable|]. unfold print_attrs. cbn [map concat]. cbn [fst snd] in *.
  apply writable_app; [|exact IH]. unfold print_attr. cbn [fst snd].
  repeat apply writable_app; try (now apply plain_writable); now apply escaped_writable.
Qed.

(** ** Printing *)

(** What is in the file when the tag being written is ended. *)
Definition fin (x : xml) : bytes := x_out x ++ (if x_attr x then B ">" ++ [LF] else []).
(** Printing elements [l]. *)
Definition Grows (x : xml) (l : list shape) (x' : xml) : Prop :=
  exists s, Items s l /\ Writable s /\ fin x' = fin x ++ s /\ x_indent x' = x_indent x /\ x_nl x' = negb (x_attr x') /\
  (l = [] -> x_attr x' = x_attr x) /\ (l <> [] -> x_attr x' = false).
Lemma grows_nil x : x_nl x = negb (x_attr x) -> Grows x [] x.
Proof.
  intros N. exists []. split; [constructor|]. split; [now apply plain_writable|]. split; [now rewrite app_nil_r|]. split; [reflexivity|].
  split; [exact N|]. split; [reflexivity|congruence].
Qed.
Lemma grows_app x l x' l' x'' : Grows x l x' -> Grows x' l' x'' -> Grows x (l ++ l') x''.
Proof.
  intros (s & I & W & F & D & N & A1 & A2) (s' & I' & W' & F' & D' & N' & A1' & A2'). exists (s ++ s').
  split; [now apply items_app|]. split; [now apply writable_app|]. split; [rewrite F', F; now rewrite app_assoc|]. split; [congruence|].
  split; [exact N'|]. split.
  - intros E. apply app_eq_nil in E. destruct E as [-> ->]. rewrite A1' by reflexivity. now apply A1.
  - intros E. destruct l' as [|e l']; [|apply A2'; discriminate]. rewrite A1' by reflexivity. apply A2. intros ->. now apply E.
Qed.
Lemma grows_cons x e x' l' x'' : Grows x [e] x' -> Grows x' l' x'' -> Grows x (e :: l') x''.
Proof. exact (grows_app x [e] x' l' x''). Qed.
Lemma grows_one x e x' w s w2 : Item s e -> Blank w -> Blank w2 -> Writable (w ++ s ++ w2) -> x_out x' = fin x ++ w ++ s ++ w2 -> x_indent x' = x_indent x ->
  x_attr x' = false -> x_nl x' = true -> Grows x [e] x'.
Proof.
  intros I Bw Bw2 W O D A N. exists (w ++ s ++ w2). split; [now apply items_one|]. split; [exact W|].
  split; [unfold fin at 1; now rewrite A, app_nil_r|]. split; [exact D|]. split; [now rewrite A|]. split; [discriminate|tauto].
Qed.

Ltac xunf := cbv beta iota zeta delta [xml_open xml_close xml_text end_xml_attributes add_xml_indent print_escaped_text put set_nl set_attr set_indent
    x_out x_indent x_attr x_nl negb];
  rewrite ?Nat.sub_succ, ?Nat.sub_0_r, ?app_nil_r, <- ?app_assoc.
(** The tabs in front of an element. *)
Definition tabs (x : xml) : bytes := repeat (ch 9) (x_indent x).
Lemma tabs_blank n : Blank (repeat (ch 9) n).
Proof. unfold Blank. induction n; [reflexivity|exact IHn]. Qed.
Lemma tabs_writable n : Writable (repeat (ch 9) n).
Proof. apply plain_writable. induction n; [reflexivity|exact IHn]. Qed.
Lemma open_state x n : x_nl x = negb (x_attr x) ->
  xml_open n x = {| x_out := fin x ++ tabs x ++ B "<" ++ n; x_indent := S (x_indent x); x_attr := true; x_nl := false |}.
Proof.
  destruct x as [o i a nl]. cbn [x_nl x_attr]. intros ->. destruct a; unfold fin, tabs; xunf; reflexivity.
Qed.
(** Attributes are printed behind each other. *)
Fixpoint with_attrs (l : list (bytes * bytes)) (x : xml) : xml := match l with [] => x | (n, v) :: r => with_attrs r (xml_attribute n v x) end.
Lemma with_attrs_state l : forall x, with_attrs l x = {| x_out := x_out x ++ print_attrs l; x_indent := x_indent x; x_attr := x_attr x; x_nl := x_nl x |}.
Proof.
  induction l as [|[n v] l IH]; intros x; cbn [with_attrs].
  - unfold print_attrs. cbn [map concat]. rewrite app_nil_r. now destruct x.
  - rewrite IH. unfold xml_attribute, print_escaped_text, put, print_attrs. cbn [x_out x_indent x_attr x_nl map concat]. f_equal.
    unfold print_attr at 2. cbn [fst snd]. rewrite <- !app_assoc. reflexivity.
Qed.
Definition goodattr (a : bytes * bytes) : Prop := good_name (fst a) = true /\ forallb plain (fst a) = true /\ Writable (snd a).
Lemma goodattrs l : Forall goodattr l -> Forall (fun a => good_name (fst a) = true) l /\ Forall (fun a => forallb plain (fst a) = true /\ Writable (snd a)) l.
Proof. intros F. split; (eapply Forall_impl; [|exact F]); intros a (H1 & H2 & H3); tauto. Qed.
Lemma grows_leaf x n l : x_nl x = negb (x_attr x) -> good_name n = true -> forallb plain n = true -> Forall goodattr l -> distinct l = true ->
  Grows x [Container n (normal l) []] (xml_close n (with_attrs l (xml_open n x))).
Proof.
  intros N G P F D. destruct (goodattrs l F) as [F1 F2].
  apply grows_one with (w := tabs x) (s := B "<" ++ n ++ print_attrs l ++ B "/>") (w2 := [LF]).
  - now apply item_leaf.
  - apply tabs_blank.
  - reflexivity.
  - repeat apply writable_app; try (now apply plain_writable); [apply tabs_writable|now apply print_attrs_writable].
  - rewrite open_state by exact N. rewrite with_attrs_state. xunf. reflexivity.
  - rewrite open_state by exact N. rewrite with_attrs_state. xunf. reflexivity.
  - rewrite open_state by exact N. rewrite with_attrs_state. reflexivity.
  - reflexivity.
Qed.
Lemma grows_text x n v : x_nl x = negb (x_attr x) -> good_name n = true -> forallb plain n = true -> Writable v ->
  Grows x [Textual n v] (xml_close n (xml_text v false (xml_open n x))).
Proof.
  intros N G P V. apply grows_one with (w := tabs x) (s := B "<" ++ n ++ B ">" ++ escaped v ++ B "</" ++ n ++ B ">") (w2 := [LF]).
  - now apply item_text.
  - apply tabs_blank.
  - reflexivity.
  - repeat apply writable_app; try (now apply plain_writable); [apply tabs_writable|now apply escaped_writable].
  - rewrite open_state by exact N. xunf. reflexivity.
  - rewrite open_state by exact N. xunf. reflexivity.
  - rewrite open_state by exact N. reflexivity.
  - reflexivity.
Qed.
Lemma grows_spaced x n v : x_nl x = negb (x_attr x) -> good_name n = true -> forallb plain n = true -> Writable v ->
  Grows x [Spaced n v] (xml_close n (xml_text v true (xml_open n x))).
Proof.
  intros N G P V. pose (a := [LF] ++ repeat (ch 9) (S (x_indent x))). pose (b := [LF] ++ tabs x).
  apply grows_one with (w := tabs x) (s := B "<" ++ n ++ B ">" ++ (a ++ escaped v ++ b) ++ B "</" ++ n ++ B ">") (w2 := [LF]).
  - apply item_spaced; [exact G| |discriminate|]; unfold a, b; apply blank_app; (split; [reflexivity|apply tabs_blank]).
  - apply tabs_blank.
  - reflexivity.
  - unfold a, b. repeat apply writable_app; try (now apply plain_writable); try apply tabs_writable. now apply escaped_writable.
  - unfold a, b, tabs. rewrite open_state by exact N. unfold tabs. xunf. reflexivity.
  - rewrite open_state by exact N. xunf. reflexivity.
  - rewrite open_state by exact N. reflexivity.
  - reflexivity.
Qed.

(** An element with others inside. *)
Lemma grows_node x n l kids y : x_nl x = negb (x_attr x) -> good_name n = true -> forallb plain n = true -> Forall goodattr l -> distinct l = true ->
  Grows (with_attrs l (xml_open n x)) kids y -> Grows x [Container n (normal l) kids] (xml_close n y).
Proof.
  intros N G P F D (s & I & W & Fy & Dy & Ny & A1 & A2). destruct (goodattrs l F) as [F1 F2].
  rewrite open_state, with_attrs_state in * by exact N. cbn [x_out x_indent x_attr x_nl] in *. unfold fin in Fy at 2. cbn [x_attr x_out] in Fy.
  destruct y as [yo yi ya yn]. cbn [x_out x_indent x_attr x_nl] in *. subst yi yn. unfold fin in Fy at 1. cbn [x_out x_attr] in Fy. destruct ya.
  - assert (kids = []) as -> by (destruct kids; [reflexivity|discriminate (A2 (fun H => ltac:(discriminate H)))]).
    inversion I; subst s. rewrite app_nil_r in Fy. apply app_inv_tail in Fy. subst yo.
    apply grows_one with (w := tabs x) (s := B "<" ++ n ++ print_attrs l ++ B "/>") (w2 := [LF]).
    + now apply item_leaf.
    + apply tabs_blank.
    + reflexivity.
    + repeat apply writable_app; try (now apply plain_writable); [apply tabs_writable|now apply print_attrs_writable].
    + xunf. reflexivity.
    + xunf. reflexivity.
    + reflexivity.
    + reflexivity.
  - rewrite app_nil_r in Fy. subst yo.
    apply grows_one with (w := tabs x) (s := B "<" ++ n ++ print_attrs l ++ B ">" ++ ([LF] ++ s ++ tabs x) ++ B "</" ++ n ++ B ">") (w2 := [LF]).
    + apply item_node; try assumption; [reflexivity|apply tabs_blank].
    + apply tabs_blank.
    + reflexivity.
    + repeat apply writable_app; try (now apply plain_writable); try apply tabs_writable; [now apply print_attrs_writable|exact W].
    + unfold tabs. xunf. reflexivity.
    + xunf. reflexivity.
    + reflexivity.
    + reflexivity.
Qed.
Lemma grows_nl x l x' : Grows x l x' -> x_nl x' = negb (x_attr x').
Proof. intros (s & _ & _ & _ & _ & N & _). exact N. Qed.
Lemma grows_done x e l x' : Grows x (e :: l) x' -> x_attr x' = false.
Proof. intros (s & _ & _ & _ & _ & _ & _ & A). apply A. discriminate. Qed.

(** Optional elements. *)
Lemma grows_value_text t x k : x_nl x = negb (x_attr x) -> good_name k = true -> forallb plain k = true -> (forall v, value_of t k = Some v -> Writable v) ->
  Grows x (given (value_of t) k (Textual k)) (add_value_text t k k false x).
Proof.
  intros N G P W. unfold given, add_value_text. destruct (value_of t k) as [v|]; [|now apply grows_nil]. apply grows_text; auto.
Qed.
Lemma grows_value_spaced t x k : x_nl x = negb (x_attr x) -> good_name k = true -> forallb plain k = true -> (forall v, value_of t k = Some v -> Writable v) ->
  Grows x (given (value_of t) k (Spaced k)) (add_value_text t k k true x).
Proof.
  intros N G P W. unfold given, add_value_text. destruct (value_of t k) as [v|]; [|now apply grows_nil]. apply grows_spaced; auto.
Qed.
Definition values_writable (t : slots) : Prop := forall k v, KnownOption k -> value_of t k = Some v -> Writable v.
Lemma known k : lookup_argument k = true -> KnownOption k.
Proof. intros H. now apply valid_known. Qed.
Lemma vw t k : values_writable t -> lookup_argument k = true -> forall v, value_of t k = Some v -> Writable v.
Proof. intros W K v. apply W. now apply known. Qed.
Lemma vw' t k v : values_writable t -> value_of t k = Some v -> lookup_argument k = true -> Writable v.
Proof. intros W E K. exact (vw t k W K v E). Qed.
Lemma good_attr n v : good_name n = true -> forallb plain n = true -> Writable v -> goodattr (n, v).
Proof. intros. repeat split; try assumption; apply H1. Qed.

Definition lib_attrs (t : slots) (name : bytes) : list (bytes * bytes) :=
  (B "id", name) :: given (value_of t) (B "enabled") (fun e => (B "enabled", e)).
Definition lib_elements (v : bytes -> bytes) (get : bytes -> option bytes) (version language : bytes) : list shape :=
  given get (B "title") (Textual (B "title")) ++
  given get (B "description") (Spaced (B "description")) ++
  [Container (B "version")
     ((B "number", v version) :: given get (B "build") (fun b => (B "build", v b)) ++ given get (B "date") (fun d => (B "date", v d))) []] ++
  [Container (B "language") [(B "version", v language)] []] ++
  given get (B "copyright") (Spaced (B "copyright")) ++
  given get (B "license") (Spaced (B "license")).
Lemma add_value_attribute_state t e k x : add_value_attribute t e k x = with_attrs (given (value_of t) k (fun v => (e, v))) x.
Proof. unfold add_value_attribute, given. destruct (value_of t k); reflexivity. Qed.
Lemma with_attrs_app a b x : with_attrs (a ++ b) x = with_attrs b (with_attrs a x).
Proof. revert x. induction a as [|[n v] a IH]; intros x; [reflexivity|apply IH]. Qed.
Lemma library_header_grows t name ver lang x : x_nl x = negb (x_attr x) -> values_writable t ->
  value_of t (B "version") = Some ver -> value_of t (B "language") = Some lang ->
  Grows (with_attrs (lib_attrs t name) (xml_open (B "library") x)) (lib_elements (map attribute_char) (value_of t) ver lang) (add_library_header t name x).
Proof.
  intros N W Ev El. unfold add_library_header. rewrite add_value_attribute_state.
  change (with_attrs (given (value_of t) (B "enabled") (fun v => (B "enabled", v))) (xml_attribute (B "id") name (xml_open (B "library") x)))
    with (with_attrs (lib_attrs t name) (xml_open (B "library") x)).
  set (x1 := with_attrs (lib_attrs t name) (xml_open (B "library") x)).
  assert (N1 : x_nl x1 = negb (x_attr x1)) by (unfold x1; rewrite with_attrs_state, open_state by exact N; reflexivity).
  unfold lib_elements.
  assert (G1 := grows_value_text t x1 (B "title") N1 eq_refl eq_refl (vw t (B "title") W eq_refl)). eapply grows_app; [exact G1|]. apply grows_nl in G1.
  set (x2 := add_value_text t (B "title") (B "title") false x1) in *. clearbody x2.
  assert (G2 := grows_value_spaced t x2 (B "description") G1 eq_refl eq_refl (vw t (B "description") W eq_refl)). eapply grows_app; [exact G2|]. apply grows_nl in G2.
  set (x3 := add_value_text t (B "description") (B "description") true x2) in *. clearbody x3.
  rewrite Ev. eapply grows_app with (x' := xml_close (B "version") (with_attrs ((B "number", ver) :: given (value_of t) (B "build") (fun v => (B "build", v)) ++
    given (value_of t) (B "date") (fun v => (B "date", v))) (xml_open (B "version") x3))).
  { assert (E : [Container (B "version") ((B "number", map attribute_char ver) :: given (value_of t) (B "build") (fun b => (B "build", map attribute_char b)) ++
       given (value_of t) (B "date") (fun d => (B "date", map attribute_char d))) []] =
      [Container (B "version") (normal ((B "number", ver) :: given (value_of t) (B "build") (fun v => (B "build", v)) ++ given (value_of t) (B "date") (fun v => (B "date", v)))) []]).
    { unfold given. destruct (value_of t (B "build")), (value_of t (B "date")); reflexivity. }
    rewrite E. apply grows_leaf; [exact G2|reflexivity|reflexivity| |].
    - apply Forall_cons; [apply good_attr; [reflexivity|reflexivity|exact (vw' t _ _ W Ev eq_refl)]|]. apply Forall_app. unfold given.
      split; [destruct (value_of t (B "build")) eqn:Eb|destruct (value_of t (B "date")) eqn:Eb]; try apply Forall_nil;
        (apply Forall_cons; [apply good_attr; [reflexivity|reflexivity|exact (vw' t _ _ W Eb eq_refl)]|apply Forall_nil]).
    - unfold given. destruct (value_of t (B "build")), (value_of t (B "date")); reflexivity. }
  rewrite !add_value_attribute_state. change (xml_attribute (B "number") ver (xml_open (B "version") x3)) with (with_attrs [(B "number", ver)] (xml_open (B "version") x3)).
  rewrite <- !with_attrs_app, <- ?app_assoc. cbn [app].
  set (as_ := (B "number", ver) :: given (value_of t) (B "build") (fun v => (B "build", v)) ++ given (value_of t) (B "date") (fun v => (B "date", v))).
  assert (G3 : x_nl (xml_close (B "version") (with_attrs as_ (xml_open (B "version") x3))) = negb (x_attr (xml_close (B "version") (with_attrs as_ (xml_open (B "version") x3)))))
    by (rewrite with_attrs_state, open_state by exact G2; reflexivity).
  set (x4 := xml_close (B "version") (with_attrs as_ (xml_open (B "version") x3))) in *. clearbody x4.
  unfold add_value_element. rewrite El.
  assert (G4 : Grows x4 [Container (B "language") [(B "version", map attribute_char lang)] []]
    (xml_close (B "language") (xml_attribute (B "version") lang (xml_open (B "language") x4)))).
  { apply (grows_leaf x4 (B "language") [(B "version", lang)]); [exact G3|reflexivity|reflexivity| |reflexivity].
    apply Forall_cons; [apply good_attr; [reflexivity|reflexivity|exact (vw' t _ _ W El eq_refl)]|apply Forall_nil]. }
  eapply grows_cons; [exact G4|]. apply grows_nl in G4. set (x5 := xml_close (B "language") _) in *. clearbody x5.
  assert (G5 := grows_value_spaced t x5 (B "copyright") G4 eq_refl eq_refl (vw t (B "copyright") W eq_refl)). eapply grows_app; [exact G5|]. apply grows_nl in G5.
  apply grows_value_spaced; [exact G5|reflexivity|reflexivity|exact (vw t (B "license") W eq_refl)].
Qed.

(** Executables. *)
Lemma skipn_mid {A} (a b : list A) c : skipn (S (length a)) (a ++ c :: b) = b.
Proof. induction a as [|x a IH]; [reflexivity|exact IH]. Qed.
Lemma platform_of file p : Platform file p -> length file <= 200 -> extract_platform file = Ok p.
Proof.
  intros (pre & suf & -> & Np & Nd & Hs) L. unfold extract_platform.
  change (pre ++ [ch 95] ++ p ++ suf) with (pre ++ ch 95 :: p ++ suf) in *. rewrite find_byte_app_in by exact Np.
  rewrite skipn_mid. rewrite !app_length in L. cbn [length] in L. rewrite app_length in L.
  destruct (Nat.leb_spec MAX_STRING (length (p ++ suf))) as [H|H]; [rewrite app_length in H; unfold MAX_STRING in H; lia|].
  destruct Hs as [->|(r & ->)].
  - rewrite app_nil_r. now rewrite (proj2 (find_byte_none _ _) Nd).
  - rewrite find_byte_app_in by exact Nd. now rewrite firstn_app_exact.
Qed.

Definition exec_shape (v : bytes -> bytes) (fp : bytes * bytes) : shape :=
  Container (B "executable") [(B "path", v (B ".library/" ++ fst fp)); (B "platform", v (snd fp)); (B "licensing", B "true")] [].
Lemma platform_writable file p : Platform file p -> Writable file -> Writable p.
Proof.
  intros (pre & suf & -> & Np & Nd & Hs) W. apply (writable_cut pre (ch 95) (p ++ suf)) in W; [|cbn; lia]. destruct W as [_ W].
  destruct Hs as [->|(r & ->)]; [now rewrite app_nil_r in W|]. apply (writable_cut p DOT r) in W; [apply W|]. change (nat_of_ascii DOT) with 46. lia.
Qed.
Lemma executables_grow lves execs : Executables lves execs -> Forall (fun fp => length (fst fp) <= 200 /\ Writable (fst fp)) execs ->
  forall x, x_nl x = negb (x_attr x) -> exists x', add_executables lves x = Ok x' /\ Grows x (map (exec_shape (map attribute_char)) execs) x'.
Proof.
  induction 1 as [|l e E IH|f p l e Pf E IH]; intros F x N.
  - exists x. split; [reflexivity|now apply grows_nil].
  - cbn [add_executables]. now apply IH.
  - inversion F as [|fp e0 [L W] F']; subst. cbn [fst] in L, W. cbn [add_executables map]. rewrite (platform_of f p Pf L). cbn [bind].
    assert (S0 : snprintf MAX_PATH_LENGTH (B ".library/" ++ f) = B ".library/" ++ f).
    { unfold snprintf. apply firstn_all2. rewrite app_length. change (length (B ".library/")) with 9.
      assert (210 <= MAX_PATH_LENGTH - 1) by (apply Nat.leb_le; reflexivity). lia. }
    rewrite S0.
    assert (G : Grows x [exec_shape (map attribute_char) (f, p)] (xml_close (B "executable") (with_attrs
        [(B "path", B ".library/" ++ f); (B "platform", p); (B "licensing", B "true")] (xml_open (B "executable") x)))).
    { change (exec_shape (map attribute_char) (f, p)) with (Container (B "executable") (normal [(B "path", B ".library/" ++ f); (B "platform", p); (B "licensing", B "true")]) []).
      apply grows_leaf; [exact N|reflexivity|reflexivity| |reflexivity].
      apply Forall_cons; [apply good_attr; [reflexivity|reflexivity|apply writable_app; [now apply plain_writable|exact W]]|].
      apply Forall_cons; [apply good_attr; [reflexivity|reflexivity|now apply platform_writable with f]|].
      apply Forall_cons; [apply good_attr; [reflexivity|reflexivity|now apply plain_writable]|]. apply Forall_nil. }
    destruct (IH F' _ (grows_nl _ _ _ G)) as (x' & Ex & G'). exists x'. split; [exact Ex|]. eapply grows_cons; [exact G|exact G'].
Qed.
Definition enc_elements (v : bytes -> bytes) (execs : option (list (bytes * bytes))) : list shape :=
  match execs with
  | None => []
  | Some l => [Container (B "encryption") [] (map (exec_shape v) l)]
  end.
Lemma encryption_grows t lves execs x : x_nl x = negb (x_attr x) -> (using_encryption t = true -> Executables lves execs) ->
  Forall (fun fp => length (fst fp) <= 200 /\ Writable (fst fp)) execs ->
  exists x', add_encryption t lves x = Ok x' /\ Grows x (enc_elements (map attribute_char) (if using_encryption t then Some execs else None)) x'.
Proof.
  intros N E F. unfold add_encryption. destruct (using_encryption t).
  - assert (N1 : x_nl (xml_open (B "encryption") x) = negb (x_attr (xml_open (B "encryption") x))) by (rewrite open_state by exact N; reflexivity).
    destruct (executables_grow lves execs (E eq_refl) F _ N1) as (x1 & E1 & G). rewrite E1. cbn [bind]. eexists. split; [reflexivity|].
    apply (grows_node x (B "encryption") []); [exact N|reflexivity|reflexivity|apply Forall_nil|reflexivity|exact G].
  - eexists. split; [reflexivity|]. now apply grows_nil.
Qed.
Definition icon_elements (v : bytes -> bytes) (icon : option bytes) : list shape :=
  match icon with None => [] | Some p => [Container (B "icon") [(B "file", v p)] []] end.
Lemma icon_grows t icon x : x_nl x = negb (x_attr x) -> (value_of t (B "icon") <> None -> exists p, icon = Some p /\ Writable p) ->
  exists x', add_icon t icon x = Ok x' /\
    Grows x (icon_elements (map attribute_char) (match value_of t (B "icon") with Some _ => icon | None => None end)) x'.
Proof.
  intros N H. unfold add_icon. rewrite contains_value. destruct (value_of t (B "icon")) as [v|].
  - destruct H as (p & -> & W); [discriminate|]. eexists. split; [reflexivity|].
    apply (grows_leaf x (B "icon") [(B "file", p)]); [exact N|reflexivity|reflexivity| |reflexivity].
    apply Forall_cons; [now apply good_attr|apply Forall_nil].
  - eexists. split; [reflexivity|]. now apply grows_nil.
Qed.

(** ** Copied files *)

Lemma cstr_id s : ~ In NUL s -> cstr s = s.
Proof.
  induction s as [|c s IH]; [reflexivity|]. cbn [cstr In]. intros H. destruct (Ascii.eqb_spec c NUL) as [->|]; [tauto|]. f_equal. apply IH. tauto.
Qed.
(** Reading a line into the buffer. *)
Lemma copy_line l : forall line rest first x, ~ In LF l -> ~ In (ch 255) l -> length line + length l <= LINE_BUFFER ->
  copy_lines (l ++ rest) line first x = copy_lines rest (line ++ l) first x.
Proof.
  induction l as [|c l IH]; intros line rest first x N1 N2 L; [now rewrite app_nil_r|]. cbn [app copy_lines In length] in *.
  destruct (Ascii.eqb_spec c (ch 255)) as [E|_]; [exfalso; apply N2; now left|]. destruct (Ascii.eqb_spec c LF) as [E|_]; [exfalso; apply N1; now left|].
  destruct (Nat.ltb_spec (length line) LINE_BUFFER) as [_|H]; [|lia]. rewrite IH; [|tauto|tauto|rewrite app_length; cbn [length]; lia].
  now rewrite <- app_assoc.
Qed.
Lemma eqb_255 : Ascii.eqb LF (ch 255) = false. Proof. reflexivity. Qed.
Lemma copy_rest ls : forall x, Forall ShortLine ls -> x_nl x = false -> copy_lines (lines_of ls) [] false x = Ok (put (lines_of ls) x).
Proof.
  induction ls as [|l ls IH]; intros x F N.
  - cbn. unfold put. rewrite app_nil_r. now destruct x.
  - inversion F as [|l0 ls0 (L & N1 & N2 & N3) F']; subst. unfold lines_of in *. cbn [map concat]. rewrite <- app_assoc.
    rewrite copy_line; [|exact N1|exact N3|unfold LINE_BUFFER; cbn [length]; lia]. cbn [app copy_lines]. rewrite eqb_255, Ascii.eqb_refl.
    unfold LINE_BUFFER. destruct (Nat.ltb_spec (length l) 200) as [_|H]; [|lia]. rewrite orb_true_r. rewrite cstr_id by exact N2.
    unfold add_xml_indent. rewrite N. rewrite IH; [|exact F'|reflexivity]. unfold put, set_nl. cbn [x_out x_indent x_attr x_nl]. rewrite N, <- !app_assoc. reflexivity.
Qed.
Lemma copied decl ls x : ~ In LF decl -> ~ In (ch 255) decl -> length decl <= 200 -> Forall ShortLine ls -> ls <> [] -> x_nl x = true ->
  copy_file_information (Some (decl ++ [LF] ++ lines_of ls)) x =
    Ok {| x_out := x_out x ++ tabs x ++ lines_of ls; x_indent := x_indent x; x_attr := x_attr x; x_nl := true |}.
Proof.
  intros N1 N2 L F Ne N. unfold copy_file_information. rewrite copy_line; [|exact N1|exact N2|unfold LINE_BUFFER; cbn [length]; lia].
  cbn [app copy_lines]. rewrite eqb_255, Ascii.eqb_refl. destruct ls as [|l ls]; [congruence|].
  inversion F as [|l0 ls0 (Ll & M1 & M2 & M3) F']; subst. unfold lines_of in *. cbn [map concat]. rewrite <- app_assoc.
  rewrite copy_line; [|exact M1|exact M3|unfold LINE_BUFFER; cbn [length]; lia]. cbn [app copy_lines]. rewrite eqb_255, Ascii.eqb_refl.
  unfold LINE_BUFFER. destruct (Nat.ltb_spec (length l) 200) as [_|H]; [|lia]. rewrite orb_true_r. rewrite cstr_id by exact M2.
  unfold add_xml_indent. rewrite N. change (concat (map (fun l0 => l0 ++ [LF]) ls)) with (lines_of ls). rewrite copy_rest; [|exact F'|reflexivity].
  cbn [bind]. unfold put, set_nl, tabs. cbn [x_out x_indent x_attr x_nl]. rewrite <- !app_assoc. reflexivity.
Qed.

Lemma line_ends_id s : ~ In CR s -> line_ends s = s.
Proof.
  induction s as [|c s IH]; [reflexivity|]. cbn [line_ends In]. intros H. destruct (Ascii.eqb_spec c CR) as [->|]; [tauto|]. f_equal. apply IH. tauto.
Qed.
Lemma after_decl d r : ~ In (ch 63) d -> after_declaration (d ++ B "?>" ++ r) = Some r.
Proof.
  induction d as [|c d IH]; intros N; [reflexivity|]. cbn [app In] in *. cbn [after_declaration].
  assert (E : exists e q, d ++ B "?>" ++ r = e :: q) by (destruct d as [|e d]; eexists; eexists; reflexivity).
  destruct E as (e & q & E). rewrite E. destruct (Ascii.eqb_spec c (ch 63)) as [->|_]; [tauto|]. cbn [andb]. rewrite <- E. apply IH. tauto.
Qed.
Lemma document_item file n : Document file n -> exists decl ls, file = decl ++ [LF] ++ lines_of ls /\ ~ In LF decl /\ ~ In (ch 255) decl /\
  length decl <= 200 /\ Forall ShortLine ls /\ ls <> [] /\ Writable (lines_of ls) /\ Item (lines_of ls) (Foreign n).
Proof.
  intros (d & ls & E & Nq & Nl & L & F & W & R). exists (B "<?xml " ++ d ++ B "?>"), ls.
  assert (Wb : Writable (lines_of ls) /\ Writable (B "<?xml " ++ d ++ B "?>")).
  { rewrite E in W. replace (B "<?xml " ++ d ++ B "?>" ++ [LF] ++ lines_of ls) with ((B "<?xml " ++ d ++ B "?>") ++ LF :: lines_of ls) in W by (rewrite <- !app_assoc; reflexivity).
    apply writable_cut in W; [tauto|]. change (nat_of_ascii LF) with 10. lia. }
  destruct Wb as [Wb Wd].
  assert (Q : forall c, In c (B "<?xml " ++ d ++ B "?>") -> c = LF \/ c = ch 255 -> In c d).
  { intros c Ic Hc. rewrite !in_app_iff in Ic. destruct Ic as [Ic|[Ic|Ic]]; [|exact Ic|];
      (destruct Hc as [->| ->]; cbn in Ic; repeat destruct Ic as [Ic|Ic]; try discriminate Ic; contradiction). }
  rewrite E in R. unfold read_xml in R. rewrite line_ends_id in R by (rewrite E in W; apply W).
  unfold skip_declaration in R. change (firstn 6 (B "<?xml " ++ d ++ B "?>" ++ [LF] ++ lines_of ls)) with (B "<?xml ") in R. rewrite beq_refl in R.
  assert (Ad : after_declaration (B "<?xml " ++ d ++ B "?>" ++ [LF] ++ lines_of ls) = Some ([LF] ++ lines_of ls)).
  { change (B "<?xml " ++ d ++ B "?>" ++ [LF] ++ lines_of ls) with (LT :: ch 63 :: (B "xml " ++ d ++ B "?>" ++ [LF] ++ lines_of ls)).
    change (after_declaration (LT :: ch 63 :: (B "xml " ++ d ++ B "?>" ++ [LF] ++ lines_of ls))) with (after_declaration ((B "xml " ++ d) ++ B "?>" ++ [LF] ++ lines_of ls)).
    apply after_decl. rewrite in_app_iff. intros [I|I]; [cbn in I; repeat destruct I as [I|I]; try discriminate I; contradiction|contradiction]. }
  rewrite Ad in R. cbn [app skip_space] in R. replace (is_space LF) with true in R by reflexivity.
  split; [rewrite E, <- !app_assoc; reflexivity|]. split; [intros I; apply Nl; apply (Q LF I); now left|].
  split. { intros I. destruct Wd as [Wd _]. clear - I Wd. remember (B "<?xml " ++ d ++ B "?>") as s eqn:Es. clear Es d. 
    induction Wd as [|c s Hc Hs IH]; [contradiction|]. rewrite in_app_iff in I. destruct I as [I|I]; [|now apply IH].
    assert (K : nat_of_ascii (ch 255) = 255) by reflexivity. unfold in_range in *. destruct Hc as [c H|c H|a b Ha Hb|a b c Ha Hb Hc X1 X2 X3|a b c d Ha Hb Hc Hd X1 X2]; unfold in_range in *; cbn [In] in I.
    - destruct I as [->|[]]. destruct H as [H|[H|H]]; discriminate H.
    - destruct I as [->|[]]. lia.
    - destruct I as [->|[->|[]]]; lia.
    - destruct I as [->|[->|[->|[]]]]; lia.
    - destruct I as [->|[->|[->|[->|[]]]]]; lia. }
  split; [rewrite !app_length; cbn; lia|]. split; [exact F|].
  split. { intros ->. discriminate R. }
  split; [exact Wb|]. apply foreign_item. exact R.
Qed.
Lemma file_grows read t key x ns : x_nl x = negb (x_attr x) -> x_attr x = false ->
  match value_of t key with
  | None => ns = []
  | Some p => exists f n, read p = Some f /\ Document f n /\ ns = [n]
  end -> exists x', add_file read t key x = Ok x' /\ Grows x (map Foreign ns) x'.
Proof.
  intros N A H. unfold add_file. destruct (value_of t key) as [p|].
  - destruct H as (f & n & Rp & D & ->). rewrite Rp. destruct (document_item f n D) as (decl & ls & -> & N1 & N2 & L & F & Ne & W & I).
    rewrite A in N. cbn [negb] in N. rewrite copied by assumption. eexists. split; [reflexivity|]. cbn [map].
    apply grows_one with (w := tabs x) (s := lines_of ls) (w2 := []).
    + exact I.
    + apply tabs_blank.
    + reflexivity.
    + rewrite app_nil_r. apply writable_app; [apply tabs_writable|exact W].
    + cbn [x_out]. unfold fin. rewrite A, !app_nil_r. reflexivity.
    + reflexivity.
    + exact A.
    + reflexivity.
  - subst ns. exists x. split; [reflexivity|]. now apply grows_nil.
Qed.

(** ** The document *)

Definition decl_line : bytes := B "<?xml version=""1.0"" encoding=""utf-8""?>" ++ [LF].
Definition start : xml := put decl_line xml_init.
Lemma header_grows : Grows (xml_open (B "archive") start) [Container (B "manifest") [(B "version", B "1.0")] []] (add_header xml_init).
Proof.
  apply (grows_leaf (xml_open (B "archive") start) (B "manifest") [(B "version", B "1.0")]); try reflexivity.
  apply Forall_cons; [|apply Forall_nil]. apply good_attr; try reflexivity. now apply plain_writable.
Qed.
(** Reading a document that consists of one element. *)
Lemma read_document n kids y : good_name n = true -> forallb plain n = true -> Grows (xml_open n start) kids y -> kids <> [] ->
  exists root, read_xml (x_out (xml_close n y)) = Some root /\ Says root (Container n [] kids) /\ Writable (x_out (xml_close n y)).
Proof.
  intros G P (s & I & W & F & D & N & _ & A) Ne. specialize (A Ne).
  assert (O : xml_open n start = {| x_out := decl_line ++ B "<" ++ n; x_indent := 1; x_attr := true; x_nl := false |})
    by (rewrite open_state by reflexivity; reflexivity). rewrite O in F, D. clear O.
  destruct y as [yo yi ya yn]. unfold fin in F. cbn [x_out x_indent x_attr x_nl] in *. subst ya yn yi. rewrite app_nil_r in F. subst yo. xunf.
  set (doc := decl_line ++ B "<" ++ n ++ B ">" ++ [LF] ++ s ++ B "</" ++ n ++ B ">" ++ [LF]). match goal with |- context[read_xml ?d] => change d with doc end. assert (Wd : Writable doc).
  { unfold doc. repeat apply writable_app; try (now apply plain_writable); exact W. }
  assert (T : Tail ([LF] ++ s ++ B "</" ++ n ++ B ">" ++ [LF]) (kids ++ []) (n ++ B ">" ++ [LF])).
  { apply tail_blank; [reflexivity|]. apply items_tail; [exact I|]. apply tail_end. }
  rewrite app_nil_r in T. destruct (tail_contents _ _ _ T) as (ns & C & S0). exists (Elem n [] ns). split; [|split; [now apply Says_container|exact Wd]].
  unfold read_xml. rewrite line_ends_id by apply Wd.
  assert (Sd : skip_declaration doc = Some ([LF] ++ B "<" ++ n ++ B ">" ++ [LF] ++ s ++ B "</" ++ n ++ B ">" ++ [LF])).
  { unfold skip_declaration. change (firstn 6 doc) with (B "<?xml "). rewrite beq_refl. reflexivity. }
  rewrite Sd. change (B "<" ++ n ++ B ">" ++ [LF] ++ s ++ B "</" ++ n ++ B ">" ++ [LF]) with (LT :: n ++ GT :: LF :: s ++ B "</" ++ n ++ B ">" ++ [LF]).
  cbn [app skip_space]. replace (is_space LF) with true by reflexivity. replace (is_space LT) with false by reflexivity. rewrite Ascii.eqb_refl.
  pose proof (open_printed n [] (GT :: LF :: s ++ B "</" ++ n ++ B ">" ++ [LF]) false _ G (Forall_nil _) eq_refl (attrs_close _)) as O.
  cbn [print_attrs map concat app] in O. rewrite O by (eexists; eexists; split; reflexivity). cbn [normal map].
  change (LF :: s ++ B "</" ++ n ++ B ">" ++ [LF]) with ([LF] ++ s ++ B "</" ++ n ++ B ">" ++ [LF]).
  rewrite (Contents_enough _ _ _ C). rewrite (close_printed n [LF] G). reflexivity.
Qed.

Lemma manifest_doc t name ver lang read lves execs icon ns1 ns2 : values_writable t -> Writable name ->
  value_of t (B "version") = Some ver -> value_of t (B "language") = Some lang -> library_name t = Ok (Some name, t) ->
  (using_encryption t = true -> Executables lves execs) -> Forall (fun fp => length (fst fp) <= 200 /\ Writable (fst fp)) execs ->
  (value_of t (B "icon") <> None -> exists p, icon = Some p /\ Writable p) ->
  match value_of t (B "tools") with
  | None => ns1 = []
  | Some p => exists f n, read p = Some f /\ Document f n /\ ns1 = [n]
  end ->
  match value_of t (B "dependencies") with
  | None => ns2 = []
  | Some p => exists f n, read p = Some f /\ Document f n /\ ns2 = [n]
  end ->
  exists doc root, create_manifest true read lves icon t = Ok (t, doc) /\ Writable doc /\ read_xml doc = Some root /\
    Says root (manifest_shape (map attribute_char) name (value_of t) ver lang (if using_encryption t then Some execs else None)
      (match value_of t (B "icon") with Some _ => icon | None => None end) (ns1 ++ ns2)).
Proof.
  intros W Wn Ev El Ln He Fe Hi Ht Hd.
  pose proof header_grows as G0. pose proof (grows_nl _ _ _ G0) as N0. set (h := add_header xml_init) in *.
  pose proof (library_header_grows t name ver lang h N0 W Ev El) as G1. pose proof (grows_nl _ _ _ G1) as N1.
  assert (A1 : x_attr (add_library_header t name h) = false).
  { destruct G1 as (s1 & _ & _ & _ & _ & _ & _ & A). apply A. unfold lib_elements, given. destruct (value_of t (B "title")), (value_of t (B "description")); discriminate. }
  set (h1 := add_library_header t name h) in *.
  destruct (encryption_grows t lves execs h1 N1 He Fe) as (h2 & E2 & G2). pose proof (grows_nl _ _ _ G2) as N2.
  destruct (icon_grows t icon h2 N2 Hi) as (h3 & E3 & G3). pose proof (grows_nl _ _ _ G3) as N3.
  assert (A3 : x_attr h3 = false).
  { pose proof (grows_app _ _ _ _ _ G2 G3) as (s3 & _ & _ & _ & _ & _ & A & A'). destruct (_ ++ _) in A, A'; [rewrite A by reflexivity; exact A1|apply A'; discriminate]. }
  destruct (file_grows read t (B "tools") h3 ns1 N3 A3 Ht) as (h4 & E4 & G4). pose proof (grows_nl _ _ _ G4) as N4.
  assert (A4 : x_attr h4 = false).
  { destruct G4 as (s4 & _ & _ & _ & _ & _ & A & A'). destruct (map Foreign ns1) in A, A'; [rewrite A by reflexivity; exact A3|apply A'; discriminate]. }
  destruct (file_grows read t (B "dependencies") h4 ns2 N4 A4 Hd) as (h5 & E5 & G5).
  assert (L : Grows h [Container (B "library") (normal (lib_attrs t name)) (lib_elements (map attribute_char) (value_of t) ver lang ++
     enc_elements (map attribute_char) (if using_encryption t then Some execs else None) ++
     icon_elements (map attribute_char) (match value_of t (B "icon") with Some _ => icon | None => None end) ++ map Foreign ns1 ++ map Foreign ns2)]
     (xml_close (B "library") h5)).
  { apply grows_node; [exact N0|reflexivity|reflexivity| | |].
    - unfold lib_attrs, given. apply Forall_cons; [now apply good_attr|]. destruct (value_of t (B "enabled")) eqn:Ee; [|apply Forall_nil].
      apply Forall_cons; [|apply Forall_nil]. apply good_attr; [reflexivity|reflexivity|exact (vw' t _ _ W Ee eq_refl)].
    - unfold lib_attrs, given. destruct (value_of t (B "enabled")); reflexivity.
    - eapply grows_app; [exact G1|]. eapply grows_app; [exact G2|]. eapply grows_app; [exact G3|]. eapply grows_app; [exact G4|exact G5]. }
  pose proof (grows_cons _ _ _ _ _ G0 L) as GA. destruct (read_document (B "archive") _ _ eq_refl eq_refl GA) as (root & R & S0 & Wd); [discriminate|].
  exists (x_out (xml_close (B "archive") (xml_close (B "library") h5))), root. split.
  - unfold create_manifest. rewrite Ln. cbn [bind]. fold h h1. rewrite E2. cbn [bind]. rewrite E3. cbn [bind]. rewrite E4. cbn [bind]. rewrite E5. cbn [bind].
    reflexivity.
  - split; [exact Wd|]. split; [exact R|]. unfold manifest_shape.
    replace (normal (lib_attrs t name)) with ((B "id", map attribute_char name) :: given (value_of t) (B "enabled") (fun e => (B "enabled", map attribute_char e))) in S0
      by (unfold lib_attrs, given; destruct (value_of t (B "enabled")); reflexivity).
    unfold lib_elements, enc_elements, icon_elements in S0. rewrite <- !app_assoc, <- !map_app in S0. exact S0.
Qed.

(** ** From the command line *)

Lemma option_of_value o k : option_of o k = value_of o k.
Proof.
  unfold option_of. induction o as [|[k' v] o IH]; [reflexivity|]. cbn [find value_of fst snd].
  destruct (beq_spec k' k) as [->|N]; [now rewrite ?beq_refl|]. destruct (beq_spec k k'); [congruence|]. exact IH.
Qed.
Lemma kept_value st lves args o t k : validate st lves args = Ok (Some t) -> CommandLine AnyByte args o -> KnownOption k ->
  k <> B "librarypath" -> k <> B "encrypt" -> value_of t k = option_of o k.
Proof.
  intros V C K N1 N2. pose proof (validate_keeps _ _ _ _ _ C V k K) as H. rewrite option_of_value.
  destruct (value_of t k) as [w|]; [|symmetry; now apply value_none].
  destruct H as (v & I & [(E & _)|[(E & _)|(_ & _ & ->)]]); [congruence|congruence|]. symmetry. now apply (value_command _ _ _ _ _ C).
Qed.
Lemma lower_idem c : lower (lower c) = lower c.
Proof.
  unfold lower. destruct ((65 <=? nat_of_ascii c) && (nat_of_ascii c <=? 90)) eqn:E.
  - apply andb_prop in E. rewrite !Nat.leb_le in E. rewrite nat_ascii_embedding by lia.
    destruct (Nat.leb_spec (nat_of_ascii c + 32) 90); [lia|]. now rewrite andb_false_r.
  - now rewrite E.
Qed.
Lemma encrypted_using st lves args o t : validate st lves args = Ok (Some t) -> CommandLine AnyByte args o -> using_encryption t = encrypted o.
Proof.
  intros V C. pose proof (validate_keeps _ _ _ _ _ C V (B "encrypt") known_encrypt) as H. unfold using_encryption, encrypted. rewrite option_of_value.
  destruct (value_of t (B "encrypt")) as [w|].
  - destruct H as (v & I & [(E & _)|[(_ & ->)|(_ & E & _)]]); [discriminate E| |congruence].
    apply (value_command _ _ _ _ _ C) in I. rewrite I. unfold to_lower. rewrite map_map. f_equal. apply map_ext. exact lower_idem.
  - apply value_none in H. now rewrite H.
Qed.
Lemma last_component_writable p name : LastComponent p name -> Writable p -> Writable name.
Proof.
  intros (pre & tail & -> & _ & _ & Ft & Hp) W.
  assert (W2 : Writable (name ++ tail)).
  { destruct Hp as [->|(q & ->)]; [exact W|]. rewrite <- app_assoc in W. apply (writable_cut q SLASH (name ++ tail)) in W; [apply W|].
    change (nat_of_ascii SLASH) with 47. lia. }
  destruct Ft as [|c tail -> Ft]; [now rewrite app_nil_r in W2|]. apply (writable_cut name SLASH tail) in W2; [apply W2|].
  change (nat_of_ascii SLASH) with 47. lia.
Qed.
Lemma writable_lower v : Writable v -> Writable (map lower v).
Proof.
  intros [X N]. split.
  - clear N. induction X as [|c s Hc Hs IH]; [constructor|]. rewrite map_app. apply xml_app; [|exact IH]. clear Hs IH s.
    assert (H128 : forall c, 128 <= nat_of_ascii c -> lower c = c).
    { intros d H. unfold lower. destruct (Nat.leb_spec (nat_of_ascii d) 90); [lia|]. now rewrite andb_false_r. }
    assert (One : forall k, XmlChar k -> XmlText k) by (intros k Hk; rewrite <- (app_nil_r k); apply XT_cons; [exact Hk|constructor]).
    apply One. destruct Hc as [c H|c H|a b Ha Hb|a b c Ha Hb Hc X1 X2 X3|a b c d Ha Hb Hc Hd X1 X2]; cbn [map]; unfold in_range in *.
    + destruct H as [->|[->| ->]]; apply XC_control; [left|right; left|right; right]; reflexivity.
    + apply XC_ascii. unfold in_range, lower. destruct ((65 <=? nat_of_ascii c) && (nat_of_ascii c <=? 90)) eqn:E; [|exact H].
      apply andb_prop in E. rewrite !Nat.leb_le in E. rewrite nat_ascii_embedding by lia. lia.
    + rewrite !H128 by lia. now apply XC_2.
    + rewrite !H128 by lia. now apply XC_3.
    + rewrite !H128 by lia. now apply XC_4.
  - rewrite in_map_iff. intros (c & E & I). apply N. replace CR with c; [exact I|]. revert E. unfold lower.
    destruct ((65 <=? nat_of_ascii c) && (nat_of_ascii c <=? 90)) eqn:Ec; [|tauto]. apply andb_prop in Ec. rewrite !Nat.leb_le in Ec. intros E.
    apply (f_equal nat_of_ascii) in E. rewrite nat_ascii_embedding in E by lia. change (nat_of_ascii CR) with 13 in E. lia.
Qed.
Lemma trimmed_writable v w : Trimmed v w -> Writable v -> Writable w.
Proof.
  intros (tail & -> & F & _) W. destruct F as [|c tail Hc F]; [now rewrite app_nil_r in W|]. apply (writable_cut w c tail) in W; [apply W|].
  destruct Hc as [->| ->]; [change (nat_of_ascii SLASH) with 47|change (nat_of_ascii BSLASH) with 92]; lia.
Qed.
Lemma kept_writable st lves args o t : validate st lves args = Ok (Some t) -> CommandLine AnyByte args o -> Forall (fun kv => Writable (snd kv)) o -> values_writable t.
Proof.
  intros V C F k w K E. pose proof (validate_keeps _ _ _ _ _ C V k K) as H. rewrite E in H. destruct H as (v & I & H).
  rewrite Forall_forall in F. pose proof (F _ I) as W. cbn [snd] in W. destruct H as [(_ & T)|[(_ & ->)|(_ & _ & ->)]]; [|now apply writable_lower|exact W].
  now apply trimmed_writable with v.
Qed.
Lemma given_ext {A} g g' k (f f' : bytes -> A) : g k = g' k -> (forall v, g' k = Some v -> f v = f' v) -> given g k f = given g' k f'.
Proof. unfold given. intros -> H. destruct (g' k) as [v|]; [|reflexivity]. now rewrite H. Qed.
Lemma named_value st lves args o t k read ns : validate st lves args = Ok (Some t) -> CommandLine AnyByte args o -> KnownOption k ->
  k <> B "librarypath" -> k <> B "encrypt" -> Named read o k ns ->
  match value_of t k with
  | None => ns = []
  | Some p => exists f n, read p = Some f /\ Document f n /\ ns = [n]
  end.
Proof. intros V C K N1 N2 H. rewrite (kept_value _ _ _ _ _ _ V C K N1 N2). exact H. Qed.

Lemma manifest_general st k args t o p name ver lang read lves execs icon ns1 ns2 :
  validate st k args = Ok (Some t) -> CommandLine AnyByte args o ->
  In (B "librarypath", p) o -> LastComponent p name -> (forall q, name <> q ++ [BSLASH]) ->
  In (B "version", ver) o -> In (B "language", lang) o -> Forall (fun kv => Writable (snd kv)) o ->
  (encrypted o = true -> Executables lves execs) -> Forall (fun fp => length (fst fp) <= 200 /\ Writable (fst fp)) execs ->
  (option_of o (B "icon") <> None -> exists i, icon = Some i /\ Writable i) ->
  Named read o (B "tools") ns1 -> Named read o (B "dependencies") ns2 ->
  exists doc root, create_manifest true read lves icon t = Ok (t, doc) /\ Writable doc /\ read_xml doc = Some root /\
    Says root (manifest_shape (map attribute_char) name (option_of o) ver lang (if encrypted o then Some execs else None)
      (match option_of o (B "icon") with Some _ => icon | None => None end) (ns1 ++ ns2)).
Proof.
  intros V C Ip LC Nb Iv Il F He Fe Hi H1 H2.
  assert (K : forall x, lookup_argument x = true -> x <> B "librarypath" -> x <> B "encrypt" -> value_of t x = option_of o x)
    by (intros x Lx Nx Ne; apply (kept_value st k args o t x V C (known x Lx) Nx Ne)).
  rewrite <- (encrypted_using _ _ _ _ _ V C) in *. rewrite <- (K (B "icon")) in Hi |- * by (reflexivity || discriminate).
  assert (Ev : value_of t (B "version") = Some ver).
  { rewrite K by (reflexivity || discriminate). rewrite option_of_value. now apply (value_command _ _ _ _ _ C). }
  assert (El : value_of t (B "language") = Some lang).
  { rewrite K by (reflexivity || discriminate). rewrite option_of_value. now apply (value_command _ _ _ _ _ C). }
  destruct (manifest_doc t name ver lang read lves execs icon ns1 ns2) as (doc & root & E & Wd & R & S0); try assumption.
  - now apply (kept_writable st k args o).
  - rewrite Forall_forall in F. apply (last_component_writable p); [exact LC|exact (F _ Ip)].
  - apply (library_name_component st k args t p name V); [exists o; now split|exact LC|exact Nb].
  - apply (named_value st k args o); try assumption; [now apply known|discriminate|discriminate].
  - apply (named_value st k args o); try assumption; [now apply known|discriminate|discriminate].
  - exists doc, root. split; [exact E|]. split; [exact Wd|]. split; [exact R|].
    unfold manifest_shape, given in *. repeat rewrite K in S0 by (reflexivity || discriminate). rewrite K by (reflexivity || discriminate). exact S0.
Qed.
Lemma attribute_same v : ~ In TAB v -> ~ In LF v -> ~ In CR v -> map attribute_char v = v.
Proof.
  induction v as [|c v IH]; [reflexivity|]. cbn [map In]. intros N1 N2 N3. rewrite IH by tauto. f_equal. unfold attribute_char, is_space.
  destruct (Ascii.eqb_spec c SP) as [->|_]; [reflexivity|]. destruct (Ascii.eqb_spec c TAB) as [->|_]; [tauto|].
  destruct (Ascii.eqb_spec c LF) as [->|_]; [tauto|]. destruct (Ascii.eqb_spec c CR) as [->|_]; [tauto|]. reflexivity.
Qed.
Lemma oneline_same v : OneLine v -> map attribute_char v = v.
Proof. intros [[_ N] [N1 N2]]. now apply attribute_same. Qed.
Lemma oneline_app a b : OneLine a -> OneLine b -> OneLine (a ++ b).
Proof. intros (A1 & A2 & A3) (B1 & B2 & B3). split; [now apply writable_app|]. rewrite !in_app_iff. tauto. Qed.
Lemma platform_in file p c : Platform file p -> In c p -> In c file.
Proof. intros (pre & suf & -> & _) I. rewrite !in_app_iff. tauto. Qed.
Lemma executables_platform lves execs fp : Executables lves execs -> In fp execs -> Platform (fst fp) (snd fp).
Proof. induction 1 as [|l e E IH|f p l e Pf E IH]; [contradiction|exact IH|]. intros [<-|I]; [exact Pf|now apply IH]. Qed.
Lemma shape_same name get ver lang execs icon ns lves :
  OneLine name -> OneLine ver -> OneLine lang -> (forall k v, In k [B "enabled"; B "build"; B "date"] -> get k = Some v -> OneLine v) ->
  (forall l, execs = Some l -> Executables lves l /\ Forall (fun fp => OneLine (fst fp)) l) -> (forall i, icon = Some i -> OneLine i) ->
  manifest_shape (map attribute_char) name get ver lang execs icon ns = manifest_shape (fun v => v) name get ver lang execs icon ns.
Proof.
  intros On Ov Ol Og Oe Oi. unfold manifest_shape. rewrite (oneline_same name On), (oneline_same ver Ov), (oneline_same lang Ol).
  assert (G : forall k, In k [B "enabled"; B "build"; B "date"] -> given get k (fun v => (k, map attribute_char v)) = given get k (fun v => (k, v))).
  { intros k I. apply given_ext; [reflexivity|]. intros v E. now rewrite (oneline_same v (Og k v I E)). }
  rewrite (G (B "enabled")), (G (B "build")), (G (B "date")) by (cbn [In]; tauto).
  assert (E1 : match execs with
      | None => []
      | Some l => [Container (B "encryption") []
                     (map (fun fp => Container (B "executable")
                        [(B "path", map attribute_char (B ".library/" ++ fst fp)); (B "platform", map attribute_char (snd fp)); (B "licensing", B "true")] []) l)]
      end = match execs with
      | None => []
      | Some l => [Container (B "encryption") []
                     (map (fun fp => Container (B "executable")
                        [(B "path", B ".library/" ++ fst fp); (B "platform", snd fp); (B "licensing", B "true")] []) l)]
      end).
  { destruct execs as [l|]; [|reflexivity]. destruct (Oe l eq_refl) as [X Fl]. f_equal. f_equal. apply map_ext_in. intros fp I.
    rewrite Forall_forall in Fl. pose proof (Fl fp I) as Of. pose proof (executables_platform _ _ _ X I) as Pf.
    rewrite (oneline_same (B ".library/" ++ fst fp)).
    2:{ apply oneline_app; [|exact Of]. split; [now apply plain_writable|]. split; intros H; cbn in H; repeat destruct H as [H|H]; try discriminate H; contradiction. }
    rewrite (attribute_same (snd fp)); [reflexivity| | |]; intros H; apply (platform_in _ _ _ Pf) in H; destruct Of as [[_ O3] [O1 O2]]; tauto. }
  rewrite E1. destruct icon as [i|]; [|reflexivity]. now rewrite (oneline_same i (Oi i eq_refl)).
Qed.

(** ** What is in the file, for any values *)

(** Nothing is ever taken out of the file. *)
Definition Ext (x x' : xml) : Prop := exists s, x_out x' = x_out x ++ s.
Lemma ext_refl x : Ext x x.
Proof. exists []. now rewrite app_nil_r. Qed.
Lemma ext_trans x y z : Ext x y -> Ext y z -> Ext x z.
Proof. intros [s E] [s' E']. exists (s ++ s'). now rewrite E', E, app_assoc. Qed.
Lemma ext_put s x : Ext x (put s x).
Proof. now exists s. Qed.
Lemma ext_same x y z : Ext x y -> x_out z = x_out y -> Ext x z.
Proof. intros [s E] H. exists s. congruence. Qed.
Lemma ext_indent x : Ext x (add_xml_indent x).
Proof. unfold add_xml_indent. destruct (x_nl x); [eapply ext_same; [apply ext_put|reflexivity]|eapply ext_same; [apply ext_refl|reflexivity]]. Qed.
Lemma ext_end b x : Ext x (end_xml_attributes b x).
Proof.
  unfold end_xml_attributes. destruct (x_attr x); [|apply ext_refl]. destruct b.
  - exists (B ">" ++ [LF]). cbn [set_nl put set_attr x_out]. now rewrite <- app_assoc.
  - eapply ext_same; [apply ext_put|reflexivity].
Qed.
Lemma ext_open n x : Ext x (xml_open n x).
Proof.
  unfold xml_open. apply (ext_same x (put (B "<" ++ n) (add_xml_indent (end_xml_attributes true x)))); [|reflexivity]. eapply ext_trans; [apply (ext_end true)|]. eapply ext_trans; [apply ext_indent|]. apply ext_put.
Qed.
Lemma ext_close n x : Ext x (xml_close n x).
Proof.
  unfold xml_close. cbn [x_attr set_indent]. destruct (x_attr x).
  - eexists. reflexivity.
  - destruct (ext_indent (set_indent (x_indent x - 1) x)) as [s E]. cbn [x_out set_indent] in E.
    exists (s ++ B "</" ++ n ++ B ">" ++ [LF]). cbn [set_nl put x_out]. now rewrite E, <- app_assoc.
Qed.
Lemma ext_attribute n v x : Ext x (xml_attribute n v x).
Proof. unfold xml_attribute, print_escaped_text. repeat (eapply ext_trans; [|apply ext_put]). apply ext_refl. Qed.
Lemma ext_text v b x : Ext x (xml_text v b x).
Proof.
  unfold xml_text, print_escaped_text. assert (H : Ext x (put (escaped v) (add_xml_indent (end_xml_attributes b x)))).
  { eapply ext_trans; [apply (ext_end b)|]. eapply ext_trans; [apply ext_indent|]. apply ext_put. }
  destruct b; [|exact H]. eapply ext_trans; [exact H|]. eexists. reflexivity.
Qed.
(** A value is in the file. *)
Definition Holds (v : bytes) (x : xml) : Prop := exists a b, x_out x = a ++ escaped v ++ b.
Lemma holds_ext v x x' : Holds v x -> Ext x x' -> Holds v x'.
Proof. intros (a & b & E) [s E']. exists a, (b ++ s). rewrite E', E, <- !app_assoc. reflexivity. Qed.
Lemma holds_attribute n v x : Holds v (xml_attribute n v x).
Proof. exists (x_out x ++ B " " ++ n ++ B "="""), (B """"). unfold xml_attribute, print_escaped_text, put. cbn [x_out]. rewrite <- !app_assoc. reflexivity. Qed.
Lemma holds_text v b x : Holds v (xml_text v b x).
Proof.
  unfold xml_text, print_escaped_text. assert (H : Holds v (put (escaped v) (add_xml_indent (end_xml_attributes b x)))).
  { exists (x_out (add_xml_indent (end_xml_attributes b x))), []. cbn [put x_out]. now rewrite app_nil_r. }
  destruct b; [|exact H]. eapply holds_ext; [exact H|]. eexists. reflexivity.
Qed.
Lemma ext_value_attribute t e k x : Ext x (add_value_attribute t e k x).
Proof. unfold add_value_attribute. destruct (value_of t k); [apply ext_attribute|apply ext_refl]. Qed.
Lemma ext_value_text t e k b x : Ext x (add_value_text t e k b x).
Proof.
  unfold add_value_text. destruct (value_of t k); [|apply ext_refl].
  eapply ext_trans; [apply (ext_open e)|]. eapply ext_trans; [apply ext_text|]. apply ext_close.
Qed.
Lemma ext_value_element t e a k x : Ext x (add_value_element t e a k x).
Proof.
  unfold add_value_element. destruct (value_of t k); [|apply ext_refl].
  eapply ext_trans; [apply (ext_open e)|]. eapply ext_trans; [apply ext_attribute|]. apply ext_close.
Qed.
Lemma ext_executables l : forall x x', add_executables l x = Ok x' -> Ext x x'.
Proof.
  induction l as [|[f|] l IH]; intros x x'; cbn [add_executables]; [intros H; injection H as <-; apply ext_refl| |now apply IH].
  destruct (extract_platform f) as [pl| |]; cbn [bind]; try discriminate. intros H. apply IH in H. eapply ext_trans; [|exact H].
  eapply ext_trans; [apply (ext_open (B "executable"))|]. do 3 (eapply ext_trans; [apply ext_attribute|]). apply ext_close.
Qed.
Lemma ext_encryption t l x x' : add_encryption t l x = Ok x' -> Ext x x'.
Proof.
  unfold add_encryption. destruct (using_encryption t); [|intros H; injection H as <-; apply ext_refl].
  destruct (add_executables l (xml_open (B "encryption") x)) as [x1| |] eqn:E; cbn [bind]; try discriminate. intros H. injection H as <-.
  apply ext_executables in E. eapply ext_trans; [apply ext_open|]. eapply ext_trans; [exact E|]. apply ext_close.
Qed.
Lemma ext_icon t i x x' : add_icon t i x = Ok x' -> Ext x x'.
Proof.
  unfold add_icon. destruct (contains_key t (B "icon")); [|intros H; injection H as <-; apply ext_refl]. destruct i as [p|]; [|discriminate].
  intros H. injection H as <-. eapply ext_trans; [apply ext_open|]. eapply ext_trans; [apply ext_attribute|]. apply ext_close.
Qed.
Lemma ext_copy f : forall line first x x', copy_lines f line first x = Ok x' -> Ext x x'.
Proof.
  induction f as [|c f IH]; intros line first x x'; cbn [copy_lines]; [intros H; injection H as <-; apply ext_refl|].
  destruct (Ascii.eqb c (ch 255)); [intros H; injection H as <-; apply ext_refl|]. destruct (Ascii.eqb c LF).
  - destruct first; [now apply IH|]. destruct (_ || _); [|discriminate]. intros H. apply IH in H. eapply ext_trans; [|exact H].
    eapply ext_trans; [apply ext_indent|apply ext_put].
  - destruct (_ <? _); [now apply IH|discriminate].
Qed.
Lemma ext_file read t k x x' : add_file read t k x = Ok x' -> Ext x x'.
Proof.
  unfold add_file. destruct (value_of t k) as [p|]; [|intros H; injection H as <-; apply ext_refl]. unfold copy_file_information.
  destruct (read p) as [f|]; [|discriminate]. destruct (copy_lines f [] true x) as [x1| |] eqn:E; cbn [bind]; try discriminate.
  intros H. injection H as <-. apply ext_copy in E. eapply ext_same; [exact E|reflexivity].
Qed.
Lemma manifest_steps opened read lves icon t t' doc : create_manifest opened read lves icon t = Ok (t', doc) ->
  opened = true /\ exists n h2 h3 h4 h5, library_name t = Ok (Some n, t') /\ add_encryption t' lves (add_library_header t' n (add_header xml_init)) = Ok h2 /\
    add_icon t' icon h2 = Ok h3 /\ add_file read t' (B "tools") h3 = Ok h4 /\ add_file read t' (B "dependencies") h4 = Ok h5 /\ doc = x_out (add_footer h5).
Proof.
  unfold create_manifest. destruct opened; [|discriminate]. destruct (library_name t) as [[[n|] t1]| |]; cbn [bind]; try discriminate.
  destruct (add_encryption _ _ _) as [h2| |] eqn:E2; cbn [bind]; try discriminate. destruct (add_icon _ _ _) as [h3| |] eqn:E3; cbn [bind]; try discriminate.
  destruct (add_file _ _ (B "tools") _) as [h4| |] eqn:E4; cbn [bind]; try discriminate.
  destruct (add_file _ _ (B "dependencies") _) as [h5| |] eqn:E5; cbn [bind]; try discriminate. intros H. injection H as <- <-.
  split; [reflexivity|]. exists n, h2, h3, h4, h5. tauto.
Qed.
Lemma header_holds t name k v x : In k written -> value_of t k = Some v -> Holds v (add_library_header t name x).
Proof.
  intros I E. unfold add_library_header.
  set (x1 := xml_attribute (B "id") name (xml_open (B "library") x)). clearbody x1.
  set (x2 := add_value_attribute t (B "enabled") (B "enabled") x1).
  assert (H2 : k = B "enabled" -> Holds v x2) by (intros ->; unfold x2, add_value_attribute; rewrite E; apply holds_attribute). clearbody x2.
  set (x3 := add_value_text t (B "title") (B "title") false x2).
  assert (X3 : Ext x2 x3) by apply ext_value_text.
  assert (H3 : k = B "title" -> Holds v x3) by (intros ->; unfold x3, add_value_text; rewrite E; eapply holds_ext; [apply holds_text|apply ext_close]). clearbody x3.
  set (x4 := add_value_text t (B "description") (B "description") true x3).
  assert (X4 : Ext x3 x4) by apply ext_value_text.
  assert (H4 : k = B "description" -> Holds v x4) by (intros ->; unfold x4, add_value_text; rewrite E; eapply holds_ext; [apply holds_text|apply ext_close]). clearbody x4.
  match goal with |- context[match value_of t (B "version") with Some _ => _ | None => _ end] => idtac end.
  set (x5 := match value_of t (B "version") with
           | Some v0 => xml_close (B "version")
                         (add_value_attribute t (B "date") (B "date")
                            (add_value_attribute t (B "build") (B "build")
                               (xml_attribute (B "number") v0 (xml_open (B "version") x4))))
           | None => x4
           end).
  assert (X5 : Ext x4 x5).
  { unfold x5. destruct (value_of t (B "version")); [|apply ext_refl]. eapply ext_trans; [apply ext_open|]. eapply ext_trans; [apply ext_attribute|].
    eapply ext_trans; [apply ext_value_attribute|]. eapply ext_trans; [apply ext_value_attribute|]. apply ext_close. }
  assert (H5 : k = B "version" -> Holds v x5).
  { intros ->. unfold x5. rewrite E. eapply holds_ext; [apply holds_attribute|]. eapply ext_trans; [apply ext_value_attribute|].
    eapply ext_trans; [apply ext_value_attribute|]. apply ext_close. }
  clearbody x5. set (x6 := add_value_element t (B "language") (B "version") (B "language") x5).
  assert (X6 : Ext x5 x6) by apply ext_value_element.
  assert (H6 : k = B "language" -> Holds v x6) by (intros ->; unfold x6, add_value_element; rewrite E; eapply holds_ext; [apply holds_attribute|apply ext_close]). clearbody x6.
  set (x7 := add_value_text t (B "copyright") (B "copyright") true x6).
  assert (X7 : Ext x6 x7) by apply ext_value_text.
  assert (H7 : k = B "copyright" -> Holds v x7) by (intros ->; unfold x7, add_value_text; rewrite E; eapply holds_ext; [apply holds_text|apply ext_close]). clearbody x7.
  set (x8 := add_value_text t (B "license") (B "license") true x7).
  assert (X8 : Ext x7 x8) by apply ext_value_text.
  assert (H8 : k = B "license" -> Holds v x8) by (intros ->; unfold x8, add_value_text; rewrite E; eapply holds_ext; [apply holds_text|apply ext_close]). clearbody x8.
  pose proof (ext_trans _ _ _ X7 X8) as Y7. pose proof (ext_trans _ _ _ X6 Y7) as Y6. pose proof (ext_trans _ _ _ X5 Y6) as Y5.
  pose proof (ext_trans _ _ _ X4 Y5) as Y4. pose proof (ext_trans _ _ _ X3 Y4) as Y3.
  unfold written in I. cbn [In] in I. destruct I as [<-|[<-|[<-|[<-|[<-|[<-|[<-|[]]]]]]]].
  - eapply holds_ext; [now apply H2|exact Y3].
  - eapply holds_ext; [now apply H3|exact Y4].
  - eapply holds_ext; [now apply H4|exact Y5].
  - eapply holds_ext; [now apply H5|exact Y6].
  - eapply holds_ext; [now apply H6|exact Y7].
  - eapply holds_ext; [now apply H7|exact X8].
  - now apply H8.
Qed.
Lemma library_name_others t n t' k : library_name t = Ok (n, t') -> k <> B "librarypath" -> value_of t' k = value_of t k.
Proof.
  unfold library_name. destruct (value_of t (B "librarypath")) as [p|]; [|intros H _; now injection H as _ <-].
  destruct (last_byte p); [|discriminate]. intros H N. injection H as _ <-. apply set_value_other. intros E0. apply N. now symmetry.
Qed.
Lemma ext_footer x : Ext x (add_footer x).
Proof. unfold add_footer. eapply ext_trans; [apply ext_close|apply ext_close]. Qed.
Lemma manifest_holds opened read lves icon t t' doc k v : create_manifest opened read lves icon t = Ok (t', doc) -> In k written -> value_of t k = Some v ->
  exists a b, doc = a ++ escaped v ++ b.
Proof.
  intros E I Ek. apply manifest_steps in E. destruct E as (_ & n & h2 & h3 & h4 & h5 & E1 & E2 & E3 & E4 & E5 & ->).
  assert (Ek' : value_of t' k = Some v).
  { rewrite (library_name_others _ _ _ _ E1); [exact Ek|]. intros ->. unfold written in I. cbn [In] in I. repeat destruct I as [I|I]; try discriminate I; contradiction. }
  pose proof (header_holds t' n k v (add_header xml_init) I Ek') as H.
  apply ext_encryption in E2. apply ext_icon in E3. apply ext_file in E4. apply ext_file in E5.
  eapply holds_ext in H; [|exact E2]. eapply holds_ext in H; [|exact E3]. eapply holds_ext in H; [|exact E4]. eapply holds_ext in H; [|exact E5].
  eapply holds_ext in H; [|apply ext_footer]. exact H.
Qed.
Lemma xml_no_control s c : XmlText s -> In c s -> ~ control c.
Proof.
  intros X I (L & N1 & N2 & N3). induction X as [|k s Hk Hs IH]; [contradiction|]. rewrite in_app_iff in I. destruct I as [I|I]; [|now apply IH].
  destruct Hk as [d H|d H|a b Ha Hb|a b d Ha Hb Hc X1 X2 X3|a b d e Ha Hb Hc Hd X1 X2]; unfold in_range in *; cbn [In] in I.
  - destruct I as [->|[]]. tauto.
  - destruct I as [->|[]]. lia.
  - destruct I as [->|[->|[]]]; lia.
  - destruct I as [->|[->|[->|[]]]]; lia.
  - destruct I as [->|[->|[->|[->|[]]]]]; lia.
Qed.
Lemma control_written opened read lves icon t t' doc k v c : create_manifest opened read lves icon t = Ok (t', doc) -> In k written -> value_of t k = Some v ->
  In c v -> control c -> ~ XmlText doc.
Proof.
  intros E I Ek Ic Hc X. destruct (manifest_holds _ _ _ _ _ _ _ _ _ E I Ek) as (a & b & ->). apply (xml_no_control _ c X); [|exact Hc].
  apply in_or_app. right. apply in_or_app. left. unfold escaped. apply in_flat_map. exists c. split; [exact Ic|].
  destruct (escape_cases c) as [[-> _]|[[-> _]|[[-> _]|[[-> _]|(_ & _ & _ & _ & ->)]]]]; try (destruct Hc as [Hc _]; cbn in Hc; lia). now left.
Qed.

(** ** C36 *)

Lemma tools_file read t k x p f : value_of t k = Some p -> read p = Some f -> add_file read t k x = copy_file_information (Some f) x.
Proof. intros E R. unfold add_file. now rewrite E, R. Qed.
(** Lines ended by a line feed, with any state of the printer. *)
Lemma copy_all ls : forall x, Forall ShortLine ls -> exists w x', copy_lines (lines_of ls) [] false x = Ok x' /\ Blank w /\
  x_out x' = x_out x ++ w ++ lines_of ls.
Proof.
  intros x F. destruct ls as [|l ls]; [exists [], x; cbn; rewrite app_nil_r; repeat split|].
  inversion F as [|l0 ls0 (L & N1 & N2 & N3) F']; subst. unfold lines_of in *. cbn [map concat]. rewrite <- app_assoc.
  rewrite copy_line; [|exact N1|exact N3|unfold LINE_BUFFER; cbn [length]; lia]. cbn [app copy_lines]. rewrite eqb_255, Ascii.eqb_refl.
  unfold LINE_BUFFER. destruct (Nat.ltb_spec (length l) 200) as [_|H]; [|lia]. rewrite orb_true_r. rewrite cstr_id by exact N2.
  change (concat (map (fun l0 => l0 ++ [LF]) ls)) with (lines_of ls). rewrite copy_rest; [|exact F'|reflexivity].
  destruct (x_nl x) eqn:N.
  - exists (tabs x). eexists. split; [reflexivity|]. split; [apply tabs_blank|]. unfold add_xml_indent. rewrite N. unfold put, set_nl, tabs. cbn [x_out].
    rewrite <- !app_assoc. reflexivity.
  - exists []. eexists. split; [reflexivity|]. split; [reflexivity|]. unfold add_xml_indent. rewrite N. unfold put, set_nl. cbn [x_out app].
    rewrite <- !app_assoc. reflexivity.
Qed.
Lemma copy_first l rest x : FirstLine l -> copy_lines (l ++ [LF] ++ rest) [] true x = copy_lines rest [] false x.
Proof.
  intros (L & N1 & N2). rewrite copy_line; [|exact N1|exact N2|unfold LINE_BUFFER; cbn [length]; lia]. cbn [app copy_lines]. now rewrite eqb_255, Ascii.eqb_refl.
Qed.
Lemma copied_into x first ls x' : FirstLine first -> Forall ShortLine ls -> copy_file_information (Some (first ++ [LF] ++ lines_of ls)) x = Ok x' ->
  exists a, x_out x' = x_out x ++ a ++ lines_of ls.
Proof.
  intros F1 F. unfold copy_file_information. rewrite copy_first by exact F1. destruct (copy_all ls x F) as (w & x1 & E & _ & O). rewrite E. cbn [bind].
  intros H. injection H as <-. exists w. exact O.
Qed.
Lemma manifest_copied opened read lves icon t t' doc k p first ls : create_manifest opened read lves icon t = Ok (t', doc) ->
  In k [B "tools"; B "dependencies"] -> value_of t k = Some p -> read p = Some (first ++ [LF] ++ lines_of ls) -> FirstLine first -> Forall ShortLine ls ->
  exists a b, doc = a ++ lines_of ls ++ b.
Proof.
  intros E I Ek R F1 F. apply manifest_steps in E. destruct E as (_ & n & h2 & h3 & h4 & h5 & E1 & E2 & E3 & E4 & E5 & ->).
  assert (Ek' : value_of t' k = Some p).
  { rewrite (library_name_others _ _ _ _ E1); [exact Ek|]. intros ->. cbn [In] in I. repeat destruct I as [I|I]; try discriminate I; contradiction. }
  destruct (ext_footer h5) as [sf Ef]. cbn [In] in I. destruct I as [<-|[<-|[]]].
  - rewrite (tools_file read t' _ h3 p _ Ek' R) in E4. destruct (copied_into _ _ _ _ F1 F E4) as (a & O). apply ext_file in E5. destruct E5 as [s5 E5].
    exists (x_out h3 ++ a), (s5 ++ sf). rewrite Ef, E5, O, <- !app_assoc. reflexivity.
  - rewrite (tools_file read t' _ h4 p _ Ek' R) in E5. destruct (copied_into _ _ _ _ F1 F E5) as (a & O).
    exists (x_out h4 ++ a), sf. rewrite Ef, O, <- !app_assoc. reflexivity.
Qed.
(** What is behind the last line feed does not matter. *)
Lemma copy_prefix_tail ls tail : forall x, Forall ShortLine ls -> ~ In LF tail -> length tail <= 200 -> copy_lines (lines_of ls ++ tail) [] false x = copy_lines (lines_of ls) [] false x.
Proof.
  induction ls as [|l ls IH]; intros x F Nt Lt.
  - cbn [lines_of map concat app copy_lines]. assert (H : forall line, length line + length tail <= 200 -> copy_lines tail line false x = Ok x).
    { clear Lt. induction tail as [|c tail IHt]; intros line L; [reflexivity|]. cbn [copy_lines In length] in *. destruct (Ascii.eqb c (ch 255)); [reflexivity|].
      destruct (Ascii.eqb_spec c LF) as [->|_]; [tauto|]. unfold LINE_BUFFER. destruct (Nat.ltb_spec (length line) 200); [|lia]. apply IHt; [tauto|].
      rewrite app_length. cbn [length]. lia. }
    apply H. cbn [length]. lia.
  - inversion F as [|l0 ls0 (L & N1 & N2 & N3) F']; subst. unfold lines_of in *. cbn [map concat]. rewrite <- !app_assoc.
    rewrite (copy_line l); try assumption; try (unfold LINE_BUFFER; cbn [length]; lia).
    rewrite (copy_line l); try assumption; try (unfold LINE_BUFFER; cbn [length]; lia). cbn [app copy_lines]. rewrite eqb_255, Ascii.eqb_refl.
    destruct (_ || _); [|reflexivity]. now apply IH.
Qed.
Lemma copy_stops ls tail : forall x, Forall ShortLine ls -> copy_lines (lines_of ls ++ ch 255 :: tail) [] false x = copy_lines (lines_of ls) [] false x.
Proof.
  induction ls as [|l ls IH]; intros x F; [reflexivity|].
  inversion F as [|l0 ls0 (L & N1 & N2 & N3) F']; subst. unfold lines_of in *. cbn [map concat]. rewrite <- !app_assoc.
  rewrite (copy_line l); try assumption; try (unfold LINE_BUFFER; cbn [length]; lia).
    rewrite (copy_line l); try assumption; try (unfold LINE_BUFFER; cbn [length]; lia). cbn [app copy_lines]. rewrite eqb_255, Ascii.eqb_refl.
  destruct (_ || _); [|reflexivity]. now apply IH.
Qed.
Lemma add_file_ext read read' t k x : (forall p, value_of t k = Some p -> copy_file_information (read p) x = copy_file_information (read' p) x) ->
  add_file read t k x = add_file read' t k x.
Proof. unfold add_file. intros H. destruct (value_of t k); [now apply H|reflexivity]. Qed.
Lemma manifest_ext opened read read' lves icon t : (forall p x, copy_file_information (read p) x = copy_file_information (read' p) x) ->
  create_manifest opened read lves icon t = create_manifest opened read' lves icon t.
Proof.
  intros H. unfold create_manifest. destruct opened; [|reflexivity]. destruct (library_name t) as [[[n|] t1]| |]; cbn [bind]; try reflexivity.
  destruct (add_encryption _ _ _) as [h2| |]; cbn [bind]; try reflexivity. destruct (add_icon _ _ _) as [h3| |]; cbn [bind]; try reflexivity.
  rewrite (add_file_ext read read') by (intros; apply H). destruct (add_file read' t1 (B "tools") h3) as [h4| |]; cbn [bind]; try reflexivity.
  now rewrite (add_file_ext read read') by (intros; apply H).
Qed.
(** A long line. *)
Lemma copy_long ls long rest : forall x, Forall ShortLine ls -> ~ In LF long -> ~ In NUL long -> ~ In (ch 255) long -> 200 <= length long ->
  exists r, copy_lines (lines_of ls ++ long ++ [LF] ++ rest) [] false x = UB r.
Proof.
  induction ls as [|l ls IH]; intros x F N1 N2 N3 L.
  - cbn [lines_of map concat app]. replace long with (firstn 200 long ++ skipn 200 long) by apply firstn_skipn. rewrite <- app_assoc.
    assert (Sub : forall c, In c (firstn 200 long) -> In c long) by (intros c I; rewrite <- (firstn_skipn 200 long); apply in_or_app; now left).
    assert (Sub2 : forall c, In c (skipn 200 long) -> In c long) by (intros c I; rewrite <- (firstn_skipn 200 long); apply in_or_app; now right).
    assert (Lf : length (firstn 200 long) = 200) by (rewrite firstn_length; lia).
    rewrite copy_line; [|intros I; apply N1; now apply Sub|intros I; apply N3; now apply Sub|rewrite Lf; unfold LINE_BUFFER; cbn [length]; lia].
    cbn [app]. destruct (skipn 200 long) as [|c q].
    + cbn [app copy_lines]. rewrite eqb_255, Ascii.eqb_refl. rewrite Lf. unfold LINE_BUFFER. rewrite Nat.ltb_irrefl, orb_false_r.
      replace (has_byte NUL (firstn 200 long)) with false; [eexists; reflexivity|]. symmetry. destruct (has_byte NUL (firstn 200 long)) eqn:Eh; [|reflexivity].
      exfalso. apply N2, Sub. now apply has_byte_In.
    + cbn [app copy_lines]. destruct (Ascii.eqb_spec c (ch 255)) as [->|_]; [exfalso; apply N3, Sub2; now left|].
      destruct (Ascii.eqb_spec c LF) as [->|_]; [exfalso; apply N1, Sub2; now left|]. rewrite Lf. unfold LINE_BUFFER. rewrite Nat.ltb_irrefl. eexists; reflexivity.
  - inversion F as [|l0 ls0 (Ll & M1 & M2 & M3) F']; subst. unfold lines_of in *. cbn [map concat]. rewrite <- !app_assoc.
    rewrite copy_line; try assumption; try (unfold LINE_BUFFER; cbn [length]; lia). cbn [app copy_lines]. rewrite eqb_255, Ascii.eqb_refl.
    destruct (_ || _); [|eexists; reflexivity]. now apply IH.
Qed.
Lemma not_blocked_exec l : forall x, add_executables l x <> Blocked.
Proof.
  induction l as [|[f|] l IH]; intros x; cbn [add_executables]; [discriminate| |apply IH]. unfold extract_platform.
  destruct (find_byte (ch 95) f); cbn [bind]; [|apply IH]. destruct (_ <=? _); cbn [bind]; [discriminate|apply IH].
Qed.
Lemma not_blocked_copy f : forall line first x, copy_lines f line first x <> Blocked.
Proof.
  induction f as [|c f IH]; intros line first x; cbn [copy_lines]; [discriminate|]. destruct (Ascii.eqb c (ch 255)); [discriminate|].
  destruct (Ascii.eqb c LF); [destruct first; [apply IH|]; destruct (_ || _); [apply IH|discriminate]|]. destruct (_ <? _); [apply IH|discriminate].
Qed.
Lemma not_blocked_file read t k x : add_file read t k x <> Blocked.
Proof.
  unfold add_file, copy_file_information. destruct (value_of t k) as [p|]; [|discriminate]. destruct (read p) as [f|]; [|discriminate].
  pose proof (not_blocked_copy f [] true x). destruct (copy_lines f [] true x); cbn [bind]; congruence.
Qed.
Lemma manifest_not_blocked opened read lves icon t : create_manifest opened read lves icon t <> Blocked.
Proof.
  unfold create_manifest. destruct opened; [|discriminate]. destruct (library_name t) as [[[n|] t1]| |] eqn:En; cbn [bind]; try discriminate.
  2:{ unfold library_name in En. destruct (value_of t (B "librarypath")) as [p|]; [|discriminate]. destruct (last_byte p); discriminate. }
  destruct (add_encryption t1 lves _) as [h2| |] eqn:E; cbn [bind]; try discriminate.
  2:{ unfold add_encryption in E. destruct (using_encryption t1); [|discriminate]. pose proof (not_blocked_exec lves (xml_open (B "encryption") (add_library_header t1 n (add_header xml_init)))) as N.
      destruct (add_executables lves _); cbn [bind] in E; congruence. }
  destruct (add_icon t1 icon h2) as [h3| |] eqn:E3; cbn [bind]; try discriminate.
  2:{ unfold add_icon in E3. destruct (contains_key t1 (B "icon")); [destruct icon|]; discriminate. }
  pose proof (not_blocked_file read t1 (B "tools") h3). destruct (add_file read t1 (B "tools") h3) as [h4| |]; cbn [bind]; try congruence.
  pose proof (not_blocked_file read t1 (B "dependencies") h4). destruct (add_file read t1 (B "dependencies") h4) as [h5| |]; cbn [bind]; congruence.
Qed.
Lemma manifest_long opened read lves icon t k p first ls long rest : In k [B "tools"; B "dependencies"] -> value_of t k = Some p ->
  read p = Some (first ++ [LF] ++ lines_of ls ++ long ++ [LF] ++ rest) -> FirstLine first -> Forall ShortLine ls ->
  ~ In LF long -> ~ In NUL long -> ~ In (ch 255) long -> 200 <= length long -> exists r, create_manifest opened read lves icon t = UB r.
Proof.
  intros I Ek R F1 F N1 N2 N3 L. destruct (create_manifest opened read lves icon t) as [[t' doc]|r|] eqn:E; [|now exists r|now apply manifest_not_blocked in E].
  exfalso. apply manifest_steps in E. destruct E as (_ & n & h2 & h3 & h4 & h5 & E1 & E2 & E3 & E4 & E5 & _).
  assert (Ek' : value_of t' k = Some p).
  { rewrite (library_name_others _ _ _ _ E1); [exact Ek|]. intros ->. cbn [In] in I. repeat destruct I as [I|I]; try discriminate I; contradiction. }
  assert (Bad : forall x x', add_file read t' k x = Ok x' -> False).
  { intros x x' H. rewrite (tools_file read t' k x p _ Ek' R) in H. unfold copy_file_information in H. rewrite copy_first in H by exact F1.
    destruct (copy_long ls long rest x F N1 N2 N3 L) as (r & Er). rewrite Er in H. discriminate H. }
  cbn [In] in I. destruct I as [<-|[<-|[]]]; eapply Bad; eassumption.
Qed.

(** ** Elements *)

Fixpoint shape_elements (e : shape) : list (bytes * list (bytes * bytes)) :=
  match e with
  | Container n a kids => (n, a) :: flat_map shape_elements kids
  | Textual n _ => [(n, [])]
  | Spaced n _ => [(n, [])]
  | Foreign x => elements x
  end.
Scheme says_min := Minimality for Says Sort Prop with sayall_min := Minimality for SayAll Sort Prop.
Lemma says_elements x e : Says x e -> elements x = shape_elements e.
Proof.
  intros H. apply (says_min (fun x e => elements x = shape_elements e) (fun ns l => flat_map elements ns = flat_map shape_elements l)); try exact H; clear.
  - intros n a ns l _ IH. cbn [elements shape_elements]. now rewrite IH.
  - reflexivity.
  - reflexivity.
  - reflexivity.
  - reflexivity.
  - reflexivity.
  - intros s ns l _ _ IH. exact IH.
  - intros x e ns l _ IH1 _ IH2. cbn [flat_map]. now rewrite IH1, IH2.
Qed.
Lemma attribute_changes v : In TAB v \/ In LF v -> map attribute_char v <> v.
Proof.
  intros H E. assert (K : forall c, In c v -> attribute_char c = c).
  { clear H. induction v as [|d v IH]; [contradiction|]. cbn [map] in E. injection E as E1 E2. intros c [<-|I]; [exact E1|now apply IH]. }
  destruct H as [H|H]; apply K in H; discriminate H.
Qed.
Lemma version_shape f name get ver lang execs icon ns : exists pre post, shape_elements (manifest_shape f name get ver lang execs icon ns) =
  pre ++ (B "version", (B "number", f ver) :: given get (B "build") (fun b => (B "build", f b)) ++ given get (B "date") (fun d => (B "date", f d))) :: post /\
  length pre = 3 + (match get (B "title") with Some _ => 1 | None => 0 end) + (match get (B "description") with Some _ => 1 | None => 0 end).
Proof.
  unfold manifest_shape. cbn [shape_elements flat_map]. rewrite app_nil_r. unfold given. destruct (get (B "title")), (get (B "description")); cbn [app flat_map shape_elements length].
  - match goal with |- context[?a :: ?b :: ?c :: ?d :: ?e :: _ :: ?p] => exists [a; b; c; d; e], p end. split; reflexivity.
  - match goal with |- context[?a :: ?b :: ?c :: ?d :: _ :: ?p] => exists [a; b; c; d], p end. split; reflexivity.
  - match goal with |- context[?a :: ?b :: ?c :: ?d :: _ :: ?p] => exists [a; b; c; d], p end. split; reflexivity.
  - match goal with |- context[?a :: ?b :: ?c :: _ :: ?p] => exists [a; b; c], p end. split; reflexivity.
Qed.
Lemma version_differs x f g name get ver lang execs icon ns : Says x (manifest_shape f name get ver lang execs icon ns) ->
  Says x (manifest_shape g name get ver lang execs icon ns) -> f ver = g ver.
Proof.
  intros H1 H2. apply says_elements in H1, H2. rewrite H1 in H2. clear H1.
  destruct (version_shape f name get ver lang execs icon ns) as (p1 & q1 & E1 & L1). destruct (version_shape g name get ver lang execs icon ns) as (p2 & q2 & E2 & L2).
  rewrite E1, E2 in H2. assert (L : length p1 = length p2) by congruence. apply (f_equal (skipn (length p1))) in H2. rewrite skipn_app_exact in H2.
  rewrite L, skipn_app_exact in H2. now injection H2.
Qed.
Lemma elements_map v l : flat_map shape_elements (map (fun fp => Container (B "executable")
      [(B "path", v (B ".library/" ++ fst fp)); (B "platform", v (snd fp)); (B "licensing", B "true")] []) l) =
  map (fun fp => (B "executable", [(B "path", v (B ".library/" ++ fst fp)); (B "platform", v (snd fp)); (B "licensing", B "true")])) l.
Proof. induction l as [|fp l IH]; [reflexivity|]. cbn [map flat_map shape_elements app]. now rewrite IH. Qed.
Lemma elements_foreign ns : flat_map shape_elements (map Foreign ns) = flat_map elements ns.
Proof. induction ns as [|x ns IH]; [reflexivity|]. cbn [map flat_map shape_elements]. now rewrite IH. Qed.
Lemma executables_app a b : executables (a ++ b) = executables a ++ executables b.
Proof. unfold executables. induction a as [|x a IH]; [reflexivity|]. cbn [app filter]. destruct (beq (fst x) _); cbn [app]; now rewrite IH. Qed.
Lemma manifest_executables v name get ver lang l icon ns : executables (shape_elements (manifest_shape v name get ver lang (Some l) icon ns)) =
  map (fun fp => (B "executable", [(B "path", v (B ".library/" ++ fst fp)); (B "platform", v (snd fp)); (B "licensing", B "true")])) l ++ executables (flat_map elements ns).
Proof.
  unfold manifest_shape. cbn [shape_elements flat_map]. rewrite app_nil_r. rewrite !flat_map_app, elements_foreign. cbn [flat_map shape_elements app].
  rewrite elements_map, !app_nil_r.
  assert (T : forall k, flat_map shape_elements (given get k (Textual k)) = given get k (fun _ => (k, []))) by (intros k; unfold given; destruct (get k); reflexivity).
  assert (Sp : forall k, flat_map shape_elements (given get k (Spaced k)) = given get k (fun _ => (k, []))) by (intros k; unfold given; destruct (get k); reflexivity).
  rewrite T, !Sp.
  assert (G : forall k, beq k (B "executable") = false -> executables (given get k (fun _ => (k, []))) = [])
    by (intros k Hk; unfold given; destruct (get k); unfold executables; cbn [filter fst]; now rewrite ?Hk).
  assert (X : forall n a r, beq n (B "executable") = false -> executables ((n, a) :: r) = executables r)
    by (intros n a r Hn; unfold executables; cbn [filter fst]; now rewrite Hn).
  rewrite !X by reflexivity. rewrite executables_app, (G (B "title")) by reflexivity. cbn [app]. rewrite executables_app, (G (B "description")) by reflexivity. cbn [app].
  rewrite !X by reflexivity. rewrite executables_app, (G (B "copyright")) by reflexivity. cbn [app]. rewrite executables_app, (G (B "license")) by reflexivity. cbn [app].
  rewrite X by reflexivity. rewrite !executables_app.
  assert (I : executables (flat_map shape_elements (match icon with None => [] | Some p => [Container (B "icon") [(B "file", v p)] []] end)) = [])
    by (destruct icon; reflexivity).
  rewrite I. cbn [app]. f_equal.
  induction l as [|fp l IH]; [reflexivity|]. cbn [map]. unfold executables in *. cbn [filter fst]. rewrite beq_refl. now rewrite IH.
Qed.
Lemma shipped_platform f p : In (f, p) shipped -> Platform f p /\ length f <= 200 /\ OneLine f /\ option_of shipped f = Some p.
Proof.
  assert (One : forall s, forallb plain s = true -> has_byte TAB s || has_byte LF s = false -> OneLine s).
  { intros s H1 H2. apply orb_false_iff in H2. destruct H2 as [A1 A2]. split; [now apply plain_writable|]. split; now apply has_byte_false. }
  assert (Pl : forall f p i suf, f = B "lve" ++ [ch 95] ++ p ++ suf -> has_byte DOT p = false -> (suf = [] \/ exists r, suf = DOT :: r) -> i = i :> nat -> Platform f p).
  { intros f0 p0 _ suf -> H2 Hs _. exists (B "lve"), suf. split; [reflexivity|]. split; [now apply has_byte_false|]. split; [now apply has_byte_false|exact Hs]. }
  unfold shipped. cbn [In].
  intros [H|[H|[H|[H|[H|[]]]]]]; injection H as <- <-; (split; [|split; [apply Nat.leb_le; reflexivity|split; [apply One; reflexivity|reflexivity]]]).
  - apply (Pl _ _ 0 (B ".exe")); [reflexivity|reflexivity|right; eexists; reflexivity|reflexivity].
  - apply (Pl _ _ 0 (B ".exe")); [reflexivity|reflexivity|right; eexists; reflexivity|reflexivity].
  - apply (Pl _ _ 0 []); [reflexivity|reflexivity|now left|reflexivity].
  - apply (Pl _ _ 0 []); [reflexivity|reflexivity|now left|reflexivity].
  - apply (Pl _ _ 0 []); [reflexivity|reflexivity|now left|reflexivity].
Qed.
Lemma present_executables lves : (forall f, In (Some f) lves -> In f (map fst shipped)) -> Executables lves (present lves) /\
  Forall (fun fp => length (fst fp) <= 200 /\ OneLine (fst fp)) (present lves).
Proof.
  induction lves as [|[f|] l IH]; intros H.
  - split; constructor.
  - destruct IH as [E F]; [intros g I; apply H; now right|]. assert (I : In f (map fst shipped)) by (apply H; now left).
    apply in_map_iff in I. destruct I as ([f' p] & Ef & I). cbn [fst] in Ef. subst f'. destruct (shipped_platform f p I) as (Pf & L & O & Op).
    unfold present. cbn [flat_map]. rewrite Op. split; [constructor; assumption|]. constructor; [now split|exact F].
  - destruct IH as [E F]; [intros g I; apply H; now right|]. split; [now constructor|exact F].
Qed.
