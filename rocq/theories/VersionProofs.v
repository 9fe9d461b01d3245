(** Proofs for C100. *)
From Verif Require Import Base JsonSpec VersionModel.

Definition blank (c : byte) : Prop := In c [ch 32; ch 9; ch 10; ch 13].
(** The last character that is not white. *)
Definition Last (c : byte) (s : bytes) : Prop := exists p w, s = p ++ [c] ++ w /\ White w /\ ~ blank c.
Lemma last_unique c c' s : Last c s -> Last c' s -> c = c'.
Proof.
  intros (p & w & -> & W & N) (p' & w' & E & W' & N'). revert w W w' W' E. induction w as [|x w IH] using rev_ind; intros W w' W' E.
  - destruct w' as [|y w'] using rev_ind; [apply app_inj_tail in E; tauto|]. rewrite app_nil_r in E. exfalso. apply N. rewrite !app_assoc in E. apply app_inj_tail in E as [_ ->].
    apply Forall_app in W' as [_ W']. now inversion W'.
  - destruct w' as [|y w' _] using rev_ind.
    + exfalso. apply N'. rewrite app_nil_r, !app_assoc in E. apply app_inj_tail in E as [_ <-]. apply Forall_app in W as [_ W]. now inversion W.
    + rewrite !app_assoc in E. apply app_inj_tail in E as [E _]. rewrite <- !app_assoc in E. apply Forall_app in W as [W _]. apply Forall_app in W' as [W' _]. exact (IH W w' W' E).
Qed.
Lemma last_white c s w : Last c s -> White w -> Last c (s ++ w).
Proof. intros (p & w0 & -> & W & N) W'. exists p, (w0 ++ w). rewrite <- !app_assoc. split; [reflexivity|]. split; [now apply Forall_app|exact N]. Qed.
Lemma last_app c p s : Last c s -> Last c (p ++ s).
Proof. intros (q & w & -> & W & N). exists (p ++ q), w. now rewrite <- !app_assoc. Qed.
Lemma last_one c : ~ blank c -> Last c [c].
Proof. intros N. exists [], []. split; [reflexivity|]. split; [constructor|exact N]. Qed.

(** What a value can end in. *)
Definition ending (c : byte) : Prop := c <> ch 44 /\ ~ blank c.
Ltac mark := split; [discriminate|cbn; intuition discriminate].
Lemma digit_ending c : Digit c -> ending c.
Proof. intros [H1 H2]. split; [intros ->; cbn in *; lia|]. intros Hb. cbn in Hb. destruct Hb as [<-|[<-|[<-|[<-|[]]]]]; cbn in *; lia. Qed.
Lemma digits_end s : Digits s -> exists p c, s = p ++ [c] /\ Digit c.
Proof. intros [N F]. destruct s as [|c p _] using rev_ind; [congruence|]. exists p, c. split; [reflexivity|]. apply Forall_app in F as [_ F]. now inversion F. Qed.
Lemma number_last_digit s : Number s -> exists p c, s = p ++ [c] /\ Digit c.
Proof.
  intros [minus whole frac exp _ W _ Fr Ex]. destruct Ex as [-> |(e & sg & d & _ & _ & D & ->)].
  - destruct Fr as [-> |(d & D & ->)].
    + destruct (digits_end whole W) as (p & c & -> & E). exists (minus ++ p), c. rewrite !app_nil_r, <- app_assoc. now split.
    + destruct (digits_end d D) as (p & c & -> & E). exists (minus ++ whole ++ B "." ++ p), c. rewrite app_nil_r, <- !app_assoc. now split.
  - destruct (digits_end d D) as (p & c & -> & E). exists (minus ++ whole ++ frac ++ e ++ sg ++ p), c. rewrite <- !app_assoc. now split.
Qed.
Lemma value_end v s : Value v s -> exists p c, s = p ++ [c] /\ ending c.
Proof.
  intros H. destruct H as [ | | |s N|s S|w W|vs s I|w W|ms s M].
  - exists (B "nul"), (ch 108). split; [reflexivity|mark].
  - exists (B "tru"), (ch 101). split; [reflexivity|mark].
  - exists (B "fals"), (ch 101). split; [reflexivity|mark].
  - destruct (number_last_digit s N) as (p & c & E & D). exists p, c. split; [exact E|now apply digit_ending].
  - exists ([ch 34] ++ s), (ch 34). split; [unfold quoted; now rewrite <- app_assoc|mark].
  - exists (B "[" ++ w), (ch 93). split; [now rewrite <- app_assoc|mark].
  - exists (B "[" ++ s), (ch 93). split; [now rewrite <- app_assoc|mark].
  - exists (B "{" ++ w), (ch 125). split; [now rewrite <- app_assoc|mark].
  - exists (B "{" ++ s), (ch 125). split; [now rewrite <- app_assoc|mark].
Qed.
Lemma value_last v s : Value v s -> exists c, ending c /\ Last c s.
Proof. intros H. destruct (value_end v s H) as (p & c & -> & E). exists c. split; [exact E|]. apply last_app, last_one, E. Qed.
Lemma members_last_end ms s : Members ms s -> exists c, ending c /\ Last c s.
Proof.
  induction 1 as [k v s w1 w2 w3 w4 W1 K W2 W3 V W4|k v s w1 w2 w3 w4 ms r W1 K W2 W3 V W4 M (c & E & L)].
  - destruct (value_last v s V) as (c & E & L). exists c. split; [exact E|]. do 5 apply last_app. now apply last_white.
  - exists c. split; [exact E|]. now do 8 apply last_app.
Qed.
Lemma items_last_end vs s : Items vs s -> exists c, ending c /\ Last c s.
Proof.
  induction 1 as [v s w1 w2 W1 V W2|v s w1 w2 vs r W1 V W2 I (c & E & L)].
  - destruct (value_last v s V) as (c & E & L). exists c. split; [exact E|]. apply last_app. now apply last_white.
  - exists c. split; [exact E|]. now do 4 apply last_app.
Qed.

(** No JSON text ends in a comma, white space and a closing brace. *)
Lemma comma_no_json p w1 w2 : White w1 -> White w2 -> ~ exists v, Json v (p ++ B "," ++ w1 ++ B "}" ++ w2).
Proof.
  intros W1 W2 (v & x & t & y & X & V & Y & E).
  assert (LB : Last (ch 125) (p ++ B "," ++ w1 ++ B "}" ++ w2)). { do 3 apply last_app. apply last_white; [apply last_one; cbn; intuition discriminate|exact W2]. }
  destruct (value_end v t V) as (q & c & T & Ec).
  assert (c = ch 125) as ->. { apply (last_unique _ _ (p ++ B "," ++ w1 ++ B "}" ++ w2)); [|exact LB]. rewrite E, T. apply last_app. apply last_white; [|exact Y]. apply last_app, last_one, Ec. }
  assert (E' : p ++ B "," ++ w1 = x ++ q).
  { rewrite T in E. clear - E W2 Y. revert y Y E. induction w2 as [|a w2 IH] using rev_ind; intros y Y E.
    - destruct y as [|b y _] using rev_ind.
      + rewrite !app_nil_r in E. rewrite !app_assoc in E. apply app_inj_tail in E as [E _]. now rewrite <- app_assoc in E.
      + exfalso. rewrite app_nil_r, !app_assoc in E. apply app_inj_tail in E as [_ E]. apply Forall_app in Y as [_ Y]. inversion Y as [|? ? Yb]; subst. cbn in Yb. intuition discriminate.
    - destruct y as [|b y _] using rev_ind.
      + exfalso. rewrite app_nil_r, !app_assoc in E. apply app_inj_tail in E as [_ E]. apply Forall_app in W2 as [_ Ya]. inversion Ya as [|? ? Yb]; subst. cbn in Yb. intuition discriminate.
      + rewrite !app_assoc in E. apply app_inj_tail in E as [E _]. rewrite <- !app_assoc in E. apply Forall_app in W2 as [W2 _]. apply Forall_app in Y as [Y _]. apply (IH W2 y Y). now rewrite <- (app_assoc q). }
  assert (LC : Last (ch 44) (x ++ q)). { rewrite <- E'. apply last_app. apply last_white; [apply last_one; cbn; intuition discriminate|exact W1]. }
  clear E E' LB. destruct V as [ | | |s N|s Sp|w W|vs s I|w W|ms s M]; rename T into E.
  - change (B "null") with (B "nul" ++ [ch 108]) in E. apply app_inj_tail in E as [_ E]. discriminate E.
  - change (B "true") with (B "tru" ++ [ch 101]) in E. apply app_inj_tail in E as [_ E]. discriminate E.
  - change (B "false") with (B "fals" ++ [ch 101]) in E. apply app_inj_tail in E as [_ E]. discriminate E.
  - subst s. destruct (number_last_digit _ N) as (p' & c & E2 & D). apply app_inj_tail in E2 as [_ <-]. destruct D as [_ D]. cbn in D. lia.
  - unfold quoted in E. rewrite app_assoc in E. apply app_inj_tail in E as [_ E]. discriminate E.
  - rewrite app_assoc in E. apply app_inj_tail in E as [_ E]. discriminate E.
  - rewrite app_assoc in E. apply app_inj_tail in E as [_ E]. discriminate E.
  - rewrite app_assoc in E. apply app_inj_tail in E as [<- _]. assert (L : Last (ch 123) (x ++ B "{" ++ w)) by (apply last_app, last_white; [apply last_one; cbn; intuition discriminate|exact W]).
    discriminate (last_unique _ _ _ LC L).
  - rewrite app_assoc in E. apply app_inj_tail in E as [<- _]. destruct (members_last_end ms s M) as (c & [Nc _] & L). apply Nc. symmetry. apply (last_unique _ _ _ LC). now do 2 apply last_app.
Qed.

(** ** The text without the last comma *)
Definition Plain (s : bytes) : Prop := Forall (fun c => 32 <= nat_of_ascii c /\ c <> ch 34 /\ c <> ch 92) s.
Lemma plain_spelling s : Plain s -> Spelling s.
Proof. induction 1 as [|c s (A & N1 & N2) F IH]; constructor; assumption. Qed.
Lemma white_check s : forallb (fun c => existsb (Ascii.eqb c) [ch 32; ch 9; ch 10; ch 13]) s = true -> White s.
Proof. intros H. apply Forall_forall. intros c I. apply (proj1 (forallb_forall _ _) H) in I. apply existsb_exists in I as (d & Id & E). apply Ascii.eqb_eq in E. now subst. Qed.
Lemma plain_check s : forallb (fun c => (32 <=? nat_of_ascii c) && negb (Ascii.eqb c (ch 34)) && negb (Ascii.eqb c (ch 92)))%bool s = true -> Plain s.
Proof.
  intros H. apply Forall_forall. intros c I. apply (proj1 (forallb_forall _ _) H) in I. apply andb_prop in I as [I N2]. apply andb_prop in I as [L N1]. apply Nat.leb_le in L.
  split; [exact L|]. split; intros ->; [now rewrite Ascii.eqb_refl in N1|now rewrite Ascii.eqb_refl in N2].
Qed.
Lemma items_space w vs s : White w -> Items vs s -> Items vs (w ++ s).
Proof. intros W I. destruct I as [v s w1 w2 W1 V W2|v s w1 w2 vs r W1 V W2 I]; rewrite app_assoc; [apply items_last|apply items_more]; try assumption; (apply Forall_app; now split). Qed.
Lemma tools_items : forall ts t, Forall Plain (t :: ts) -> Items (map JString (t :: ts)) ([QUOTE] ++ join_tools (t :: ts) ++ [QUOTE]).
Proof.
  induction ts as [|t' ts IH]; intros t F; inversion F as [|? ? Pt F']; subst.
  - change ([QUOTE] ++ join_tools [t] ++ [QUOTE]) with (quoted t). rewrite <- (app_nil_r (quoted t)). apply (items_last (JString t) (quoted t) [] []); [constructor| |constructor]. apply value_string. now apply plain_spelling.
  - specialize (IH t' F'). change (join_tools (t :: t' :: ts)) with (t ++ [QUOTE] ++ B ", " ++ [QUOTE] ++ join_tools (t' :: ts)).
    replace ([QUOTE] ++ (t ++ [QUOTE] ++ B ", " ++ [QUOTE] ++ join_tools (t' :: ts)) ++ [QUOTE]) with ([] ++ quoted t ++ [] ++ B "," ++ ([SP] ++ ([QUOTE] ++ join_tools (t' :: ts) ++ [QUOTE])))
      by (unfold quoted; rewrite <- !app_assoc; reflexivity).
    cbn [map]. apply items_more; [constructor| |constructor|].
    + apply value_string. now apply plain_spelling.
    + apply items_space; [now apply white_check|exact IH].
Qed.
Lemma tools_value ts : ts <> [] -> Forall Plain ts -> Value (JArray (map JString ts)) (tools_json ts).
Proof.
  intros N F. destruct ts as [|t ts]; [congruence|]. unfold tools_json. replace (B "[" ++ [QUOTE] ++ join_tools (t :: ts) ++ [QUOTE] ++ B "]") with (B "[" ++ ([QUOTE] ++ join_tools (t :: ts) ++ [QUOTE]) ++ B "]") by now rewrite <- !app_assoc.
  apply value_array. now apply tools_items.
Qed.
Lemma label_last k v s w : Plain k -> Value v s -> White w -> Members [(k, v)] (LF :: label k ++ s ++ w).
Proof.
  intros K V W. unfold label. replace (LF :: (B "    " ++ [QUOTE] ++ k ++ [QUOTE] ++ B ": ") ++ s ++ w) with ((LF :: B "    ") ++ quoted k ++ [] ++ B ":" ++ B " " ++ s ++ w) by (unfold quoted; cbn; repeat (rewrite <- ?app_assoc; cbn [app]); reflexivity).
  apply members_last; [now apply white_check|now apply plain_spelling|constructor|now apply white_check|exact V|exact W].
Qed.
Lemma label_more k v s ms r : Plain k -> Value v s -> Members ms r -> Members ((k, v) :: ms) (LF :: label k ++ s ++ B "," ++ r).
Proof.
  intros K V M. unfold label. replace (LF :: (B "    " ++ [QUOTE] ++ k ++ [QUOTE] ++ B ": ") ++ s ++ B "," ++ r) with ((LF :: B "    ") ++ quoted k ++ [] ++ B ":" ++ B " " ++ s ++ [] ++ B "," ++ r) by (unfold quoted; cbn; repeat (rewrite <- ?app_assoc; cbn [app]); reflexivity).
  apply members_more; [now apply white_check|now apply plain_spelling|constructor|now apply white_check|exact V|constructor|exact M].
Qed.
Lemma version_split name version tools : exists pre, print_version name version tools = pre ++ B "," ++ [LF] ++ B "}" ++ [LF].
Proof.
  unfold print_version. destruct tools as [ts|].
  - exists (B "{" ++ [LF] ++ label (B "name") ++ [QUOTE] ++ name ++ [QUOTE] ++ B "," ++ [LF] ++ label (B "version") ++ [QUOTE] ++ version ++ [QUOTE] ++ B "," ++ [LF] ++ label (B "tools") ++ tools_json ts). now rewrite <- !app_assoc.
  - exists (B "{" ++ [LF] ++ label (B "name") ++ [QUOTE] ++ name ++ [QUOTE] ++ B "," ++ [LF] ++ label (B "version") ++ [QUOTE] ++ version ++ [QUOTE]). now rewrite <- !app_assoc.
Qed.
Lemma version_comma name version tools : Plain name -> Plain version -> Forall Plain (match tools with Some ts => ts | None => [] end) -> tools <> Some [] ->
  exists pre, print_version name version tools = pre ++ B "," ++ [LF] ++ B "}" ++ [LF] /\
    Json (JObject ([(B "name", JString name); (B "version", JString version)] ++ match tools with Some ts => [(B "tools", JArray (map JString ts))] | None => [] end)) (pre ++ [LF] ++ B "}" ++ [LF]).
Proof.
  intros N V T NE. destruct (version_split name version tools) as (pre & E). exists pre. split; [exact E|]. unfold print_version in E. destruct tools as [ts|].
  - assert (P : pre = B "{" ++ [LF] ++ label (B "name") ++ [QUOTE] ++ name ++ [QUOTE] ++ B "," ++ [LF] ++ label (B "version") ++ [QUOTE] ++ version ++ [QUOTE] ++ B "," ++ [LF] ++ label (B "tools") ++ tools_json ts).
    { apply (app_inv_tail (B "," ++ [LF] ++ B "}" ++ [LF])). rewrite <- E. now rewrite <- !app_assoc. }
    exists [], (B "{" ++ (LF :: label (B "name") ++ quoted name ++ B "," ++ (LF :: label (B "version") ++ quoted version ++ B "," ++ (LF :: label (B "tools") ++ tools_json ts ++ [LF]))) ++ B "}"), [LF].
    split; [constructor|]. split; [|split; [now apply white_check|]].
    + apply value_object. apply label_more; [now apply plain_check|apply value_string; now apply plain_spelling|]. apply label_more; [now apply plain_check|apply value_string; now apply plain_spelling|].
      apply label_last; [now apply plain_check|apply tools_value; [congruence|exact T]|now apply white_check].
    + rewrite P. unfold quoted, QUOTE. cbn [app]. repeat (rewrite <- ?app_assoc; cbn [app]). reflexivity.
  - assert (P : pre = B "{" ++ [LF] ++ label (B "name") ++ [QUOTE] ++ name ++ [QUOTE] ++ B "," ++ [LF] ++ label (B "version") ++ [QUOTE] ++ version ++ [QUOTE]).
    { apply (app_inv_tail (B "," ++ [LF] ++ B "}" ++ [LF])). rewrite <- E. now rewrite <- !app_assoc. }
    exists [], (B "{" ++ (LF :: label (B "name") ++ quoted name ++ B "," ++ (LF :: label (B "version") ++ quoted version ++ [LF])) ++ B "}"), [LF].
    split; [constructor|]. split; [|split; [now apply white_check|]].
    + apply value_object. rewrite app_nil_r. apply label_more; [now apply plain_check|apply value_string; now apply plain_spelling|].
      apply label_last; [now apply plain_check|apply value_string; now apply plain_spelling|now apply white_check].
    + rewrite P. unfold quoted, QUOTE. cbn [app]. repeat (rewrite <- ?app_assoc; cbn [app]). reflexivity.
Qed.
