(** Proofs about the header for the keys of several tools. *)
From Coq Require Import FinFun.
From Verif Require Import Base BaseProofs WireModel ParseModel ParseProofs DecProofs EmbedModel EmbedSpec EmbedProofs.

Definition ends_word (s : bytes) : Prop := match s with [] => True | c :: _ => id_char c = false end.

Lemma word_app w rest : forallb id_char w = true -> ends_word rest -> word (w ++ rest) = (w, rest).
Proof.
  induction w as [|c w IH]; intros H Hr.
  - destruct rest as [|c r]; [reflexivity|]. cbn in *. now rewrite Hr.
  - cbn [forallb] in H. apply andb_true_iff in H as [Hc H]. cbn [app word]. now rewrite Hc, (IH H Hr).
Qed.

Lemma words_all before after names tail :
  Forall (fun w => w <> [] /\ forallb id_char w = true) names -> (exists c r, after = c :: r /\ id_char c = false) ->
  (forall fuel, words (S fuel) before after tail = Some ([], tail)) ->
  forall fuel, length names < fuel ->
  words fuel before after (concat (map (fun w => before ++ w ++ after) names) ++ tail) = Some (names, tail).
Proof.
  intros H (c0 & r0 & E & Hc) Ht. induction H as [|w names [Hw Hi] H IH]; intros fuel Hf.
  - destruct fuel as [|fuel]; [cbn in Hf; lia|]. apply Ht.
  - destruct fuel as [|fuel]; [lia|]. cbn [map concat length] in *. cbn [words]. rewrite <- !app_assoc, eat_app.
    rewrite word_app by (try exact Hi; rewrite E; exact Hc). rewrite eat_app.
    destruct w as [|x w]; [now elim Hw|]. now rewrite (IH fuel) by lia.
Qed.

Lemma words_end before after tail : eat before tail = None -> forall fuel, words (S fuel) before after tail = Some ([], tail).
Proof. intros H fuel. cbn [words]. now rewrite H. Qed.

Lemma digit_id c : is_digit c = true -> id_char c = true.
Proof.
  intros H. pose proof (ascii_cases (fun c => implb (is_digit c) (id_char c)) ltac:(vm_compute; reflexivity) c) as K.
  cbv beta in K. now rewrite H in K.
Qed.

Lemma print_id n : forallb id_char (print_dec (Z.of_nat n)) = true.
Proof.
  rewrite print_dec_eq. destruct (Z.ltb_spec (Z.of_nat n) 0) as [K|_]; [lia|].
  destruct (udigits_spec (Z.of_nat n)) as (_ & H & _); [lia|].
  rewrite forallb_forall in *. intros x Hx. now apply digit_id, H.
Qed.

Lemma print_inj a b : print_dec (Z.of_nat a) = print_dec (Z.of_nat b) -> a = b.
Proof.
  rewrite !print_dec_eq. destruct (Z.ltb_spec (Z.of_nat a) 0); [lia|]. destruct (Z.ltb_spec (Z.of_nat b) 0); [lia|].
  intros E. destruct (udigits_spec (Z.of_nat a)) as (H1 & _); [lia|]. destruct (udigits_spec (Z.of_nat b)) as (H2 & _); [lia|].
  rewrite E in H1. lia.
Qed.

Lemma key_name_id i : Identifier (key_name i).
Proof.
  unfold key_name. split; [discriminate|]. split.
  - rewrite forallb_app, print_id. reflexivity.
  - intros c r E. change (B "PUBLIC_KEY_TOOL" ++ print_dec (Z.of_nat i)) with ("P"%char :: (B "UBLIC_KEY_TOOL" ++ print_dec (Z.of_nat i))) in E.
    apply (f_equal (hd NUL)) in E. cbn [hd] in E. subst. reflexivity.
Qed.

Lemma key_name_inj a b : key_name a = key_name b -> a = b.
Proof. unfold key_name. intros E. apply app_inv_head in E. now apply print_inj. Qed.

Definition include_name (i : nat) : bytes := B "public_key_tool" ++ print_dec (Z.of_nat i).

Lemma map_concat {A} (f g : A -> bytes) l : (forall x, f x = g x) -> concat (map f l) = concat (map g l).
Proof. intros H. f_equal. now apply map_ext. Qed.

Definition tools (n : nat) : tool_macros :=
  {| tm_num := Z.of_nat n; tm_includes := map include_name (seq 0 n); tm_declared := map key_name (seq 0 n);
     tm_keys := map key_name (seq 0 n); tm_initialized := map key_name (seq 0 n); tm_cleared := map key_name (seq 0 n) |}.

Lemma all_eq before after (g : nat -> bytes) (f : nat -> bytes) n :
  (forall i, f i = before ++ g i ++ after) ->
  concat (map f (seq 0 n)) = concat (map (fun w => before ++ w ++ after) (map g (seq 0 n))).
Proof. intros H. rewrite map_map. now apply map_concat. Qed.

Lemma concat_length_le (l : list bytes) : Forall (fun w => w <> []) l -> length l <= length (concat l).
Proof.
  induction 1 as [|w l H _ IH]; [cbn; lia|]. cbn [concat length]. rewrite app_length.
  destruct w; [now elim H|]. cbn [length]. lia.
Qed.

Lemma names_id (g : nat -> bytes) n : (forall i, g i <> [] /\ forallb id_char (g i) = true) ->
  Forall (fun w => w <> [] /\ forallb id_char w = true) (map g (seq 0 n)).
Proof. intros H. apply Forall_forall. intros x Hx. apply in_map_iff in Hx as (i & <- & _). apply H. Qed.

Lemma key_name_word i : key_name i <> [] /\ forallb id_char (key_name i) = true.
Proof. destruct (key_name_id i) as (A & C & _). tauto. Qed.

Lemma include_word i : include_name i <> [] /\ forallb id_char (include_name i) = true.
Proof. unfold include_name. split; [discriminate|]. rewrite forallb_app, print_id. reflexivity. Qed.

Lemma len_word i : key_name i ++ B "_LEN" <> [] /\ forallb id_char (key_name i ++ B "_LEN") = true.
Proof. destruct (key_name_word i) as [A C]. split; [now destruct (key_name i)|]. now rewrite forallb_app, C. Qed.

Ltac eats := match goal with |- context [eat ?p ?s] => erewrite (eat_eq p s) by (rewrite <- ?app_assoc; reflexivity) end.

Lemma tool_header_reads n : read_tool_header (tool_header n) = Some (tools n).
Proof.
  unfold read_tool_header. set (fuel := length (tool_header n)).
  assert (F : n < fuel).
  { unfold fuel, tool_header. rewrite !app_length.
    pose proof (concat_length_le (map (fun i => key_name i ++ B ",") (seq 0 n))) as K.
    rewrite map_length, seq_length in K. change (length [LF]) with 1.
    assert (Forall (fun w => w <> []) (map (fun i => key_name i ++ B ",") (seq 0 n))) as K'.
    { apply Forall_forall. intros x Hx. apply in_map_iff in Hx as (i & <- & _). now destruct (key_name i). }
    specialize (K K'). lia. }
  unfold tool_header. cbv zeta.
  rewrite (all_eq (B "#include """) (B ".h""" ++ line) include_name).
  2:{ intros i. unfold key_file, include_name. rewrite <- !app_assoc. reflexivity. }
  rewrite (all_eq (B "DECLARE_") (B "();") key_name) by reflexivity.
  rewrite (all_eq [] (B ",") key_name (fun i => key_name i ++ B ",")) by reflexivity.
  rewrite (all_eq [] (B ",") (fun i => key_name i ++ B "_LEN") (fun i => key_name i ++ B "_LEN,")).
  2:{ intros i. cbn [app]. rewrite <- app_assoc. reflexivity. }
  rewrite (all_eq (B "INITIALIZE_") (B "();") key_name) by reflexivity.
  rewrite (all_eq (B "CLEAR_") (B "();") key_name) by reflexivity.
  change [LF] with line.
  rewrite eat_app. rewrite number_print; [|lia|reflexivity].
  eats.
  rewrite words_all; [|now apply names_id, include_word|now exists DOT, (B "h""" ++ line)|now apply words_end|now rewrite map_length, seq_length].
  rewrite eat_app.
  rewrite words_all; [|now apply names_id, key_name_word|now exists "("%char, (B ");")|now apply words_end|now rewrite map_length, seq_length].
  rewrite eat_app.
  rewrite words_all; [|now apply names_id, key_name_word|now exists ","%char, []|now intros fuel'|now rewrite map_length, seq_length].
  eats.
  rewrite words_all; [|apply names_id; intros i; apply len_word|now exists ","%char, []|now intros fuel'|now rewrite map_length, seq_length].
  eats.
  rewrite words_all; [|now apply names_id, key_name_word|now exists "("%char, (B ");")|now apply words_end|now rewrite map_length, seq_length].
  eats.
  rewrite words_all; [|now apply names_id, key_name_word|now exists "("%char, (B ");")|now apply words_end|now rewrite map_length, seq_length].
  rewrite (eat_eq _ _ []) by now rewrite app_nil_r. reflexivity.
Qed.

(** ** Several headers *)

Lemma other_header p q d : Identifier p -> Identifier q -> p <> q -> read_header p (header q d) = None.
Proof.
  intros (_ & Hp & _) (_ & Hq & _) N. unfold read_header. rewrite header_eq.
  destruct (eat _ _) as [r|] eqn:E; [|reflexivity]. exfalso. apply eat_some in E. rewrite <- !app_assoc in E.
  apply app_inv_head in E. apply (f_equal word) in E.
  rewrite !word_app in E by first [assumption | exact eq_refl]. apply (f_equal fst) in E. cbn [fst] in E. now symmetry in E.
Qed.

Lemma macros_found files i0 n : forall datas, length datas = n ->
  (forall i d, nth_error datas i = Some d -> files (key_file (i0 + i)) = Some (header (key_name (i0 + i)) d)) ->
  forall i d, nth_error datas i = Some d -> macros_of files (map include_name (seq i0 n)) (key_name (i0 + i)) = Some (meaning d).
Proof.
  revert i0. induction n as [|n IH]; intros i0 datas L F i d H.
  - destruct datas; [|discriminate]. now destruct i.
  - destruct datas as [|d0 datas]; [discriminate|]. cbn [seq map macros_of].
    pose proof (F 0 d0 eq_refl) as F0. rewrite Nat.add_0_r in F0.
    replace (include_name i0 ++ B ".h") with (key_file i0) by (unfold include_name, key_file; now rewrite <- app_assoc).
    rewrite F0. destruct i as [|i].
    + rewrite Nat.add_0_r. cbn in H. injection H as ->. now rewrite header_reads by apply key_name_id.
    + rewrite other_header; [|apply key_name_id|apply key_name_id|].
      * replace (i0 + S i) with (S i0 + i) by lia. apply (IH (S i0) datas).
        -- cbn in L. lia.
        -- intros j e Hj. replace (S i0 + j) with (i0 + S j) by lia. now apply F.
        -- exact H.
      * intros K. apply key_name_inj in K. lia.
Qed.

Lemma seq_forall2 {A} (P : nat -> A -> Prop) (l : list A) : forall i0,
  (forall i x, nth_error l i = Some x -> P (i0 + i) x) -> Forall2 P (seq i0 (length l)) l.
Proof.
  induction l as [|x l IH]; intros i0 H; [constructor|]. cbn [length seq]. constructor.
  - specialize (H 0 x eq_refl). now rewrite Nat.add_0_r in H.
  - apply IH. intros i y Hy. replace (S i0 + i) with (i0 + S i) by lia. now apply H.
Qed.

Lemma nodup_names n : forall i0, NoDup (map key_name (seq i0 n)).
Proof.
  intros i0. apply FinFun.Injective_map_NoDup; [|apply seq_NoDup]. intros a b. apply key_name_inj.
Qed.

Lemma initialized_keys files datas :
  (forall i d, nth_error datas i = Some d -> files (key_file i) = Some (header (key_name i) d)) ->
  InitializedKeys files (tool_header (length datas)) (map (fun d => kept d ++ [NUL]) datas).
Proof.
  intros F. exists (tools (length datas)). split; [apply tool_header_reads|].
  cbn [tools tm_num tm_keys tm_declared tm_initialized tm_cleared tm_includes].
  rewrite map_length, seq_length. split; [reflexivity|]. split; [apply nodup_names|].
  split; [reflexivity|]. split; [reflexivity|]. split; [reflexivity|].
  assert (G : Forall2 (fun i d => macros_of files (map include_name (seq 0 (length datas))) (key_name i) = Some (meaning d)) (seq 0 (length datas)) datas).
  { apply seq_forall2. intros i d H. exact (macros_found files 0 (length datas) datas eq_refl F i d H). }
  clear F. revert G. generalize (map include_name (seq 0 (length datas))). intros inc.
  generalize (seq 0 (length datas)). intros l G. induction G as [|i d l ds H _ IH]; cbn [map]; [apply Forall2_nil|]. apply Forall2_cons; [|exact IH].
  exists (meaning d). split; [exact H|]. intros mem D. now apply header_initializes.
Qed.

(** ** Runs *)

Lemma cstr_nul k rest : ~ In NUL k -> cstr (k ++ NUL :: rest) = k.
Proof.
  induction k as [|c k IH]; intros H; cbn [app cstr].
  - now rewrite Ascii.eqb_refl.
  - destruct (Ascii.eqb_spec c NUL) as [->|]; [elim H; now left|]. f_equal. apply IH. intros K. apply H. now right.
Qed.

Lemma unix_in c d : In c (unix d) -> In c d.
Proof. unfold unix. intros H. now apply filter_In in H as [H _]. Qed.

Lemma key_text d : ~ In NUL d -> cstr (kept d ++ [NUL]) = unix d.
Proof.
  intros H. destruct (kept_start d) as (rest & ->). cbn [app]. apply cstr_nul. intros K. now apply H, unix_in.
Qed.

Lemma obfuscate_runs d out file name type data :
  In type [B "TOOL_PUBLIC"; B "TOOL_PRIVATE"; B "LVE_PRIVATE"] ->
  dk_file d file = Some data -> data <> [] -> dk_readable d file = true -> dk_writable d out = true ->
  obfuscate d [out; file; name; type] = Ok (0%Z, Some (out, header name data)).
Proof.
  intros T F N R W. unfold obfuscate.
  assert (E : beq type (B "TOOL_PUBLIC") || beq type (B "TOOL_PRIVATE") || beq type (B "LVE_PRIVATE") = true).
  { destruct T as [<-|[<-|[<-|[]]]]; reflexivity. }
  rewrite E. unfold read_file. rewrite F, R. destruct data as [|c data]; [now elim N|]. cbn [bind].
  unfold create_header_file. now rewrite W.
Qed.
