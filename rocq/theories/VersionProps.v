(** C100: what the LVE prints for --version. *)
From Verif Require Import Base JsonSpec VersionModel VersionProofs.

(** Whatever the name, the version and the tools are, the text is not JSON: there is a comma after the last member. *)
Theorem C100_refuted : forall name version tools, ~ exists v, Json v (print_version name version tools).
Proof. intros name version tools. destruct (version_split name version tools) as (pre & ->). apply comma_no_json; now apply white_check. Qed.
Print Assumptions C100_refuted.

(** Without this comma it would say what was meant, if the texts need no escapes.  Missing from the full statement: the comma. *)
Theorem C100_comma_partial : forall name version tools,
  Forall (Forall (fun c => 32 <= nat_of_ascii c /\ c <> ch 34 /\ c <> ch 92)) (name :: version :: match tools with Some ts => ts | None => [] end) -> tools <> Some [] ->
  exists pre, print_version name version tools = pre ++ B "," ++ [LF] ++ B "}" ++ [LF] /\
    Json (JObject ([(B "name", JString name); (B "version", JString version)] ++ match tools with Some ts => [(B "tools", JArray (map JString ts))] | None => [] end)) (pre ++ [LF] ++ B "}" ++ [LF]).
Proof. intros name version tools F NE. inversion F as [|? ? N F1]; subst. inversion F1 as [|? ? V F2]; subst. now apply version_comma. Qed.
Print Assumptions C100_comma_partial.

Example C100_ex : print_version (B "SEMLA") (B "1.0") (Some [B "Dymola"; B "OCT"]) =
    B "{" ++ [LF] ++ B "    " ++ [QUOTE] ++ B "name" ++ [QUOTE] ++ B ": " ++ [QUOTE] ++ B "SEMLA" ++ [QUOTE] ++ B "," ++ [LF] ++
    B "    " ++ [QUOTE] ++ B "version" ++ [QUOTE] ++ B ": " ++ [QUOTE] ++ B "1.0" ++ [QUOTE] ++ B "," ++ [LF] ++
    B "    " ++ [QUOTE] ++ B "tools" ++ [QUOTE] ++ B ": [" ++ [QUOTE] ++ B "Dymola" ++ [QUOTE] ++ B ", " ++ [QUOTE] ++ B "OCT" ++ [QUOTE] ++ B "]," ++ [LF] ++ B "}" ++ [LF] /\
  Forall (Forall (fun c => 32 <= nat_of_ascii c /\ c <> ch 34 /\ c <> ch 92)) [B "SEMLA"; B "1.0"; B "Dymola"; B "OCT"].
Proof. split; [reflexivity|]. repeat (apply Forall_cons; [now apply plain_check|]). apply Forall_nil. Qed.
(** The grammar has texts: nested ones, with escapes and numbers. *)
Example C100_json_ex : Json (JObject [(B "a", JArray [JNumber (B "-1.5e3"); JNull]); (B "b", JString [ch 92; ch 34])])
  (B "{" ++ quoted (B "a") ++ B ": [ -1.5e3,null]," ++ [LF] ++ quoted (B "b") ++ B ":" ++ quoted [ch 92; ch 34] ++ B "}" ++ [LF]).
Proof.
  exists [], (B "{" ++ ([] ++ quoted (B "a") ++ [] ++ B ":" ++ B " " ++ (B "[" ++ (B " " ++ B "-1.5e3" ++ [] ++ B "," ++ ([] ++ B "null" ++ [])) ++ B "]") ++ [] ++ B "," ++
    ([LF] ++ quoted (B "b") ++ [] ++ B ":" ++ [] ++ quoted [ch 92; ch 34] ++ [])) ++ B "}"), [LF].
  split; [constructor|]. split; [|split; [now apply white_check|reflexivity]].
  apply value_object. apply members_more; [constructor|apply plain_spelling; now apply plain_check|constructor|now apply white_check| |constructor|].
  - apply value_array. apply items_more; [now apply white_check| |constructor|].
    + apply value_number. change (B "-1.5e3") with (B "-" ++ B "1" ++ (B "." ++ B "5") ++ (B "e" ++ [] ++ B "3")).
      assert (D : forall c, (48 <=? nat_of_ascii c) && (nat_of_ascii c <=? 57) = true -> Digits [c]).
      { intros c H. apply andb_prop in H as [H1 H2]. apply Nat.leb_le in H1, H2. split; [discriminate|]. constructor; [now split|constructor]. }
      apply number; [now right|now apply D|right; discriminate|right; exists (B "5"); split; [now apply D|reflexivity]|].
      right. exists (B "e"), [], (B "3"). split; [now left|]. split; [now left|]. split; [now apply D|reflexivity].
    + apply items_last; [constructor|apply value_null|constructor].
  - apply members_last; [now apply white_check|apply plain_spelling; now apply plain_check|constructor|constructor| |constructor].
    apply value_string. apply spelling_escape; [now left|constructor].
Qed.
