(** C22, C23: the codes of errors, the size of a file. *)
From Verif Require Import Base BaseProofs ParseModel WireModel WireSpec ToolModel ToolSpec ToolProps CodesSpec CodesProofs.

(** A call that gets a reply other than the wanted one fails with an error of the domain of the tool library, and its code is the one documented for the reply. *)
Theorem C22_codes : forall al rs rest c data written k,
  (forall n, al n = true) -> Incoming rs c data rest -> (0 <= written)%Z -> ~ Positive k c ->
  exists x, await al written k rs = Ok (None, Some x, rest) /\ err_domain x = tool_domain /\ Code k (c_id c) (err_code x).
Proof. exact codes. Qed.
Print Assumptions C22_codes.
Example C22_codes_ex : (forall n, ok_alloc n = true) /\
  Incoming [RMsg (B "NO 5" ++ [LF] ++ B "ab"); RMsg (B "cde"); RMsg (B "YES")] {| c_id := C_NO; c_number := 0; c_length := 5 |} (B "abcde") [RMsg (B "YES")] /\
  ~ Positive (Feature (B "gold")) {| c_id := C_NO; c_number := 0; c_length := 5 |} /\ Code (Feature (B "gold")) C_NO 3 /\ Code (LibPath (B "/lib")) C_NO 1 /\
  Code (License (B "p")) C_NOTSIMPLE 4.
Proof.
  split; [reflexivity|]. split; [exact C22_ex_incoming|]. split; [discriminate|]. split; [constructor|]. split; [|constructor].
  apply Code_protocol; discriminate.
Qed.
(** The code is determined by the reply. *)
Theorem C22_code_unique : forall k id a b, Code k id a -> Code k id b -> a = b.
Proof.
  intros k id a b HA HB.
  destruct HA as [n|n|n|k id F L]; inversion HB as [m|m|m|k' id' F' L']; subst; try reflexivity;
    solve [destruct (F' _ eq_refl eq_refl) | destruct (L' _ eq_refl) as [X Y]; destruct (X eq_refl) | destruct (L' _ eq_refl) as [X Y]; destruct (Y eq_refl)
         | destruct (F _ eq_refl eq_refl) | destruct (L _ eq_refl) as [X Y]; destruct (X eq_refl) | destruct (L _ eq_refl) as [X Y]; destruct (Y eq_refl)].
Qed.
Print Assumptions C22_code_unique.

(** The text of the error passes on the text of the LVE, or says which reply came and which were awaited, or what is wrong with the version. *)
Theorem C22_texts : forall al rs rest c data written k,
  (forall n, al n = true) -> Incoming rs c data rest -> (0 <= written)%Z -> ~ Positive k c ->
  exists x t, await al written k rs = Ok (None, Some x, rest) /\ err_text x = Some t /\ Text k c data t.
Proof. exact texts. Qed.
Print Assumptions C22_texts.
Example C22_texts_ex : Text (Feature (B "gold")) {| c_id := C_NO; c_number := 0; c_length := 5 |} (B "abcde") (B "abcde") /\
  Text (LibPath (B "/lib")) {| c_id := C_NO; c_number := 0; c_length := 5 |} (B "abcde") (B "Unexpected command. Expected command YES, but got command NO.") /\
  Text (Version 1 1) {| c_id := C_VERSION; c_number := 2; c_length := 0 |} [] (B "Protocol version from LVE too high.").
Proof.
  split; [exact (Text_feature (B "gold") {| c_id := C_NO; c_number := 0; c_length := 5 |} (B "abcde") eq_refl)|]. split.
  - apply (Text_one (LibPath (B "/lib")) {| c_id := C_NO; c_number := 0; c_length := 5 |} (B "abcde") (B "YES")); [discriminate|reflexivity|discriminate].
  - apply Text_high; [reflexivity|cbn; lia|cbn; lia].
Qed.

(** The size of a file is the number of its bytes, before, between and after the calls that read it. *)
Theorem C23_size : forall data h sizes rs h', Opened data h -> read_all h sizes = Ok (rs, h') -> get_file_size h' = Ok (zlen data).
Proof. exact size_stays. Qed.
Print Assumptions C23_size.
Example C23_size_ex : exists rs h', Opened (B "abcdef") (opened (B "abcdef")) /\ read_all (opened (B "abcdef")) [4; 1]%Z = Ok (rs, h') /\ fc_off h' = 5%Z /\ get_file_size h' = Ok 6%Z.
Proof. eexists. eexists. split; [repeat split|]. split; [vm_compute; reflexivity|]. split; reflexivity. Qed.
