(** The codes of the errors of the tool library. *)
From Verif Require Import Base ParseModel ToolModel.

(** MLLE_ERROR_DOMAIN_TOOL and enum mlle_tool_error as a user reads them (tool/mlle_licensing.h:29,43-50): 1 MLLE_TOOL_ERROR_PROTOCOL,
    3 MLLE_TOOL_ERROR_NO_LICENSE, 4 MLLE_TOOL_ERROR_NOT_SIMPLIFIED.  The code that belongs to a reply that is not the wanted one. *)
Definition tool_domain : Z := 2.
Inductive Code : call -> cmd_id -> Z -> Prop :=
| Code_feature n : Code (Feature n) C_NO 3
| Code_license n : Code (License n) C_NO 3
| Code_simple n : Code (License n) C_NOTSIMPLE 4
| Code_protocol k id : (forall n, k = Feature n -> id <> C_NO) -> (forall n, k = License n -> id <> C_NO /\ id <> C_NOTSIMPLE) -> Code k id 1.

(** The replies a call awaits, by the words of the protocol. *)
Definition awaited (k : call) : list bytes :=
  match k with
  | Version _ _ => [B "VERSION"]
  | LibPath _ | ReturnFeature _ | ReturnLicense _ => [B "YES"]
  | Feature _ => [B "YES"; B "NO"]
  | License _ => [B "YES"; B "NOTSIMPLE"; B "NO"]
  | File _ => [B "FILECONT"]
  end.
(** The text of the error for a reply that is not the wanted one; [data] is what came with the reply. *)
Inductive Text : call -> command -> bytes -> bytes -> Prop :=
| Text_error k c data : c_id c = C_ERROR -> Text k c data (firstn 2047 (B "Got ERROR command with message: " ++ cstr data))
| Text_feature n c data : c_id c = C_NO -> Text (Feature n) c data (firstn 2047 (cstr data))
| Text_license n c data : c_id c = C_NO -> Text (License n) c data (firstn 2047 (cstr data))
| Text_simple n c data : c_id c = C_NOTSIMPLE ->
    Text (License n) c data (B "Library vendor executable doesn't use simplified licensing, use command FEATURE instead.")
| Text_low min max c data : c_id c = C_VERSION -> (c_number c < min)%Z -> Text (Version min max) c data (B "Protocol version from LVE too low.")
| Text_high min max c data : c_id c = C_VERSION -> (min <= c_number c)%Z -> (max < c_number c)%Z ->
    Text (Version min max) c data (B "Protocol version from LVE too high.")
| Text_one k c data w : c_id c <> C_ERROR -> awaited k = [w] -> cmd_name (c_id c) <> w ->
    Text k c data (B "Unexpected command. Expected command " ++ w ++ B ", but got command " ++ cmd_name (c_id c) ++ B ".")
| Text_two k c data w1 w2 : c_id c <> C_ERROR -> awaited k = [w1; w2] -> ~ In (cmd_name (c_id c)) (awaited k) ->
    Text k c data (B "Unexpected command " ++ cmd_name (c_id c) ++ B ". Expected one of the following commands: " ++ w1 ++ B ", " ++ w2)
| Text_three k c data w1 w2 w3 : c_id c <> C_ERROR -> awaited k = [w1; w2; w3] -> ~ In (cmd_name (c_id c)) (awaited k) ->
    Text k c data (B "Unexpected command " ++ cmd_name (c_id c) ++ B ". Expected one of the following commands: " ++ w1 ++ B ", " ++ w2 ++ B ", " ++ w3).
