(** The replies that the specification of the protocol gives, /repo/doc/SEMLA.md:425-545, by the request [r] that is answered. *)
From Verif Require Import Base ParseModel WireModel LveModel LveSpec.

Inductive Documented (r : bytes) : bytes -> Prop :=
(* Error Handling, lines 425-449 *)
| Doc_error code t : In code [1; 6; 7; 8]%Z -> Documented r (error_message code t)
| Doc_version_too_low t : Asks r C_VERSION -> Documented r (error_message 2 t)
| Doc_no_licensing t : Asks r C_FEATURE \/ Asks r C_LICENSE -> Documented r (error_message 3 t)
| Doc_not_found t : Asks r C_FILE \/ Asks r C_LIB -> Documented r (error_message 4 t)
| Doc_not_allowed t : Asks r C_FILE -> Documented r (error_message 5 t)
(* Handshake, lines 457-471 *)
| Doc_version : Asks r C_VERSION -> Documented r (B "VERSION 1" ++ [LF])
| Doc_no_version t : Asks r C_VERSION -> Documented r (length_message (B "NO") t)
| Doc_lib : Asks r C_LIB -> Documented r (B "YES" ++ [LF])
(* License check, Return of licenses, lines 473-508 *)
| Doc_yes : Asks r C_FEATURE \/ Asks r C_LICENSE \/ Asks r C_RETURNFEATURE \/ Asks r C_RETURNLICENSE -> Documented r (B "YES" ++ [LF])
| Doc_no t : Asks r C_FEATURE \/ Asks r C_LICENSE -> Documented r (length_message (B "NO") t)
| Doc_not_simple : Asks r C_LICENSE -> Documented r (B "NOTSIMPLE" ++ [LF])
(* Decryption, lines 510-525 *)
| Doc_contents d : Asks r C_FILE -> Documented r (length_message (B "FILECONT") d)
(* General information Query, lines 527-545 *)
| Doc_tools l : Asks r C_TOOLS -> Documented r (length_message (B "TOOLLIST") l)
| Doc_info t : r = B "LICENSEINFO" ++ [LF] -> Documented r (length_message (B "TEXT") t).

(** The reply [m] is given after the record [r] was taken and before another one is taken. *)
Definition Answers (es : list event) (r m : bytes) : Prop :=
  exists a mid b, es = a ++ Recv r :: mid ++ Reply m :: b /\ (forall x, ~ In (Recv x) mid).
