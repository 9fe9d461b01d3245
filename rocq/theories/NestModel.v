(** Decryption with limited room on the stack.  In CryptModel the recursion of mlle_demask_key (with mlle_cr_decrypt between its
    calls) is bounded by a number; here that number is the number of frames of mlle_demask_key for which there is room. *)
From Verif Require Import Base WireModel CryptModel.

(** mlle_cr_decrypt, decryptors/default/src/mlle_cr_decrypt.c:241-342, when not more than [room] calls of mlle_demask_key (70-186)
    can be active at the same time; [Blocked] if one more is made.  Other frames are not counted. *)
Definition decrypt_room (room : nat) (pr : primitives) (product_key : bytes) (fs : bytes -> option bytes) (basedir : bytes)
  (t : table) (rel file : bytes) : outcome (table * Z * bytes) :=
  decrypt_with pr product_key (demask_key room pr product_key fs basedir) t rel file.

(** Bytes of the arrays path and fullpath in each frame of mlle_demask_key, mlle_cr_decrypt.c:71-72. *)
Definition FRAME : nat := 2 * NAME_MAX.
