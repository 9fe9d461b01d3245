(** The life of a licence manager. *)
From Verif Require Import Base LveModel ReleaseModel.

(** Proper use of the functions of a licence manager (license_managers/include/mlle_license_manager.h:42-60).  The first boolean says whether there is a
    manager before, the second one whether there is one afterwards. *)
Inductive Life : bool -> list act -> bool -> Prop :=
| Life_end b : Life b [] b
| Life_refused p l b : Life false l b -> Life false (Does (LicNew p false) :: l) b
| Life_new p l b : Life true l b -> Life false (Does (LicNew p true) :: l) b
| Life_out f ok l b : Life true l b -> Life true (Does (Checkout f ok) :: l) b
| Life_in f ok l b : Life true l b -> Life true (Does (Checkin f ok) :: l) b
| Life_free l b : Life false l b -> Life true (FreeManager :: l) b
| Life_recv r l b b' : Life b l b' -> Life b (Does (Recv r) :: l) b'
| Life_reply m l b b' : Life b l b' -> Life b (Does (Reply m) :: l) b'
| Life_read p l b b' : Life b l b' -> Life b (Does (ReadFile p) :: l) b'
| Life_close l b b' : Life b l b' -> Life b (CloseNotify :: l) b'.
