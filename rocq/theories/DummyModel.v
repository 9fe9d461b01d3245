(** The licence manager delivered with the sources for tests,
    /repo/src/license_managers/testingdummy/src/mlle_license_manager.c. *)
From Verif Require Import Base ParseModel WireModel LveModel.

(** The only feature it grants, mlle_license_manager.c:55. *)
Definition TEST_FEATURE : bytes := B "test_licensed_feature".

(** mlle_license_new, mlle_license_manager.c:36-41: a static object. *)
Definition dummy_new (libpath : option bytes) : lic_res := Granted.

(** mlle_license_checkout_feature, mlle_license_manager.c:49-61.  strcmp looks at the
    feature as a C string; the length is not used.  The error object of
    mlle_error_new(1, 3, ...) is taken to be made (see ErrorModel for the failure). *)
Definition dummy_checkout (feature : bytes) : lic_res :=
  if beq (cstr feature) TEST_FEATURE then Granted
  else Refused (Some (B "Feature not licensed")).

(** mlle_license_checkin_feature, mlle_license_manager.c:63-70. *)
Definition dummy_checkin (feature : bytes) : lic_res := Granted.

(** An LVE linked with this manager, on machine [e]. *)
Definition with_dummy {D} (e : env D) : env D :=
  {| e_alloc := e_alloc e; e_cr_create := e_cr_create e; e_decrypt := e_decrypt e;
     e_lic_new := dummy_new; e_checkout := dummy_checkout; e_checkin := dummy_checkin;
     e_stat := e_stat e; e_file := e_file e |}.
