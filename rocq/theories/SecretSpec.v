(** What a tool that is not entitled to a library may learn: comparison of two machines. *)
From Verif Require Import Base ParseModel ParseSpec WireModel WireSpec LveModel LveSpec.

(** Two machines that differ at most in the contents of files, in which files there are
    and in what decryption makes of them: memory, licence manager and the test for a
    directory are the same, and so is whether a decryption context can be made. *)
Definition SameButFiles {D D'} (e : env D) (e' : env D') : Prop :=
  (forall n, e_alloc e n = e_alloc e' n) /\
  (forall p, e_cr_create e p = None <-> e_cr_create e' p = None) /\
  (forall p, e_lic_new e p = e_lic_new e' p) /\
  (forall f, e_checkout e f = e_checkout e' f) /\
  (forall f, e_checkin e f = e_checkin e' f) /\
  (forall p, e_stat e p = e_stat e' p).

(** The same, and directories may differ as well. *)
Definition SameButDisk {D D'} (e : env D) (e' : env D') : Prop :=
  (forall n, e_alloc e n = e_alloc e' n) /\
  (forall p, e_cr_create e p = None <-> e_cr_create e' p = None) /\
  (forall p, e_lic_new e p = e_lic_new e' p) /\
  (forall f, e_checkout e f = e_checkout e' f) /\
  (forall f, e_checkin e f = e_checkin e' f).

(** The tool does the same on both machines. *)
Definition SameTurns {D D'} (R : env D -> env D' -> Prop) : list (turn D) -> list (turn D') -> Prop :=
  Forall2 (fun t t' => t_record t = t_record t' /\ t_shutdown t = t_shutdown t' /\
                       R (t_env t) (t_env t')).

(** Runs end in the same way. *)
Definition SameEnd {A A'} (o : outcome A) (o' : outcome A') : Prop :=
  match o, o' with
  | Ok _, Ok _ => True
  | UB r, UB r' => r = r'
  | Blocked, Blocked => True
  | _, _ => False
  end.

(** The licence for the whole library cannot be had from this machine's manager. *)
Definition LicenceRefused {D} (cfg : config) (e : env D) : Prop :=
  exists f, cfg_global cfg = Some f /\ e_checkout e f <> Granted.

(** The replies of a run. *)
Fixpoint replies (es : list event) : list bytes :=
  match es with
  | [] => []
  | Reply m :: r => m :: replies r
  | _ :: r => replies r
  end.

(** The record is a FEATURE request for [f]: the payload announced by the header, which
    has come completely. *)
Definition NamesFeature (r f : bytes) : Prop :=
  exists c h d, ValidLine (cstr r) c /\ c_id c = C_FEATURE /\ HeaderThen r h d /\
    f = firstn (Z.to_nat (c_length c)) d /\ (c_length c <= zlen d)%Z.
