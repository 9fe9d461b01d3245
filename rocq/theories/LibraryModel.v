(** A tool, an LVE and an encrypted library on disk: the LVE of LveModel with the decryptor of
    CryptModel. *)
From Verif Require Import Base ParseModel WireModel LveModel ToolModel SessionModel CryptModel.

(** What mlle_io_read_file (common/mlle_io.c:58-171) delivers to mlle_demask_key
    (mlle_cr_decrypt.c:150). *)
Definition view_disk {D} (w : env D) (path : bytes) : option bytes :=
  match snd (read_file w path) with Ok (inr b) => Some b | _ => None end.

(** The context made by mlle_cr_create (mlle_cr_decrypt.c:35-41): basedir and key masks. *)
Definition context : Type := bytes * table.

(** An LVE's world [w] together with the default decryptor: mlle_cr_create succeeds when
    its allocations do, mlle_cr_decrypt (lve/mlle_lve_file.c:85) is cr_decrypt. *)
Definition with_decryptor (pr : primitives) (K : bytes) (w : env unit) : env context :=
  {| e_alloc := e_alloc w;
     e_cr_create := fun p => match e_cr_create w p with Some _ => Some (p, []) | None => None end;
     e_decrypt := fun cr rel file =>
       match cr with
       | None => UB NullDeref
       | Some (basedir, t) =>
           do (t1, o) <- cr_decrypt pr K (view_disk w) basedir t rel file ;
           Ok (Some (basedir, t1), o)
       end;
     e_lic_new := e_lic_new w; e_checkout := e_checkout w; e_checkin := e_checkin w;
     e_stat := e_stat w; e_file := e_file w |}.

(** The same for a connection. *)
Definition link_with (pr : primitives) (K : bytes) (k : link unit) : link context :=
  {| k_env := with_decryptor pr K (k_env k); k_alloc := k_alloc k; k_cut := k_cut k |}.
