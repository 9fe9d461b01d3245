(** The list of LVEs that packagetool keeps, packagetool/utils.c:60-66,94-112,477-496,501-551, packagetool/manifest.c:299-340, and its place in
    packagetool/packagetool.c:57-143.  Only the memory of this list is counted. *)
From Verif Require Import Base.

(** The blocks that are allocated, and the number of the next one (malloc and free, utils.c:101,104,482-486). *)
Record mem := { m_live : list nat; m_next : nat }.
(** Is a block allocated? *)
Definition alive (p : nat) (m : mem) : bool := existsb (Nat.eqb p) (m_live m).
(** malloc, utils.c:482,484; [ok]: there is memory. *)
Definition malloc (ok : bool) (m : mem) : option nat * mem :=
  if ok then (Some (m_next m), {| m_live := m_next m :: m_live m; m_next := S (m_next m) |}) else (None, m).
(** free of a pointer that is not NULL, utils.c:101,104,486. *)
Definition release (p : nat) (m : mem) : outcome mem :=
  if alive p m then Ok {| m_live := remove Nat.eq_dec p (m_live m); m_next := m_next m |} else UB UseAfterFree.

(** An element of lveList: never written, NULL, or a block and the text in it (simplification: the text is kept with the pointer, a block
    is reached from one element only). *)
Inductive cell := Unset | Null | Text (p : nat) (s : option bytes).
(** The variable lveList, utils.c:66, and the elements of the array it points to. *)
Record globals := { g_array : option nat; g_cells : list cell; g_mem : mem }.
(** At the start of the program: NULL, utils.c:66. *)
Definition at_start : globals := {| g_array := None; g_cells := []; g_mem := {| m_live := []; m_next := 0 |} |}.
(** An element is used: lveList[i], utils.c:101,484,539,542, manifest.c:321. *)
Definition use (g : globals) : outcome unit :=
  match g_array g with None => UB NullDeref | Some a => if alive a (g_mem g) then Ok tt else UB UseAfterFree end.

(** The loop of createCopyArray, utils.c:483-489, over the elements that are left; [oks]: the results of malloc. *)
Fixpoint fill (oks : list bool) (n : nat) (m : mem) : bool * list cell * mem :=
  match n with
  | 0 => (true, [], m)
  | S n' =>
      match malloc (hd true oks) m with
      | (Some p, m1) => let '(ok, cs, m2) := fill (tl oks) n' m1 in (ok, Text p None :: cs, m2)
      | (None, m1) => (false, Null :: repeat Unset n', m1)
      end
  end.
(** createCopyArray, utils.c:477-496; [n] is NO_OF_LVE. *)
Definition create (oks : list bool) (n : nat) (g : globals) : outcome (bool * globals) :=
  match g_array g with
  | Some _ => Ok (true, g)
  | None =>
      match malloc (hd true oks) (g_mem g) with
      | (None, m1) => Ok (false, {| g_array := None; g_cells := g_cells g; g_mem := m1 |})
      | (Some a, m1) =>
          let '(ok, cs, m2) := fill (tl oks) n m1 in
          if ok then Ok (true, {| g_array := Some a; g_cells := cs; g_mem := m2 |})
          else do m3 <- release a m2 ; Ok (false, {| g_array := Some a; g_cells := cs; g_mem := m3 |})
      end
  end.

(** The loop of copyLVE, utils.c:525-546.  [present]: fileExists; [copied]: copyFileToDotLibraryDir.  The names (utils.c:60-61) are shorter
    than MAX_STRING. *)
Fixpoint copy_loop (present copied : bytes -> bool) (m : mem) (names : list bytes) (cells : list cell) : outcome (bool * list cell) :=
  match names, cells with
  | n :: r, c :: cs =>
      if present n then
        if copied n then
          match c with
          | Text p _ =>
              if alive p m then do (ok, cs') <- copy_loop present copied m r cs ; Ok (ok, Text p (Some n) :: cs')
              else UB UseAfterFree
          | Null => UB NullDeref
          | Unset => UB UninitRead
          end
        else Ok (false, c :: cs)
      else do (ok, cs') <- copy_loop present copied m r cs ; Ok (ok, Null :: cs')
  | _ :: _, [] => UB OobWrite
  | [], _ => Ok (true, cells)
  end.
(** copyLVE, utils.c:501-551.  [enc]: usingEncryption(); [dir]: getExecutableDirectory() succeeds. *)
Definition copy_lve (enc : bool) (oks : list bool) (dir : bool) (present copied : bytes -> bool) (names : list bytes) (g : globals) : outcome (bool * globals) :=
  if enc then
    do (ok, g1) <- create oks (length names) g ;
    if ok then
      if dir then
        do _ <- use g1 ;
        do (ok2, cs) <- copy_loop present copied (g_mem g1) names (g_cells g1) ;
        Ok (ok2, {| g_array := g_array g1; g_cells := cs; g_mem := g_mem g1 |})
      else Ok (false, g1)
    else Ok (false, g1)
  else Ok (true, g).

(** The loop of addEncryption, manifest.c:317-337: the names of the executables of the manifest. *)
Fixpoint listed (m : mem) (cells : list cell) : outcome (list bytes) :=
  match cells with
  | [] => Ok []
  | Null :: r => listed m r
  | Unset :: _ => UB UninitRead
  | Text p s :: r =>
      if alive p m then
        match s with Some n => do l <- listed m r ; Ok (n :: l) | None => UB UninitRead end
      else UB UseAfterFree
  end.
(** addEncryption, manifest.c:299-340. *)
Definition add_encryption (enc : bool) (g : globals) : outcome (list bytes) :=
  if enc then do _ <- use g ; listed (g_mem g) (g_cells g) else Ok [].

(** The loop of cleanUp, utils.c:100-102. *)
Fixpoint free_all (m : mem) (cells : list cell) : outcome mem :=
  match cells with
  | [] => Ok m
  | Null :: r => free_all m r
  | Unset :: _ => UB UninitRead
  | Text p _ :: r => do m1 <- release p m ; free_all m1 r
  end.
(** cleanUp, utils.c:94-112. *)
Definition clean_up (g : globals) : outcome globals :=
  match g_array g with
  | None => Ok g
  | Some a =>
      do _ <- use g ;
      do m1 <- free_all (g_mem g) (g_cells g) ;
      do m2 <- release a m1 ;
      Ok {| g_array := None; g_cells := []; g_mem := m2 |}
  end.

(** doWork from the LVEs on, packagetool.c:96-143.  [extra]: copyExtraFiles succeeds; [manifest]: createManifestFile does; [rest]: encryption, archive
    and removal of the temporary folder do.  The result: what the manifest lists, whether cleanUp has been called, and the variables at the end. *)
Definition do_work (enc : bool) (oks : list bool) (dir : bool) (present copied : bytes -> bool) (extra manifest rest : bool) (names : list bytes) : outcome (option (list bytes) * bool * globals) :=
  do (ok, g) <- copy_lve enc oks dir present copied names at_start ;
  if ok && extra then
    do l <- add_encryption enc g ;
    if manifest && rest then do g' <- clean_up g ; Ok (Some l, true, g') else Ok (Some l, false, g)
  else Ok (None, false, g).
