(** C89: room on the stack for decryption. *)
From Verif Require Import Base BaseProofs WireModel CryptModel CryptSpec CbcProofs MaskProofs DemaskProofs CryptProofs CryptProps NestModel NestSpec NestProofs.

(** ** C89 *)

(** Room for two frames per separator of the requested path, and two more, is enough, whatever is on the disk, was requested before
    and is in the file; with the mask of the directory at hand one frame is enough. *)
Theorem C89_room_partial : forall pr K disk basedir t rel file room,
  (2 * separators rel + 2 <= room -> decrypt_room room pr K disk basedir t rel file <> Blocked) /\
  (forall m, caseeq (snd (split_path rel)) (B "package.moc") = false ->
     find_mask t (match fst (split_path rel) with Some d => d | None => [SLASH] end) = Some m ->
     1 <= room -> decrypt_room room pr K disk basedir t rel file <> Blocked).
Proof.
  intros pr K disk basedir t rel file room. split.
  - intros R H. apply decrypt_with_blocked in H. exact (room_enough pr K disk basedir (separators rel) room t rel K (le_n _) R H).
  - intros m C F R H. apply decrypt_with_blocked in H. destruct room as [|room]; [lia|].
    rewrite (room_cached pr K disk basedir room t rel K m C F) in H. discriminate.
Qed.
Print Assumptions C89_room_partial.

(** The room needed is not bounded by the depth of the library: a file of the top directory, requested with "./" in front of its
    name as often as there are two frames of room, needs more frames than there are, whatever the library is. *)
Theorem C89_spelled_refuted : forall pr K disk basedir name file n,
  Name name -> caseeq name (B "package.moc") = false -> 2 * n + length name <= 4000 ->
  length (dotted n name) = 2 * n + length name /\
  decrypt_room (2 * n + 1) pr K disk basedir [] (dotted n name) file = Blocked.
Proof.
  intros pr K disk basedir name file n N C L. split; [apply dotted_length|].
  unfold decrypt_room, decrypt_with. rewrite dotted_path.
  pose proof (room_needed pr K disk basedir (repeat (B ".") n)) as H. rewrite repeat_length in H. rewrite H; [reflexivity| | |apply N|now apply name_noslash|exact C|].
  - apply Forall_forall. intros x I. apply repeat_spec in I. subst x. exact name_dot.
  - apply Forall_forall. intros x I. apply repeat_spec in I. now subst x.
  - rewrite <- dotted_path, dotted_length. exact L.
Qed.
Print Assumptions C89_spelled_refuted.

(** The bound of C89_room_partial is reached: the first request for a file [length d] directories down needs all of that room. *)
Theorem C89_needed : forall pr K disk basedir d name file,
  Forall Name d -> Forall (fun c => caseeq c (B "package.moc") = false) d -> Name name -> caseeq name (B "package.moc") = false ->
  length (path_of d name) <= 4000 ->
  separators (path_of d name) = length d /\ decrypt_room (2 * length d + 1) pr K disk basedir [] (path_of d name) file = Blocked.
Proof.
  intros pr K disk basedir d name file F C N Cn L. split; [now apply sep_path|].
  unfold decrypt_room, decrypt_with. rewrite (room_needed pr K disk basedir d F C); [reflexivity|apply N|now apply name_noslash|exact Cn|exact L].
Qed.
Print Assumptions C89_needed.

(** 8 MiB hold at most 1024 frames; a path of 1029 characters needs more. *)
Example C89_ex : (1024 * Z.of_nat FRAME = 2 ^ 23)%Z /\
  (forall disk file, decrypt_room 1025 toy toy_key disk (B "/lib") [] (dotted 512 (B "M.moc")) file = Blocked) /\
  (exists r, decrypt_room 2 toy toy_key (disk_of (B "/lib") toy_library toy_outs) (B "/lib") [] (B "M.moc") (nth 1 toy_outs []) = Ok r) /\
  decrypt_room 5 toy toy_key (disk_of (B "/lib") toy_library toy_outs) (B "/lib") [] (moc_path deep_model) (nth 5 toy_outs []) = Blocked /\
  (exists t, decrypt_room 6 toy toy_key (disk_of (B "/lib") toy_library toy_outs) (B "/lib") [] (moc_path deep_model) (nth 5 toy_outs []) =
             Ok (t, 14%Z, n_data deep_model)).
Proof.
  split; [reflexivity|]. split.
  { intros disk file. apply (C89_spelled_refuted toy toy_key disk (B "/lib") (B "M.moc") file 512); [now apply name_check|reflexivity|].
    apply Nat.leb_le. reflexivity. }
  split; [eexists; vm_compute; reflexivity|]. split; [vm_compute; reflexivity|]. eexists. vm_compute. reflexivity.
Qed.
