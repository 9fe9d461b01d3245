(** Model of /repo/src/packagetool/manifest.c: the manifest file.
    Output to the manifest file always succeeds once it is open. *)
From Verif Require Import Base ArgsModel.

(** The state of the XML printer, manifest.c:35-41: what is in the file, xml_indent,
    xml_in_attributes, xml_on_new_line. *)
Record xml := { x_out : bytes; x_indent : nat; x_attr : bool; x_nl : bool }.
Definition put (s : bytes) (x : xml) : xml :=
  {| x_out := x_out x ++ s; x_indent := x_indent x; x_attr := x_attr x; x_nl := x_nl x |}.
Definition set_nl (b : bool) (x : xml) : xml :=
  {| x_out := x_out x; x_indent := x_indent x; x_attr := x_attr x; x_nl := b |}.
Definition set_attr (b : bool) (x : xml) : xml :=
  {| x_out := x_out x; x_indent := x_indent x; x_attr := b; x_nl := x_nl x |}.
Definition set_indent (n : nat) (x : xml) : xml :=
  {| x_out := x_out x; x_indent := n; x_attr := x_attr x; x_nl := x_nl x |}.

(** print_escaped_text, manifest.c:50-74. *)
Definition escape (c : byte) : bytes :=
  let n := nat_of_ascii c in
  if n =? 60 then B "&lt;"
  else if n =? 62 then B "&gt;"
  else if n =? 34 then B "&quot;"
  else if n =? 38 then B "&amp;"
  else [c].
Definition escaped (s : bytes) : bytes := flat_map escape s.
Definition print_escaped_text (s : bytes) (x : xml) : xml := put (escaped s) x.

(** add_xml_indent, manifest.c:80-89; XML_INDENT_STR, manifest.c:43. *)
Definition add_xml_indent (x : xml) : xml :=
  set_nl false (if x_nl x then put (repeat (ch 9) (x_indent x)) x else x).
(** end_xml_attributes, manifest.c:96-106. *)
Definition end_xml_attributes (newline : bool) (x : xml) : xml :=
  if x_attr x then
    let x1 := set_attr false (put (B ">") x) in
    if newline then set_nl true (put [LF] x1) else x1
  else x.
(** xml_open, manifest.c:112-120. *)
Definition xml_open (elem : bytes) (x : xml) : xml :=
  let x1 := put (B "<" ++ elem) (add_xml_indent (end_xml_attributes true x)) in
  set_indent (S (x_indent x1)) (set_nl false (set_attr true x1)).
(** xml_close, manifest.c:126-137; xml_indent is not below 1 when it is called. *)
Definition xml_close (elem : bytes) (x : xml) : xml :=
  let x1 := set_indent (x_indent x - 1) x in
  let x2 := if x_attr x1 then set_attr false (put (B "/>" ++ [LF]) x1)
            else put (B "</" ++ elem ++ B ">" ++ [LF]) (add_xml_indent x1) in
  set_nl true x2.
(** xml_attribute, manifest.c:145-150. *)
Definition xml_attribute (attr value : bytes) (x : xml) : xml :=
  put (B """") (print_escaped_text value (put (B " " ++ attr ++ B "=""") x)).
(** xml_text, manifest.c:156-165. *)
Definition xml_text (text : bytes) (separate_line : bool) (x : xml) : xml :=
  let x1 := print_escaped_text text (add_xml_indent (end_xml_attributes separate_line x)) in
  if separate_line then set_nl true (put [LF] x1) else x1.
(** xml_init, manifest.c:171-176, with an empty file. *)
Definition xml_init : xml := {| x_out := []; x_indent := 0; x_attr := false; x_nl := true |}.

(** add_value_attribute, manifest.c:211-219. *)
Definition add_value_attribute (t : slots) (element argument : bytes) (x : xml) : xml :=
  match value_of t argument with Some v => xml_attribute element v x | None => x end.
(** add_value_element_and_text, manifest.c:225-235. *)
Definition add_value_text (t : slots) (element argument : bytes) (separate_line : bool) (x : xml) : xml :=
  match value_of t argument with
  | Some v => xml_close element (xml_text v separate_line (xml_open element x))
  | None => x
  end.
(** add_value_element_and_attribute, manifest.c:241-251. *)
Definition add_value_element (t : slots) (element attribute argument : bytes) (x : xml) : xml :=
  match value_of t argument with
  | Some v => xml_close element (xml_attribute attribute v (xml_open element x))
  | None => x
  end.

(** addHeader, manifest.c:257-264. *)
Definition add_header (x : xml) : xml :=
  xml_close (B "manifest") (xml_attribute (B "version") (B "1.0") (xml_open (B "manifest")
    (xml_open (B "archive") (put (B "<?xml version=""1.0"" encoding=""utf-8""?>" ++ [LF]) x)))).
(** addLibraryHeader, manifest.c:271-294; [name]: getLibraryName(). *)
Definition add_library_header (t : slots) (name : bytes) (x : xml) : xml :=
  let x := xml_attribute (B "id") name (xml_open (B "library") x) in
  let x := add_value_attribute t (B "enabled") (B "enabled") x in
  let x := add_value_text t (B "title") (B "title") false x in
  let x := add_value_text t (B "description") (B "description") true x in
  let x := match value_of t (B "version") with
           | Some v => xml_close (B "version")
                         (add_value_attribute t (B "date") (B "date")
                            (add_value_attribute t (B "build") (B "build")
                               (xml_attribute (B "number") v (xml_open (B "version") x))))
           | None => x
           end in
  let x := add_value_element t (B "language") (B "version") (B "language") x in
  let x := add_value_text t (B "copyright") (B "copyright") true x in
  add_value_text t (B "license") (B "license") true x.

(** MAX_STRING and MAX_PATH_LENGTH, utils.h:26,28. *)
Definition MAX_STRING : nat := 200.
Definition MAX_PATH_LENGTH : nat := 2048.
(** extractPlatform, manifest.c:401-434: the part of the file name after the first '_' is copied to
    a buffer of MAX_STRING bytes and cut at its first '.'. *)
Definition extract_platform (file : bytes) : outcome bytes :=
  match find_byte (ch 95) file with
  | None => Ok []
  | Some i =>
      let p := skipn (S i) file in
      if MAX_STRING <=? length p then UB OobWrite
      else Ok (match find_byte DOT p with Some j => firstn j p | None => p end)
  end.
(** The loop of addEncryption, manifest.c:318-336, over the list of copied executables; None is a
    null pointer. *)
Fixpoint add_executables (l : list (option bytes)) (x : xml) : outcome xml :=
  match l with
  | [] => Ok x
  | None :: r => add_executables r x
  | Some file :: r =>
      do platform <- extract_platform file ;
      add_executables r
        (xml_close (B "executable")
          (xml_attribute (B "licensing") (B "true")
            (xml_attribute (B "platform") platform
              (xml_attribute (B "path") (snprintf MAX_PATH_LENGTH (B ".library/" ++ file))
                (xml_open (B "executable") x)))))
  end.
(** addEncryption, manifest.c:299-339. *)
Definition add_encryption (t : slots) (lves : list (option bytes)) (x : xml) : outcome xml :=
  if using_encryption t then
    do x1 <- add_executables lves (xml_open (B "encryption") x) ;
    Ok (xml_close (B "encryption") x1)
  else Ok x.
(** addIcon, manifest.c:346-354; [icon]: getIconPath(). *)
Definition add_icon (t : slots) (icon : option bytes) (x : xml) : outcome xml :=
  if contains_key t (B "icon") then
    match icon with
    | Some p => Ok (xml_close (B "icon") (xml_attribute (B "file") p (xml_open (B "icon") x)))
    | None => UB NullDeref
    end
  else Ok x.

(** The size of lineBuffer, manifest.c:448. *)
Definition LINE_BUFFER : nat := 200.
(** The loop of copyFileInformation, manifest.c:454-475: [line] is what is in lineBuffer (the rest of
    it is 0), [first] is firstLine.  getc returns an int but is stored in a char, so that a byte 255
    looks like EOF.  A line that fills the buffer has no NUL behind it. *)
Fixpoint copy_lines (file line : bytes) (first : bool) (x : xml) : outcome xml :=
  match file with
  | [] => Ok x
  | c :: r =>
      if Ascii.eqb c (ch 255) then Ok x
      else if Ascii.eqb c LF then
        if first then copy_lines r [] false x
        else if has_byte NUL line || (length line <? LINE_BUFFER)
        then copy_lines r [] false (put (cstr line ++ [LF]) (add_xml_indent x))
        else UB OobRead
      else if length line <? LINE_BUFFER then copy_lines r (line ++ [c]) first x
      else UB OobWrite
  end.
(** copyFileInformation, manifest.c:442-479; [file]: what the file holds, None if it cannot be
    opened (then fclose gets a null pointer). *)
Definition copy_file_information (file : option bytes) (x : xml) : outcome xml :=
  match file with
  | None => UB NullDeref
  | Some f => do x1 <- copy_lines f [] true x ; Ok (set_nl true x1)
  end.
(** addTools, manifest.c:361-370, and addDependencies, manifest.c:378-387. *)
Definition add_file (read : bytes -> option bytes) (t : slots) (argument : bytes) (x : xml) : outcome xml :=
  match value_of t argument with
  | Some p => copy_file_information (read p) x
  | None => Ok x
  end.
(** addFooter, manifest.c:392-396. *)
Definition add_footer (x : xml) : xml := xml_close (B "archive") (xml_close (B "library") x).

(** createManifestFile, manifest.c:182-205: what is in the file afterwards.  [opened]: fopen
    succeeds; if it does not, fprintf gets a null pointer. *)
Definition create_manifest (opened : bool) (read : bytes -> option bytes) (lves : list (option bytes))
  (icon : option bytes) (t : slots) : outcome (slots * bytes) :=
  if opened then
    let x := add_header xml_init in
    do (name, t1) <- library_name t ;
    match name with
    | None => UB NullDeref
    | Some n =>
        do x1 <- add_encryption t1 lves (add_library_header t1 n x) ;
        do x2 <- add_icon t1 icon x1 ;
        do x3 <- add_file read t1 (B "tools") x2 ;
        do x4 <- add_file read t1 (B "dependencies") x3 ;
        Ok (t1, x_out (add_footer x4))
    end
  else UB NullDeref.
