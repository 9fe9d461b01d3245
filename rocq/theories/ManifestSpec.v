(** What a manifest says, without reference to the code that writes it. *)
From Verif Require Import Base XmlSpec.

(** Values that can be written to an XML document and read back: characters allowed in XML, in UTF-8,
    without carriage returns (which XML readers turn into line feeds). *)
Definition Writable (s : bytes) : Prop := XmlText s /\ ~ In CR s.
(** Values of attributes: also without tabs and line feeds (which XML readers turn into spaces). *)
Definition OneLine (s : bytes) : Prop := Writable s /\ ~ In TAB s /\ ~ In LF s.

(** The platform in the name of an executable: between the first '_' and the '.' that follows. *)
Definition Platform (file p : bytes) : Prop :=
  exists pre suf, file = pre ++ [ch 95] ++ p ++ suf /\ ~ In (ch 95) pre /\ ~ In DOT p /\
    (suf = [] \/ exists r, suf = DOT :: r).
(** The executables in a list with gaps, with their platforms. *)
Inductive Executables : list (option bytes) -> list (bytes * bytes) -> Prop :=
| Ex_nil : Executables [] []
| Ex_gap l e : Executables l e -> Executables (None :: l) e
| Ex_cons f p l e : Platform f p -> Executables l e -> Executables (Some f :: l) ((f, p) :: e).

(** The contents for an option that may be absent. *)
Definition given {A} (get : bytes -> option bytes) (key : bytes) (f : bytes -> A) : list A :=
  match get key with Some v => [f v] | None => [] end.

(** The manifest (doc/SEMLA.md) of a library: [get] gives the options, [version] and [language] are
    mandatory, [execs] are the executables if the library is encrypted, [icon] is the path of the
    icon, [foreign] are the elements from other files.  [v] is applied to attribute values. *)
Definition manifest_shape (v : bytes -> bytes) (name : bytes) (get : bytes -> option bytes) (version language : bytes)
  (execs : option (list (bytes * bytes))) (icon : option bytes) (foreign : list node) : shape :=
  Container (B "archive") [] [
    Container (B "manifest") [(B "version", B "1.0")] [];
    Container (B "library") ((B "id", v name) :: given get (B "enabled") (fun e => (B "enabled", v e)))
     (given get (B "title") (Textual (B "title")) ++
      given get (B "description") (Spaced (B "description")) ++
      [Container (B "version")
         ((B "number", v version) :: given get (B "build") (fun b => (B "build", v b)) ++ given get (B "date") (fun d => (B "date", v d))) []] ++
      [Container (B "language") [(B "version", v language)] []] ++
      given get (B "copyright") (Spaced (B "copyright")) ++
      given get (B "license") (Spaced (B "license")) ++
      match execs with
      | None => []
      | Some l => [Container (B "encryption") []
                     (map (fun fp => Container (B "executable")
                        [(B "path", v (B ".library/" ++ fst fp)); (B "platform", v (snd fp)); (B "licensing", B "true")] []) l)]
      end ++
      match icon with None => [] | Some p => [Container (B "icon") [(B "file", v p)] []] end ++
      map Foreign foreign)].

(** Lines of text, each ended by a line feed. *)
Definition lines_of (ls : list bytes) : bytes := concat (map (fun l => l ++ [LF]) ls).
(** Lines that can be copied. *)
Definition ShortLine (l : bytes) : Prop := length l < 200 /\ ~ In LF l /\ ~ In NUL l /\ ~ In (ch 255) l.
(** A first line, which is not copied. *)
Definition FirstLine (l : bytes) : Prop := length l <= 200 /\ ~ In LF l /\ ~ In (ch 255) l.

(** Control characters other than white space; there is no way to write them in XML 1.0. *)
Definition control (c : byte) : Prop := nat_of_ascii c < 32 /\ c <> TAB /\ c <> LF /\ c <> CR.
(** Options whose values are always written to the manifest. *)
Definition written : list bytes :=
  [B "enabled"; B "title"; B "description"; B "version"; B "language"; B "copyright"; B "license"].

(** A document in a file: the first line is the XML declaration, the other lines can be copied. *)
Definition Document (file : bytes) (n : node) : Prop :=
  exists d ls, file = B "<?xml " ++ d ++ B "?>" ++ [LF] ++ lines_of ls /\
    ~ In (ch 63) d /\ ~ In LF d /\ length d <= 190 /\ Forall ShortLine ls /\ Writable file /\ read_xml file = Some n.

(** ** From the command line *)

(** The value given for an option. *)
Definition option_of (o : list (bytes * bytes)) (k : bytes) : option bytes :=
  match find (fun kv => beq (fst kv) k) o with Some kv => Some (snd kv) | None => None end.
(** Encryption is wanted. *)
Definition encrypted (o : list (bytes * bytes)) : bool :=
  match option_of o (B "encrypt") with Some v => beq (map lower v) (B "true") | None => false end.
(** The document named by an option: none if the option is not given. *)
Definition Named (read : bytes -> option bytes) (o : list (bytes * bytes)) (k : bytes) (ns : list node) : Prop :=
  match option_of o k with
  | None => ns = []
  | Some p => exists f n, read p = Some f /\ Document f n /\ ns = [n]
  end.
(** The executables that are shipped (packagetool/utils.c:60) and their platforms. *)
Definition shipped : list (bytes * bytes) :=
  [(B "lve_win32.exe", B "win32"); (B "lve_win64.exe", B "win64"); (B "lve_linux32", B "linux32");
   (B "lve_linux64", B "linux64"); (B "lve_darwin64", B "darwin64")].
(** The executables in a list with gaps, with the platforms of the table above. *)
Definition present (l : list (option bytes)) : list (bytes * bytes) :=
  flat_map (fun x => match x with
                     | None => []
                     | Some f => match option_of shipped f with Some p => [(f, p)] | None => [] end
                     end) l.
(** The elements for executables. *)
Definition executables (l : list (bytes * list (bytes * bytes))) : list (bytes * list (bytes * bytes)) :=
  filter (fun e => beq (fst e) (B "executable")) l.
