(** Reading XML, as in the XML 1.0 recommendation.  Independent of the packaging tool.

    Read: the XML declaration, elements, attributes, character data, the five predefined entities.
    Not read (such documents are rejected): comments, CDATA sections, other processing instructions,
    document types, numeric character references, '>' in character data. *)
From Verif Require Import Base.

Definition TAB : byte := ch 9.
Definition LT : byte := ch 60.
Definition GT : byte := ch 62.
Definition QUOT : byte := ch 34.
Definition APOS : byte := ch 39.
Definition AMP : byte := ch 38.
Definition SEMI : byte := ch 59.
Definition EQUALS : byte := ch 61.

(** ** Characters *)

Definition in_range (lo hi : nat) (c : byte) : Prop := lo <= nat_of_ascii c <= hi.
(** Characters allowed in a document (section 2.2) in UTF-8: no control characters except tab and
    line ends, no surrogates, no U+FFFE and U+FFFF. *)
Inductive XmlChar : bytes -> Prop :=
| XC_control c : c = TAB \/ c = LF \/ c = CR -> XmlChar [c]
| XC_ascii c : in_range 32 127 c -> XmlChar [c]
| XC_2 a b : in_range 194 223 a -> in_range 128 191 b -> XmlChar [a; b]
| XC_3 a b c : in_range 224 239 a -> in_range 128 191 b -> in_range 128 191 c ->
    (nat_of_ascii a = 224 -> 160 <= nat_of_ascii b) -> (nat_of_ascii a = 237 -> nat_of_ascii b <= 159) ->
    (nat_of_ascii a = 239 -> nat_of_ascii b = 191 -> nat_of_ascii c <= 189) -> XmlChar [a; b; c]
| XC_4 a b c d : in_range 240 244 a -> in_range 128 191 b -> in_range 128 191 c -> in_range 128 191 d ->
    (nat_of_ascii a = 240 -> 144 <= nat_of_ascii b) -> (nat_of_ascii a = 244 -> nat_of_ascii b <= 143) -> XmlChar [a; b; c; d].
(** A sequence of such characters. *)
Inductive XmlText : bytes -> Prop :=
| XT_nil : XmlText []
| XT_cons c s : XmlChar c -> XmlText s -> XmlText (c ++ s).

(** ** Documents *)

Inductive node :=
| Elem (name : bytes) (attrs : list (bytes * bytes)) (kids : list node)
| Text (s : bytes).

Definition is_space (c : byte) : bool := Ascii.eqb c SP || Ascii.eqb c TAB || Ascii.eqb c LF || Ascii.eqb c CR.
Fixpoint skip_space (s : bytes) : bytes :=
  match s with
  | c :: r => if is_space c then skip_space r else s
  | [] => []
  end.

(** Line ends are normalised before anything else (section 2.11). *)
Fixpoint line_ends (s : bytes) : bytes :=
  match s with
  | [] => []
  | c :: r => if Ascii.eqb c CR then LF :: match r with
                                           | d :: r' => if Ascii.eqb d LF then line_ends r' else line_ends r
                                           | [] => []
                                           end
              else c :: line_ends r
  end.

(** Names (section 2.3): letters, digits and some signs; bytes from 128 on count as letters. *)
Definition name_start (c : byte) : bool :=
  let n := nat_of_ascii c in
  ((65 <=? n) && (n <=? 90)) || ((97 <=? n) && (n <=? 122)) || (n =? 58) || (n =? 95) || (128 <=? n).
Definition name_char (c : byte) : bool :=
  let n := nat_of_ascii c in name_start c || (n =? 45) || (n =? 46) || ((48 <=? n) && (n <=? 57)).
Fixpoint name_chars (s : bytes) : bytes * bytes :=
  match s with
  | c :: r => if name_char c then let '(n, r') := name_chars r in (c :: n, r') else ([], s)
  | [] => ([], [])
  end.
Definition read_name (s : bytes) : option (bytes * bytes) :=
  match s with
  | c :: _ => if name_start c then Some (name_chars s) else None
  | [] => None
  end.

(** Predefined entities (section 4.6). *)
Definition entity (n : bytes) : option byte :=
  if beq n (B "lt") then Some LT else if beq n (B "gt") then Some GT else if beq n (B "amp") then Some AMP
  else if beq n (B "quot") then Some QUOT else if beq n (B "apos") then Some APOS else None.

(** Characters up to [stop], with references replaced: [ref] is the name of the reference being read.
    [norm] is applied to the characters that are not from a reference. *)
Fixpoint chars (stop : byte) (norm : byte -> byte) (ref : option bytes) (s : bytes) : option (bytes * bytes) :=
  match s with
  | [] => None
  | c :: r =>
      match ref with
      | None =>
          if Ascii.eqb c stop then Some ([], s)
          else if Ascii.eqb c AMP then chars stop norm (Some []) r
          else if Ascii.eqb c LT || Ascii.eqb c GT then None
          else match chars stop norm None r with Some (t, r') => Some (norm c :: t, r') | None => None end
      | Some n =>
          if Ascii.eqb c SEMI then
            match entity n with
            | Some d => match chars stop norm None r with Some (t, r') => Some (d :: t, r') | None => None end
            | None => None
            end
          else chars stop norm (Some (n ++ [c])) r
      end
  end.
(** Attribute values: white space becomes a space (section 3.3.3). *)
Definition attribute_char (c : byte) : byte := if is_space c then SP else c.

(** Attributes up to the end of the tag: the attributes, whether the tag is that of an empty
    element, what follows. *)
Fixpoint attributes (fuel : nat) (s : bytes) : option (list (bytes * bytes) * bool * bytes) :=
  match fuel with
  | O => None
  | S f =>
      let s1 := skip_space s in
      match s1 with
      | [] => None
      | c :: r =>
          if Ascii.eqb c GT then Some ([], false, r)
          else if Ascii.eqb c SLASH then
            match r with
            | d :: r' => if Ascii.eqb d GT then Some ([], true, r') else None
            | [] => None
            end
          else if length s1 =? length s then None
          else
            match read_name s1 with
            | Some (n, s2) =>
                match skip_space s2 with
                | e :: s3 =>
                    if Ascii.eqb e EQUALS then
                      match skip_space s3 with
                      | q :: s4 =>
                          if Ascii.eqb q QUOT || Ascii.eqb q APOS then
                            match chars q attribute_char None s4 with
                            | Some (v, _ :: s5) =>
                                match attributes f s5 with
                                | Some (l, b, s6) => Some ((n, v) :: l, b, s6)
                                | None => None
                                end
                            | _ => None
                            end
                          else None
                      | [] => None
                      end
                    else None
                | [] => None
                end
            | None => None
            end
      end
  end.
(** No attribute appears twice (section 3.1). *)
Fixpoint distinct (l : list (bytes * bytes)) : bool :=
  match l with
  | [] => true
  | (n, _) :: r => negb (existsb (fun a => beq n (fst a)) r) && distinct r
  end.
(** A start tag or the tag of an empty element, after its '<'. *)
Definition open_tag (s : bytes) : option (bytes * list (bytes * bytes) * bool * bytes) :=
  match read_name s with
  | Some (n, r) =>
      match attributes (S (length r)) r with
      | Some (l, b, r') => if distinct l then Some (n, l, b, r') else None
      | None => None
      end
  | None => None
  end.
(** An end tag after its "</". *)
Definition close_tag (n : bytes) (s : bytes) : option bytes :=
  match read_name s with
  | Some (m, r) => if beq m n then match skip_space r with
                                   | c :: r' => if Ascii.eqb c GT then Some r' else None
                                   | [] => None
                                   end
                   else None
  | None => None
  end.

(** The contents of an element up to the "</" of its end tag. *)
Fixpoint contents (fuel : nat) (s : bytes) : option (list node * bytes) :=
  match fuel with
  | O => None
  | S f =>
      match s with
      | [] => None
      | c :: r =>
          if Ascii.eqb c LT then
            match r with
            | [] => None
            | d :: r' =>
                if Ascii.eqb d SLASH then Some ([], r')
                else
                  match open_tag r with
                  | None => None
                  | Some (n, a, true, r1) =>
                      match contents f r1 with
                      | Some (ns, r2) => Some (Elem n a [] :: ns, r2)
                      | None => None
                      end
                  | Some (n, a, false, r1) =>
                      match contents f r1 with
                      | None => None
                      | Some (kids, r2) =>
                          match close_tag n r2 with
                          | None => None
                          | Some r3 =>
                              match contents f r3 with
                              | Some (ns, r4) => Some (Elem n a kids :: ns, r4)
                              | None => None
                              end
                          end
                      end
                  end
            end
          else
            match chars LT (fun c => c) None s with
            | None => None
            | Some (t, r1) =>
                match contents f r1 with
                | Some (ns, r2) => Some (Text t :: ns, r2)
                | None => None
                end
            end
      end
  end.

(** The XML declaration. *)
Fixpoint after_declaration (s : bytes) : option bytes :=
  match s with
  | c :: r => match r with
              | d :: r' => if Ascii.eqb c (ch 63) && Ascii.eqb d GT then Some r' else after_declaration r
              | [] => None
              end
  | [] => None
  end.
Definition skip_declaration (s : bytes) : option bytes :=
  if beq (firstn 6 s) (B "<?xml ") then after_declaration s else Some s.

(** A document: one element, with white space around it. *)
Definition read_xml (doc : bytes) : option node :=
  match skip_declaration (line_ends doc) with
  | None => None
  | Some s =>
      match skip_space s with
      | c :: r =>
          if Ascii.eqb c LT then
            match open_tag r with
            | Some (n, a, true, r1) => if beq (skip_space r1) [] then Some (Elem n a []) else None
            | Some (n, a, false, r1) =>
                match contents (S (length r1)) r1 with
                | Some (kids, r2) =>
                    match close_tag n r2 with
                    | Some r3 => if beq (skip_space r3) [] then Some (Elem n a kids) else None
                    | None => None
                    end
                | None => None
                end
            | None => None
            end
          else None
      | [] => None
      end
  end.

(** ** What a document says *)

(** A description of an element. *)
Inductive shape :=
| Container (name : bytes) (attrs : list (bytes * bytes)) (kids : list shape)
| Textual (name : bytes) (text : bytes)    (* exactly this text *)
| Spaced (name : bytes) (text : bytes)     (* this text with white space around it *)
| Foreign (n : node).                      (* this element or text *)
Definition Blank (s : bytes) : Prop := forallb is_space s = true.
(** An element is as described; white space between the elements of a container does not count. *)
Inductive Says : node -> shape -> Prop :=
| Says_container n a ns l : SayAll ns l -> Says (Elem n a ns) (Container n a l)
| Says_empty n : Says (Elem n [] []) (Textual n [])
| Says_text n s : s <> [] -> Says (Elem n [] [Text s]) (Textual n s)
| Says_spaced n a s b : Blank a -> Blank b -> Says (Elem n [] [Text (a ++ s ++ b)]) (Spaced n s)
| Says_foreign x : Says x (Foreign x)
with SayAll : list node -> list shape -> Prop :=
| Say_nil : SayAll [] []
| Say_blank s ns l : Blank s -> SayAll ns l -> SayAll (Text s :: ns) l
| Say_cons x e ns l : Says x e -> SayAll ns l -> SayAll (x :: ns) (e :: l).

(** All elements of a document with their attributes, in document order. *)
Fixpoint elements (x : node) : list (bytes * list (bytes * bytes)) :=
  match x with
  | Elem n a kids => (n, a) :: flat_map elements kids
  | Text _ => []
  end.
