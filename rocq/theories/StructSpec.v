(** The structure of a manifest as doc/SEMLA.md:148-220 gives it, without reference to the code. *)
From Verif Require Import Base XmlSpec.

(** An element with these attributes; its path consists of the names of the elements from the root on. *)
Inductive Found : node -> list bytes -> list (bytes * bytes) -> Prop :=
| Found_root n a k : Found (Elem n a k) [n] a
| Found_below n a k x p b : In x k -> Found x p b -> Found (Elem n a k) (n :: p) b.

(** The elements, with the names of their attributes (doc/SEMLA.md:152-190; what is an attribute and what an element is taken from the
    examples, doc/SEMLA.md:196-263, 584-640). *)
Definition documented : list (list bytes * list bytes) :=
  let archive := B "archive" in let library := B "library" in let dependencies := B "dependencies" in let dependency := B "dependency" in
  let versions := B "versions" in let version := B "version" in let providers := B "providers" in
  [([archive], []);
   ([archive; B "manifest"], [B "version"]);
   ([archive; library], [B "id"; B "enabled"]);
   ([archive; library; B "title"], []);
   ([archive; library; B "description"], []);
   ([archive; library; version], [B "number"; B "build"; B "date"]);
   ([archive; library; B "language"], [B "version"]);
   ([archive; library; B "copyright"], []);
   ([archive; library; B "license"], []);
   ([archive; library; B "encryption"], []);
   ([archive; library; B "encryption"; B "executable"], [B "path"; B "platform"; B "licensing"]);
   ([archive; library; B "icon"], [B "file"]);
   ([archive; library; B "compatibility"], []);
   ([archive; library; B "compatibility"; B "tool"], [B "name"; B "minversion"]);
   ([archive; dependencies], []);
   ([archive; dependencies; dependency], [B "id"]);
   ([archive; dependencies; dependency; versions], []);
   ([archive; dependencies; dependency; versions; version], [B "number"]);
   ([archive; dependencies; dependency; versions; version; providers], []);
   ([archive; dependencies; dependency; versions; version; providers; B "provider"], [B "name"; B "uri"])].
(** All elements of a document that is put below [above] are such elements. *)
Definition Conforms (above : list bytes) (x : node) : Prop :=
  forall p a, Found x p a -> exists names, In (above ++ p, names) documented /\ incl (map fst a) names.
(** The mandatory fields (doc/SEMLA.md:158-168). *)
Definition mandatory : list (list bytes * bytes) :=
  [([B "archive"; B "library"], B "id");
   ([B "archive"; B "library"; B "version"], B "number");
   ([B "archive"; B "library"; B "language"], B "version")].
Definition Complete (x : node) : Prop :=
  forall p k, In (p, k) mandatory -> exists a v, Found x p a /\ In (k, v) a.
(** The platforms (doc/SEMLA.md:174). *)
Definition platforms : list bytes := [B "win32"; B "win64"; B "linux32"; B "linux64"].
