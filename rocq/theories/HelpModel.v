(** Model of the help text of the packaging tool: /repo/src/packagetool/arguments.c:459-589.  What is printed is the result. *)
From Verif Require Import Base ArgsModel.

Definition TAB : byte := ch 9.

(** printTabs, arguments.c:459-465. *)
Definition print_tabs (n : nat) : bytes := repeat TAB n.

(** The inner loop of printAligned, arguments.c:477-480, 491-493: the characters up to the next space, and the rest from it on. *)
Fixpoint next_word (s : bytes) : bytes * bytes :=
  match s with
  | [] => ([], [])
  | c :: r => if Ascii.eqb c SP then ([], s) else let '(w, t) := next_word r in (c :: w, t)
  end.

(** The outer loop of printAligned, arguments.c:476-503: [s] are the characters from i on.  [fuel] is at least the number of these
    characters, each round uses one.  The space is skipped, arguments.c:496, and printed if something follows, arguments.c:500-502. *)
Fixpoint aligned_loop (fuel : nat) (s : bytes) (printed max level : nat) : bytes :=
  match fuel, s with
  | 0, _ | _, [] => []
  | S n, _ =>
      let '(w, t) := next_word s in
      let wrap := max <=? printed + length w in
      let r := tl t in
      (if wrap then LF :: print_tabs level else []) ++ w ++ (match r with [] => [] | _ => [SP] end) ++
      aligned_loop n r (S ((if wrap then 0 else printed) + length w)) max level
  end.

(** printAligned, arguments.c:467-507.  Simplified: int is unbounded. *)
Definition print_aligned (s : bytes) (max level : nat) : bytes :=
  print_tabs level ++ aligned_loop (length s) s 0 max level ++ [LF].

(** mandatoryArgs, arguments.c:524-529. *)
Definition mandatory_help : list (bytes * bytes) := [
  (B "language", B "Version of the Modelica language the library uses.");
  (B "librarypath", B "Path to the top-level directory. If this argument is missing or the path is wrong, the tool will abort since it's not possible to build a container.");
  (B "version", B "The version number of the library.")].
(** optionalArgs, arguments.c:532-549. *)
Definition optional_help : list (bytes * bytes) := [
  (B "build", B "Build number of the library.");
  (B "copyright", B "Textual copyright information.");
  (B "date", B "Release date of the library.");
  (B "dependencies", B "Adds a list of libraries (in an xml file) that this library depends on. If the supplied path to the dependency-xml file is wrong the tool will abort.");
  (B "description", B "Description of the library.");
  (B "enabled", B "If the library should be loaded by default.");
  (B "encrypt", B "If the value of this argument is true then LVEs must be copied to the .library directory of the source structure. If the path to copy from is wrong or LVEs are missing or have the wrong names the tool will abort.");
  (B "icon", B "An icon to use for the library. If the supplied path to the icon file is wrong or the file can't be located in the library structure the tool will abort.");
  (B "license", B "Textual license information.");
  (B "title", B "Official title of the library.");
  (B "tools", B "Adds a list of Modelica tools (in an xml file) that this library is compatible with. If the supplied path to the tool-xml file is wrong the tool will abort.")].

(** The loops over the entries, arguments.c:565-568, 573-576. *)
Definition print_entries (l : list (bytes * bytes)) : bytes :=
  concat (map (fun e => [TAB; MINUS] ++ fst e ++ [LF] ++ print_aligned (snd e) 64 2) l).

(** printArgumentHelp, arguments.c:512-589, with maxLength 80 and tabSz 8. *)
Definition argument_help : bytes :=
  B "SYNOPSIS" ++ [LF; TAB] ++ B "packagetool <-arg1> <value1> <-arg2> <value2> ..." ++ [LF; LF] ++
  B "DESCRIPTION" ++ [LF] ++
  print_aligned (B "Tool for packaging a Modelica library into a container for distribution. The container is a zip file with a .mol file extension. It contains one top-level directory and several subdirectories according to the Modelica structure.") 72 1 ++ [LF] ++
  [TAB] ++ B "Mandatory:" ++ [LF] ++ print_entries mandatory_help ++ [LF] ++
  [TAB] ++ B "Optional:" ++ [LF] ++ print_entries optional_help ++
  [TAB] ++ B "-h" ++ B ", " ++ B "--help" ++ [LF] ++ print_aligned (B "Print help information.") 64 2 ++
  B "COPYRIGHT" ++ [LF; TAB] ++ B "Modelon 2017-2019" ++ [LF] ++
  B "SEE ALSO" ++ [LF; TAB] ++ B "Full documentation, LibraryEncryption_PackageTool.docx" ++ [LF].
