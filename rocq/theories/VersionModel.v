(** Model of what the LVE prints for --version: print_version, /repo/src/lve/lve.c:45-61. *)
From Verif Require Import Base.

(** TOOLS_LIST_JSON_STRING, src/CMakeLists.txt:357-367: the lines of tools.txt with [", "] between them, in [\["] and ["\]].
    Simplified: lines with characters that are special to CMake or in C literals are taken as they are. *)
Definition QUOTE : byte := ch 34.
Fixpoint join_tools (ts : list bytes) : bytes :=
  match ts with
  | [] => []
  | [t] => t
  | t :: r => t ++ [QUOTE] ++ B ", " ++ [QUOTE] ++ join_tools r
  end.
Definition tools_json (ts : list bytes) : bytes := B "[" ++ [QUOTE] ++ join_tools ts ++ [QUOTE] ++ B "]".

(** One line of the text: four spaces, the name in quotes, a colon and a space. *)
Definition label (name : bytes) : bytes := B "    " ++ [QUOTE] ++ name ++ [QUOTE] ++ B ": ".

(** print_version, lve/lve.c:48-60.  [name] is CMAKE_PROJECT_NAME, [version] CMAKE_PROJECT_VERSION, [tools] the lines of tools.txt
    if that file existed (lve/lve.c:50,55). *)
Definition print_version (name version : bytes) (tools : option (list bytes)) : bytes :=
  B "{" ++ [LF] ++ label (B "name") ++ [QUOTE] ++ name ++ [QUOTE] ++ B "," ++ [LF] ++
  label (B "version") ++ [QUOTE] ++ version ++ [QUOTE] ++ B "," ++ [LF] ++
  match tools with
  | Some ts => label (B "tools") ++ tools_json ts ++ B "," ++ [LF]
  | None => []
  end ++ B "}" ++ [LF].
