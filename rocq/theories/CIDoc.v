(** The compilers that README.md says the library is tested with, and which runs of the workflow are about them.

    Models: README.md 157-162. *)
From Coq Require Import Bool List Ascii String.
From Verif Require Import CMakeLang CMakeRules CMakeSpec CMakeExternal CILang CISpec.
Import ListNotations.
Open Scope string_scope.
Open Scope list_scope.

(** README.md 158-162 *)
Definition readme_compilers : list string :=
  ["- GCC: 14.0.1, 13.2.0, 12.3.0, 11.4.0";
   "- Clang: 18.1.3, 17.0.6, 16.0.6, 15.0.7, 14.0.0, 13.0.1, 12.0.1, 11.1.0, 10.0.0, 9.0.1 ([`libc++`][libc++] and [`libstdc++`][libstdc++])";
   "- MSVC: 19.40.33813.0 (VS v143)";
   "- ClangCL: 17.0.3";
   "- IntelLLVM: 2024.2.1"].

(** One line: "- name: version, version (remark)". *)
Fixpoint after (c : ascii) (s : string) : string :=
  match s with EmptyString => EmptyString | String d r => if Ascii.eqb c d then r else after c r end.
Fixpoint no_blanks (s : string) : string :=
  match s with EmptyString => EmptyString | String d r => if Ascii.eqb " " d then no_blanks r else String d (no_blanks r) end.
Definition family (line : string) : string := no_blanks (up_to ":" (after " " line)).
Definition versions (line : string) : list string := map no_blanks (split_commas (up_to "(" (after ":" line)) "").
Definition majors (line : string) : list string := map (up_to ".") (versions line).
Definition remark (line : string) : string := up_to ")" (after "(" line).
Fixpoint has (w s : string) : bool :=
  String.prefix w s || match s with EmptyString => false | String _ r => has w r end.
(** The standard libraries of a line, if it names some; a version of Visual Studio. *)
Definition libraries (line : string) : list string := filter (fun l => has ("`" ++ l ++ "`")%string (remark line)) ["libc++"; "libstdc++"].
Definition toolset (line : string) : string := if String.prefix "VS " (remark line) then after " " (remark line) else "".

(** A configuration is about a compiler: its name, its major version, and the standard library if it matters. *)
Definition uses (line major lib : string) (r : run) (env : list (string * string)) (c : configure) : bool :=
  let x := field (env ++ r_env r) "CXX" in
  let l := if mem "--stdlib=libc++" (command_words Bash (field (env ++ r_env r) "CXXFLAGS")) then "libc++" else "libstdc++" in
  if String.eqb (family line) "GCC" then String.eqb (c_toolset c) "" && String.eqb x ("g++-" ++ major)
  else if String.eqb (family line) "Clang" then String.eqb (c_toolset c) "" && String.eqb x ("clang++-" ++ major) && String.eqb l lib
  else if String.eqb (family line) "MSVC" then String.eqb (c_toolset c) (toolset line)
  else if String.eqb (family line) "ClangCL" then String.eqb (c_toolset c) "ClangCL"
  else String.eqb (family line) "IntelLLVM" && String.eqb x "icpx".
(** What is documented: a line with one of its versions and one of its libraries. *)
Definition documented (line major lib : string) : Prop :=
  In line readme_compilers /\ In major (majors line) /\ (libraries line = [] \/ In lib (libraries line)).
(** The test is run in directory d for a configuration. *)
Definition test_run (r : run) (d cfg : string) (env : list (string * string)) (c : configure) : Prop :=
  exists pre env0 post, r_actions r = pre ++ (env0, Build d cfg (Some "run-option-test")) :: post /\
    configured_in d pre = Some (env, c).
(** The sanitizers that are in use for a compiler. *)
Definition address_for (line : string) : bool := negb (mem (family line) ["ClangCL"; "IntelLLVM"]).
Definition undefined_for (line : string) : bool := negb (mem (family line) ["MSVC"; "IntelLLVM"]).
