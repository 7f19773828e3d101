(** The meaning of the conditions of the expected listings, and the compilers the build reports. *)
From Coq Require Import NArith Bool List Ascii String.
From Verif Require Import PyText Codegen CodegenSample.
Import ListNotations.
Open Scope N_scope.

(** Versions are ordered like the entries of a dictionary. *)
Inductive before : version -> version -> Prop :=
| before_end x b : before [] (x :: b)
| before_here x y a b : x < y -> before (x :: a) (y :: b)
| before_later x a b : before a b -> before (x :: a) (x :: b).

(** test/codegen/CMakeLists.txt 13-41: the compilers told apart, by the words passed to the script. *)
Inductive compiler : Type :=
| MSVC | ClangCl | ClangLibcpp | ClangOldLibstdcpp | ClangLibstdcpp | Gcc | GccOldLibstdcpp | Icx | Unknown.
Definition compilers : list compiler :=
  [MSVC; ClangCl; ClangLibcpp; ClangOldLibstdcpp; ClangLibstdcpp; Gcc; GccOldLibstdcpp; Icx; Unknown].
Definition words (c : compiler) : list text :=
  map txt
  match c with
  | MSVC => ["msvc"]
  | ClangCl => ["clang-cl"]
  | ClangLibcpp => ["clang"; "libcpp"]
  | ClangOldLibstdcpp => ["clang"; "old-libstdcpp"]
  | ClangLibstdcpp => ["clang"; "libstdcpp"]
  | Gcc => ["gcc"]
  | GccOldLibstdcpp => ["gcc"; "old-libstdcpp"]
  | Icx => ["icx"]
  | Unknown => ["unknown"]
  end%string.

(** The listings of sample.cpp. *)
Definition sections : list section :=
  match parse_expected (map txt sample_cpp) with Some l => l | None => [] end.

(** The functions that have listings. *)
Definition functions : list text := nodup (list_eq_dec ascii_dec) (map name sections).

Section Meaning.
Context (ids : list text) (v : version) (ss : list section).

(** No condition raises an exception. *)
Definition readable : Prop := forall s c, In s ss -> conditions s = Some c -> match_condition ids v c <> None.

(** A listing applies if its condition matches, or if it has none and no condition for the same function matches. *)
Definition applies (s : section) : Prop :=
  match conditions s with
  | Some c => match_condition ids v c = Some true
  | None => forall s' c, In s' ss -> name s' = name s -> conditions s' = Some c -> match_condition ids v c <> Some true
  end.
End Meaning.
