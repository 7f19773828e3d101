(** What docs/macros.md and the header promise about the macros, without the interpreter. *)

From Coq Require Import ZArith String List Bool.
Import ListNotations.
From Verif Require Import Preproc.
Open Scope Z_scope.
Open Scope string_scope.

(** The macros that docs/macros.md lists for the user. *)
Definition documented : list string :=
  ["OPTION_USE_QUIET_NAN"; "OPTION_VERIFY"; "OPTION_USE_BUILTIN_TRAITS";
   "OPTION_FORWARD_DECLARE_STD"; "OPTION_CONSUMED_ANNOTATION_CHECKING"; "OPTION_PFR_FILE";
   "OPTION_USE_PFR"; "OPTION_LIBASSERT_FILE"; "OPTION_USE_LIBASSERT"].

(** What the compiler and the standard library define and the header asks about. *)
Definition platform : list string :=
  ["__INTEL_COMPILER"; "_MSC_VER"; "__clang__"; "__GNUC__"; "__GNUG__"; "_LIBCPP_VERSION";
   "__GLIBCXX__"; "__has_attribute"; "__has_cpp_attribute"; "__has_builtin"; "__has_feature";
   "NDEBUG"; "_MSVC_LANG"; "__cplusplus"; "__cpp_exceptions"].

Definition standard_headers : list string :=
  ["csignal"; "cstdio"; "string_view"; "string"; "vector"; "memory"; "array"; "variant"; "complex"].

Definition ours (n : string) : Prop := String.prefix "OPTION_" n = true.

(** The user defines no macro of the library that is not documented. *)
Definition clean (s : macros) : Prop :=
  forall n, ours n -> s n <> None -> In n documented.

(** Included files define no macro of the library and leave the platform alone. *)
Definition polite (w : world) : Prop :=
  forall f l n b, files w f = Some l -> In (n, b) l -> ~ ours n /\ ~ In n platform.

Definition numeric (x : option body) : Prop :=
  match x with None => True | Some (Num _) => True | _ => False end.
Definition operator (x : option body) : Prop :=
  match x with None => True | Some Operator => True | _ => False end.
Definition path (x : option body) : Prop :=
  match x with None => True | Some (File _) => True | _ => False end.

(** Macros have values of the kind that docs/macros.md expects, and the platform's those of any
    compiler. *)
Definition ordinary (s : macros) : Prop :=
  (exists z, s "__cplusplus" = Some (Num z)) /\
  numeric (s "_MSVC_LANG") /\ numeric (s "__GNUC__") /\ numeric (s "__cpp_exceptions") /\
  operator (s "__has_attribute") /\ operator (s "__has_cpp_attribute") /\
  operator (s "__has_builtin") /\ operator (s "__has_feature") /\
  numeric (s "OPTION_USE_PFR") /\ numeric (s "OPTION_USE_LIBASSERT") /\
  numeric (s "OPTION_CONSUMED_ANNOTATION_CHECKING") /\ numeric (s "OPTION_FORWARD_DECLARE_STD") /\
  path (s "OPTION_PFR_FILE") /\ path (s "OPTION_LIBASSERT_FILE").

(** The standard headers exist. *)
Definition hosted (w : world) : Prop := forall f, In f standard_headers -> files w f <> None.

(** Compilers. *)
Inductive family := Intel | Msvc | ClangCl | Clang | Gcc | Other.

Definition family_of (s : macros) : family :=
  match s "__INTEL_COMPILER", s "_MSC_VER", s "__clang__", s "__GNUC__", s "__GNUG__" with
  | Some _, _, _, _, _ => Intel
  | None, Some _, Some _, _, _ => ClangCl
  | None, Some _, None, _, _ => Msvc
  | None, None, Some _, _, _ => Clang
  | None, None, None, None, None => Other
  | None, None, None, _, _ => Gcc
  end.

Inductive library := LibCpp | LibStdCpp | Stl | NoLibrary.

Definition library_of (s : macros) : library :=
  match s "_LIBCPP_VERSION", s "__GLIBCXX__", s "_MSC_VER" with
  | Some _, _, _ => LibCpp
  | None, Some _, _ => LibStdCpp
  | None, None, Some _ => Stl
  | None, None, None => NoLibrary
  end.

(** A setting as read by #if: nothing counts as false. *)
Definition on (x : option body) : bool :=
  match x with Some (Num z) => negb (Z.eqb z 0) | _ => false end.

(** What a file leaves a macro defined as: the last definition in it, or what there was before. *)
Fixpoint final (l : list (string * body)) (n : string) (before : option body) : option body :=
  match l with
  | [] => before
  | (m, b) :: l => final l n (if String.eqb m n then Some b else before)
  end.

Definition after (w : world) (s : macros) (f n : string) : option body :=
  match files w f with Some l => final l n (s n) | None => s n end.

(** The files give the two switches of the reflection libraries numbers, if anything. *)
Definition switches (w : world) (s : macros) : Prop :=
  forall f, numeric (after w s f "BOOST_PFR_ENABLED") /\ numeric (after w s f "PFR_ENABLED").

(** A translation unit in which the header can be asked to compile. *)
Definition setting (w : world) (s : macros) : Prop :=
  clean s /\ polite w /\ ordinary s /\ hosted w /\ switches w s.

(** The two libraries for aggregates. *)
Inductive reflection_library := Boost | Standalone.

(** The file that the header includes for them: given by the user, or found.  [None] when it is
    switched off, or there is none. *)
Definition off (x : option body) : bool := is_some x && negb (on x).

Definition pfr_file (w : world) (s : macros) : option string :=
  if off (s "OPTION_USE_PFR") then None
  else match s "OPTION_PFR_FILE" with
       | Some (File f) => if is_some (files w f) then Some f else None
       | Some _ => None
       | None => if is_some (files w "boost/pfr.hpp") then Some "boost/pfr.hpp"
                 else if is_some (files w "pfr.hpp") then Some "pfr.hpp" else None
       end.

(** Whether that file says that the library is usable. *)
Definition enabled (w : world) (s : macros) (f : string) (l : reflection_library) : bool :=
  on (after w s f match l with Boost => "BOOST_PFR_ENABLED" | Standalone => "PFR_ENABLED" end).

(** libassert is used if it is found and not switched off. *)
Definition libassert_file (s : macros) : string :=
  match s "OPTION_LIBASSERT_FILE" with Some (File f) => f | _ => "libassert/assert.hpp" end.

Definition uses_libassert (w : world) (s : macros) : bool :=
  negb (off (s "OPTION_USE_LIBASSERT")) && is_some (files w (libassert_file s)).

(** The standard that the compiler implements: the larger of the two numbers. *)
Definition number (x : option body) : Z := match x with Some (Num z) => z | _ => 0 end.

Definition language (s : macros) : Z :=
  match s "_MSVC_LANG" with
  | Some (Num z) => Z.max z (number (s "__cplusplus"))
  | _ => number (s "__cplusplus")
  end.

(** An attribute exists. *)
Definition attribute (w : world) (s : macros) (a : string) : bool :=
  is_some (s "__has_cpp_attribute") && negb (Z.eqb (answers w "__has_cpp_attribute" a) 0).

(** What the header must find to be accepted: the libraries that the user asks for. *)
Definition accepted (w : world) (s : macros) : Prop :=
  (on (s "OPTION_USE_PFR") = true ->
   exists f, s "OPTION_PFR_FILE" = Some (File f) /\ files w f <> None /\
     (after w s f "BOOST_PFR_ENABLED" <> None \/ after w s f "PFR_ENABLED" <> None)) /\
  (on (s "OPTION_USE_LIBASSERT") = true -> files w (libassert_file s) <> None).

(** Which library docs/macros.md leads one to expect. *)
Definition expected (w : world) (s : macros) : option reflection_library :=
  match pfr_file w s with
  | None => None
  | Some f => if enabled w s f Boost then Some Boost
              else if enabled w s f Standalone then Some Standalone else None
  end.

Definition namespace_of (l : reflection_library) : string :=
  match l with Boost => "::boost::pfr::" | Standalone => "::pfr::" end.

(** Installed files are what their names say, and no file claims to be both libraries. *)
Definition genuine (w : world) (s : macros) : Prop :=
  after w s "boost/pfr.hpp" "PFR_ENABLED" = None /\
  after w s "pfr.hpp" "BOOST_PFR_ENABLED" = None /\
  forall f, after w s f "BOOST_PFR_ENABLED" = None \/ after w s f "PFR_ENABLED" = None.

(** The case in which the header departs from it. *)
Definition file_alone (s : macros) : bool :=
  negb (is_some (s "OPTION_USE_PFR")) && is_some (s "OPTION_PFR_FILE").
