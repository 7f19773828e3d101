(** Where the libraries define their templates, and what a name in std denotes. *)
From Coq Require Import Bool List String.
From Verif Require Import StdFwd.
Import ListNotations.
Open Scope string_scope.
Open Scope list_scope.

(** The namespaces of a class or class template of the library. *)
Definition home (l : library) (n : string) : list string :=
  match l with
  | LibCpp abi => ["std"; abi]
  | LibStdCpp v cxx11 debug =>
      if debug && String.eqb n "vector" then ["std"; "__debug"]
      else "std" :: match v with Some v => [v] | None => [] end ++ if cxx11 && String.eqb n "basic_string" then ["__cxx11"] else []
  | Stl | Unknown => ["std"]
  end.
(** The inline namespaces. *)
Inductive inlined : library -> list string -> Prop :=
| inlined_libcpp abi : inlined (LibCpp abi) ["std"; abi]
| inlined_version v c d : inlined (LibStdCpp (Some v) c d) ["std"; v]
| inlined_cxx11 v d : inlined (LibStdCpp (Some v) true d) ["std"; v; "__cxx11"]
| inlined_cxx11_plain d : inlined (LibStdCpp None true d) ["std"; "__cxx11"]
| inlined_debug v c : inlined (LibStdCpp v c true) ["std"; "__debug"].
(** The namespaces in which std::n is looked up. *)
Inductive searched (l : library) : list string -> Prop :=
| searched_std : searched l ["std"]
| searched_inline p x : searched l p -> inlined l (p ++ [x]) -> searched l (p ++ [x]).

(** What std::n may denote: entities of the library and of the header. *)
Definition denotes (l : library) (declared : list (list string * string)) (n : string) (p : list string) : Prop :=
  searched l p /\ (p = home l n \/ In (p, n) declared).
Definition unambiguous (l : library) (declared : list (list string * string)) (n : string) : Prop :=
  exists p, denotes l declared n p /\ forall q, denotes l declared n q -> q = p.

(** What should be declared, in order. *)
Definition wanted (l : library) (cxx20 : bool) : list string :=
  ["basic_string_view"; "basic_string"; "vector"; "unique_ptr"; "default_delete"; "array"; "variant"]
  ++ (match l with Stl => [] | _ => ["variant_alternative"] end)
  ++ ["input_iterator_tag"; "output_iterator_tag"; "forward_iterator_tag"; "bidirectional_iterator_tag"; "random_access_iterator_tag"]
  ++ (if cxx20 then ["contiguous_iterator_tag"] else []) ++ ["hash"; "complex"].

(** Declarations in the namespaces p: a namespace ends with its brace. *)
Inductive sequence : list string -> list tok -> list (list string * string) -> Prop :=
| sequence_end p : sequence p [] []
| sequence_declare p n r ds : sequence p r ds -> sequence p (Declare n :: r) ((p, n) :: ds)
| sequence_namespace p i n a b r ds es : i = [] \/ i = [Inline] -> a = [] \/ a = [Attribute] ->
    sequence (p ++ [n]) b ds -> sequence p r es ->
    sequence p (i ++ [Namespace; Name n] ++ a ++ [Open] ++ b ++ [Close] ++ r) (ds ++ es).

(** The strings of libstdc++ are those of C++11, and it is not in debug mode. *)
Definition ordinary (l : library) : Prop :=
  match l with LibStdCpp _ cxx11 debug => cxx11 = true /\ debug = false | _ => True end.

(** The macros that the libraries define, as far as the header asks for them. *)
Definition own_macros (l : library) : list string :=
  match l with
  | LibCpp _ => ["_LIBCPP_BEGIN_NAMESPACE_STD"; "_LIBCPP_END_NAMESPACE_STD"]
  | LibStdCpp _ _ _ => ["_GLIBCXX_VISIBILITY"; "_GLIBCXX_BEGIN_NAMESPACE_VERSION"; "_GLIBCXX_END_NAMESPACE_VERSION"]
  | Stl => ["_STD_BEGIN"; "_STD_END"]
  | Unknown => []
  end.
(** How the header calls them. *)
Definition detected (l : library) : string :=
  match l with LibCpp _ => "OPTION_LIBCPP" | LibStdCpp _ _ _ => "OPTION_LIBSTDCPP" | Stl => "OPTION_STL" | Unknown => "" end.
