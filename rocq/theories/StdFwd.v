(** The declarations of templates of the standard library in the header.

    Models: option.hpp 295-496 (OPTION_FORWARD_DECLARE_STD): the macros that open and close the namespaces, and the class
    templates and classes declared between them, in order.

    Simplifications: a declaration is its name (template parameters, attributes and the overloads of get and get_if are
    left out); pragmas are left out, as are the attributes of a namespace except for the place where they stand. *)
From Coq Require Import Bool List String.
Import ListNotations.
Open Scope string_scope.
Open Scope list_scope.

(** The standard library, by its configuration.  libc++: the inline namespace _LIBCPP_ABI_NAMESPACE; libstdc++: the
    inline namespace of --enable-symvers=gnu-versioned-namespace, _GLIBCXX_USE_CXX11_ABI, _GLIBCXX_DEBUG. *)
Inductive library : Type :=
| LibCpp (abi : string)
| LibStdCpp (version : option string) (cxx11 debug : bool)
| Stl
| Unknown.

Inductive tok : Type :=
| Inline | Namespace | Name (s : string) | Attribute | Open | Close
| Declare (n : string).

(** The words of the macros 299-330. *)
Record words := mkwords { w_begin : list string; w_end : list string; w_inner_begin : list string; w_inner_end : list string }.
Definition branch (l : library) : words :=
  match l with
  | LibCpp _ => mkwords ["_LIBCPP_BEGIN_NAMESPACE_STD"] ["_LIBCPP_END_NAMESPACE_STD"] [] []
  | LibStdCpp _ _ _ =>
      mkwords ["namespace"; "std"; "_GLIBCXX_VISIBILITY(default)"; "{"; "_GLIBCXX_BEGIN_NAMESPACE_VERSION"]
              ["_GLIBCXX_END_NAMESPACE_VERSION"; "}"]
              ["inline"; "_GLIBCXX_BEGIN_NAMESPACE_CXX11"] ["_GLIBCXX_END_NAMESPACE_CXX11"]
  | Stl => mkwords ["_STD_BEGIN"] ["_STD_END"] [] []
  | Unknown => mkwords ["namespace"; "std"; "{"] ["}"] [] []
  end.

(** The macros of the libraries, from their configuration headers. *)
Definition word (l : library) (s : string) : list tok :=
  if String.eqb s "inline" then [Inline]
  else if String.eqb s "namespace" then [Namespace]
  else if String.eqb s "{" then [Open]
  else if String.eqb s "}" then [Close]
  else if String.eqb s "_GLIBCXX_VISIBILITY(default)" then [Attribute]
  else match l with
  | LibCpp abi =>
      if String.eqb s "_LIBCPP_BEGIN_NAMESPACE_STD" then [Namespace; Name "std"; Open; Inline; Namespace; Name abi; Open]
      else if String.eqb s "_LIBCPP_END_NAMESPACE_STD" then [Close; Close] else [Name s]
  | LibStdCpp v cxx11 _ =>
      if String.eqb s "_GLIBCXX_BEGIN_NAMESPACE_VERSION" then match v with Some v => [Namespace; Name v; Open] | None => [] end
      else if String.eqb s "_GLIBCXX_END_NAMESPACE_VERSION" then match v with Some _ => [Close] | None => [] end
      else if String.eqb s "_GLIBCXX_BEGIN_NAMESPACE_CXX11" then if cxx11 then [Namespace; Name "__cxx11"; Open] else []
      else if String.eqb s "_GLIBCXX_END_NAMESPACE_CXX11" then if cxx11 then [Close] else [] else [Name s]
  | Stl =>
      if String.eqb s "_STD_BEGIN" then [Namespace; Name "std"; Open]
      else if String.eqb s "_STD_END" then [Close] else [Name s]
  | Unknown => [Name s]
  end.
Definition expand (l : library) (ws : list string) : list tok := flat_map (word l) ws.

(** 341-489: what is declared after basic_string. *)
Definition others (l : library) (cxx20 : bool) : list string :=
  ["vector"; "unique_ptr"; "default_delete"; "array"; "variant"]
  ++ match l with Stl => [] | _ => ["variant_alternative"] end
  ++ ["input_iterator_tag"; "output_iterator_tag"; "forward_iterator_tag"; "bidirectional_iterator_tag"; "random_access_iterator_tag"]
  ++ (if cxx20 then ["contiguous_iterator_tag"] else []) ++ ["hash"; "complex"].

(** 299-489 after preprocessing; without OPTION_FORWARD_DECLARE_STD the headers are included. *)
Definition block (l : library) (forward cxx20 : bool) : list tok :=
  if forward then
    let w := branch l in
    expand l (w_begin w) ++ [Declare "basic_string_view"] ++
    expand l (w_inner_begin w) ++ [Declare "basic_string"] ++ expand l (w_inner_end w) ++
    map Declare (others l cxx20) ++ expand l (w_end w)
  else [].

(** A sequence of declarations: the entities that it declares, each with its namespaces from the inside, if it is
    well-formed. *)
Fixpoint parse (inside : list string) (ts : list tok) : option (list (list string * string)) :=
  match ts with
  | [] => match inside with [] => Some [] | _ => None end
  | Inline :: Namespace :: Name n :: Open :: r | Namespace :: Name n :: Open :: r
  | Inline :: Namespace :: Name n :: Attribute :: Open :: r | Namespace :: Name n :: Attribute :: Open :: r => parse (n :: inside) r
  | Close :: r => match inside with [] => None | _ :: up => parse up r end
  | Declare n :: r => option_map (cons (rev inside, n)) (parse inside r)
  | _ => None
  end.
