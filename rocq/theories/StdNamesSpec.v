(** Which names the headers of the standard library declare, as far as they matter here.

    The synopses of C++17 (N4659) and C++20 (N4861); tuple_element_t as in LWG 3378. *)
From Coq Require Import NArith Bool List String.
From Verif Require Import StdFwd StdNames.
Import ListNotations.
Open Scope string_scope.
Open Scope list_scope.

Definition synopsis (header : string) (in_cxx20 : bool) : list string :=
  if String.eqb header "cstring" then ["memcpy"; "size_t"]
  else if String.eqb header "type_traits" then
      [
       "bool_constant"; "conjunction"; "conjunction_v"; "decay_t"; "disjunction"; "enable_if"; "enable_if_t";
       "false_type"; "is_aggregate_v"; "is_assignable"; "is_assignable_v"; "is_base_of_v"; "is_constructible";
       "is_constructible_v"; "is_convertible"; "is_convertible_v"; "is_copy_assignable_v"; "is_copy_constructible";
       "is_copy_constructible_v"; "is_default_constructible"; "is_destructible"; "is_empty_v"; "is_enum_v";
       "is_final_v"; "is_floating_point_v"; "is_function_v"; "is_invocable_r"; "is_lvalue_reference_v";
       "is_member_pointer_v"; "is_move_assignable_v"; "is_move_constructible"; "is_move_constructible_v";
       "is_nothrow_constructible_v"; "is_nothrow_copy_assignable_v"; "is_nothrow_copy_constructible_v";
       "is_nothrow_move_assignable_v"; "is_nothrow_move_constructible_v"; "is_nothrow_swappable_with_v"; "is_pointer_v";
       "is_polymorphic_v"; "is_reference_v"; "is_same"; "is_same_v"; "is_scalar_v"; "is_swappable_with";
       "is_trivially_copy_assignable"; "is_trivially_copy_assignable_v"; "is_trivially_copy_constructible_v";
       "is_trivially_copyable_v"; "is_trivially_destructible"; "is_trivially_destructible_v";
       "is_trivially_move_assignable"; "is_trivially_move_assignable_v"; "is_trivially_move_constructible_v";
       "is_unsigned_v"; "is_void_v"; "remove_const_t"; "remove_cv_t"; "remove_reference_t"; "true_type";
       "underlying_type_t"; "void_t"
      ]
  else if String.eqb header "utility" then
      ["declval"; "get"; "in_place"; "in_place_t"; "index_sequence"; "integer_sequence"; "make_index_sequence"; "make_integer_sequence";
       "pair"; "swap"; "tuple"; "tuple_element_t"; "tuple_size"; "initializer_list"]
  else if String.eqb header "limits" then ["numeric_limits"]
  else if String.eqb header "exception" then ["exception"]
  else if String.eqb header "cstdint" then ["uint8_t"; "uint32_t"; "uint64_t"; "uint_least8_t"; "uintmax_t"; "uintptr_t"]
  else if String.eqb header "initializer_list" then ["initializer_list"]
  else if String.eqb header "csignal" then ["raise"]
  else if String.eqb header "cstdio" then ["fflush"; "fprintf"; "size_t"]
  else if String.eqb header "string_view" then ["basic_string_view"; "hash"]
  else if String.eqb header "string" then ["basic_string"; "hash"; "initializer_list"; "swap"]
  else if String.eqb header "vector" then ["vector"; "hash"; "initializer_list"; "swap"]
  else if String.eqb header "memory" then
      ["addressof"; "default_delete"; "unique_ptr"; "hash"; "swap"] ++ (if in_cxx20 then ["construct_at"] else [])
  else if String.eqb header "array" then ["array"; "get"; "tuple_size"; "swap"]
  else if String.eqb header "variant" then ["variant"; "get"; "get_if"; "hash"; "swap"]
  else if String.eqb header "complex" then ["complex"]
  else if String.eqb header "functional" then ["reference_wrapper"; "hash"]
  else if String.eqb header "cstddef" then ["ptrdiff_t"; "size_t"]
  else if String.eqb header "iterator" then ["random_access_iterator_tag"] ++ (if in_cxx20 then ["contiguous_iterator_tag"] else [])
  else if String.eqb header "tuple" then ["tuple"; "tuple_size"; "tuple_element_t"; "get"]
  else [].
(** Headers of the standard; <ciso646> is no longer one in C++20. *)
Definition standard (in_cxx20 : bool) (header : string) : Prop :=
  In header ["cstring"; "type_traits"; "utility"; "limits"; "exception"; "cstdint"; "initializer_list"; "csignal"; "cstdio";
    "string_view"; "string"; "vector"; "memory"; "array"; "variant"; "complex"; "functional"; "cstddef"; "iterator"; "tuple"] \/
  (in_cxx20 = false /\ header = "ciso646").
(** The header that defines a class template completely, where this matters. *)
Definition defines (header name : string) : Prop := In (header, name) [("utility", "pair"); ("tuple", "tuple"); ("functional", "reference_wrapper")].

(** A name is declared before a line: by the header itself, or by one that is included before. *)
Definition declared (s : setting) (name : string) (line : N) : Prop :=
  (In name (own s) /\ (own_until <= line)%N) \/
  exists l h, In (l, h) (includes s) /\ (l < line)%N /\ In name (synopsis h (cxx20 s)).
(** The names that no included header has to declare. *)
Definition missing (s : setting) (name : string) : Prop :=
  In name ["reference_wrapper"; "ptrdiff_t"] \/
  (forward s = false /\ In name ["random_access_iterator_tag"; "contiguous_iterator_tag"]).
