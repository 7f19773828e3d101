(** The configuration part of the header, directive by directive.

    Models: include/opt/option.hpp 18-330 (macros about the compiler, the standard library and the
    options of the library), 490-511 (headers included for the standard library, OPTION_ADDRESSOF),
    and the two conditions of 2524-2528 on which throw_bad_access depends.  The declarations between
    332 and 489 are not macros and are left out; push_macro and pop_macro of _EXPORT_STD (357-360, 395) leave
    the macros as they were. *)

From Coq Require Import ZArith String List Bool.
Import ListNotations.
From Verif Require Import Preproc.
Open Scope Z_scope.
Open Scope string_scope.
Open Scope code_scope.

Definition flag (n : string) (z : Z) : code := Define n (Num z).

(** option.hpp 18-47. *)
Definition four (clang gcc msvc intel : Z) : code :=
  flag "OPTION_CLANG" clang ;; flag "OPTION_GCC" gcc ;;
  flag "OPTION_MSVC" msvc ;; flag "OPTION_INTEL" intel.

Definition compilers : code :=
  IfDef "__INTEL_COMPILER" (four 0 0 0 1)
  (If (Defined "_MSC_VER")
     (IfDef "__clang__" (flag "OPTION_CLANG" 1) (flag "OPTION_CLANG" 0) ;;
      flag "OPTION_GCC" 0 ;; flag "OPTION_MSVC" 1 ;; flag "OPTION_INTEL" 0)
  (If (Defined "__clang__") (four 1 0 0 0)
  (If (Or (Defined "__GNUC__") (Defined "__GNUG__")) (four 0 1 0 0)
     (four 0 0 0 0)))).

(** option.hpp 49-69. *)
Definition library_flags (libcpp libstdcpp stl unknown : Z) : code :=
  flag "OPTION_LIBCPP" libcpp ;; flag "OPTION_LIBSTDCPP" libstdcpp ;;
  flag "OPTION_STL" stl ;; flag "OPTION_UNKNOWN_STD" unknown.

Definition libraries : code :=
  If (Defined "_LIBCPP_VERSION") (library_flags 1 0 0 0)
  (If (Defined "__GLIBCXX__") (library_flags 0 1 0 0)
  (If (Defined "_MSC_VER") (library_flags 0 0 1 0)
     (library_flags 0 0 0 1))).

(** option.hpp 71-75. *)
Definition has_attribute : code :=
  IfDef "__has_attribute"
    (Define "OPTION_HAS_ATTRIBUTE" (Forward "__has_attribute"))
    (Define "OPTION_HAS_ATTRIBUTE" (Const 0)).

(** option.hpp 77-81. *)
Definition has_cpp_attribute : code :=
  IfDef "__has_cpp_attribute"
    (Define "OPTION_HAS_CPP_ATTRIBUTE" (Forward "__has_cpp_attribute"))
    (Define "OPTION_HAS_CPP_ATTRIBUTE" (Const 0)).

(** option.hpp 83-87. *)
Definition has_builtin : code :=
  IfDef "__has_builtin"
    (Define "OPTION_HAS_BUILTIN" (Forward "__has_builtin"))
    (Define "OPTION_HAS_BUILTIN" (Const 0)).

(** option.hpp 89-95. *)
Definition lifetimebound : code :=
  If (Call "OPTION_HAS_CPP_ATTRIBUTE" "msvc::lifetimebound")
    (Define "OPTION_LIFETIMEBOUND" (Text "[[msvc::lifetimebound]]"))
  (If (Call "OPTION_HAS_CPP_ATTRIBUTE" "clang::lifetimebound")
    (Define "OPTION_LIFETIMEBOUND" (Text "[[clang::lifetimebound]]"))
    (Define "OPTION_LIFETIMEBOUND" (Text ""))).

(** option.hpp 97-103. *)
Definition pure : code :=
  If (Call "OPTION_HAS_ATTRIBUTE" "pure")
    (Define "OPTION_PURE" (Text "__attribute__((pure))"))
  (If (Ident "OPTION_MSVC")
    (Define "OPTION_PURE" (Text "__declspec(noalias)"))
    (Define "OPTION_PURE" (Text ""))).

(** option.hpp 105-110. *)
Definition sanitize : code :=
  If (And (Defined "__has_feature") (Ident "OPTION_CLANG"))
    (If (Call "__has_feature" "undefined_behavior_sanitizer")
       (Define "OPTION_NO_SANITIZE_OBJECT_SIZE" (Text "[[clang::no_sanitize(object-size)]]") ;;
        flag "OPTION_HAS_NO_SANITIZE_OBJECT_SIZE" 1)
       Skip)
    Skip.

(** option.hpp 111-114. *)
Definition no_sanitize : code :=
  IfNDef "OPTION_NO_SANITIZE_OBJECT_SIZE"
    (Define "OPTION_NO_SANITIZE_OBJECT_SIZE" (Text "") ;;
     flag "OPTION_HAS_NO_SANITIZE_OBJECT_SIZE" 0)
    Skip.

(** A setting with a default: #ifndef N / #define N z / #endif. *)
Definition default (n : string) (z : Z) : code := IfNDef n (flag n z) Skip.

(** option.hpp 116-118. *)
Definition quiet_nan : code := default "OPTION_USE_QUIET_NAN" 0.

(** option.hpp 120-161. *)
Definition use_boost : code :=
  Define "OPTION_HAS_PFR" (Text "") ;; Define "OPTION_PFR_NAMESPACE" (Text "::boost::pfr::").
Definition use_standalone : code :=
  Define "OPTION_HAS_PFR" (Text "") ;; Define "OPTION_PFR_NAMESPACE" (Text "::pfr::").

Definition wrong_pfr : string := "wrong installation of boost.pfr or pfr".
Definition no_pfr : string := "boost.pfr or pfr not found".

Definition pfr : code :=
  IfDef "OPTION_USE_PFR"
    (If (Ident "OPTION_USE_PFR")
       (If (HasIncludeOf "OPTION_PFR_FILE")
          (IncludeOf "OPTION_PFR_FILE" ;;
           If (Defined "BOOST_PFR_ENABLED")
             (If (Ident "BOOST_PFR_ENABLED") use_boost Skip)
           (If (Defined "PFR_ENABLED")
             (If (Ident "PFR_ENABLED") use_standalone Skip)
             (Error wrong_pfr)))
          (Error no_pfr))
       Skip)
    (IfDef "OPTION_PFR_FILE"
       (If (HasIncludeOf "OPTION_PFR_FILE")
          (IncludeOf "OPTION_PFR_FILE" ;;
           If (Ident "BOOST_PFR_ENABLED") (Define "OPTION_HAS_PFR" (Text "")) Skip)
          Skip)
       (If (HasInclude "boost/pfr.hpp")
          (Include "boost/pfr.hpp" ;;
           If (Ident "BOOST_PFR_ENABLED") use_boost Skip)
       (If (HasInclude "pfr.hpp")
          (Include "pfr.hpp" ;;
           If (Ident "PFR_ENABLED") use_standalone Skip)
          Skip))).

(** option.hpp 163-165. *)
Definition builtin_traits : code := default "OPTION_USE_BUILTIN_TRAITS" 1.

Definition no_libassert : string := "libassert not found".

(** option.hpp 167-169. *)
Definition libassert_path : code :=
  IfNDef "OPTION_LIBASSERT_FILE"
    (Define "OPTION_LIBASSERT_FILE" (File "libassert/assert.hpp")) Skip.

(** option.hpp 171-186. *)
Definition libassert : code :=
  IfDef "OPTION_USE_LIBASSERT"
    (If (Ident "OPTION_USE_LIBASSERT")
       (If (HasIncludeOf "OPTION_LIBASSERT_FILE")
          (IncludeOf "OPTION_LIBASSERT_FILE" ;; Define "OPTION_HAS_LIBASSERT" (Text ""))
          (Error no_libassert))
       Skip)
    (If (HasIncludeOf "OPTION_LIBASSERT_FILE")
       (IncludeOf "OPTION_LIBASSERT_FILE" ;; Define "OPTION_HAS_LIBASSERT" (Text ""))
       Skip).

(** option.hpp 190-233. *)
Definition by_libassert : string := "LIBASSERT_ASSUME(expression, message)".
Definition by_message : string :=
  "((expression) ? (void)0 : ((void)fprintf(stderr, ...), (void)fflush(stderr), (void)OPTION_DEBUG_BREAK))".
Definition by_assume : string := "__assume(expression)".
Definition by_builtin_assume : string := "__builtin_assume(expression)".
Definition by_attribute : string := "__attribute__((__assume__(expression)))".
Definition by_unreachable : string := "if (expression) {} else { __builtin_unreachable(); }".
Definition by_nothing : string := "".

Definition debugtrap : string := "__builtin_debugtrap()".
Definition debugbreak : string := "__debugbreak()".
Definition trap : string := "__builtin_trap()".
Definition raise_trap : string := "::std::raise(SIGTRAP)".
Definition raise_abort : string := "::std::raise(SIGABRT)".

Definition verify_macro : code :=
  IfNDef "OPTION_VERIFY"
    (IfNDef "NDEBUG"
       (IfDef "OPTION_HAS_LIBASSERT"
          (Define "OPTION_VERIFY" (Text by_libassert))
          (If (Ident "OPTION_CLANG") (Define "OPTION_DEBUG_BREAK" (Text debugtrap))
           (If (Or (Ident "OPTION_MSVC") (Ident "OPTION_INTEL"))
              (Define "OPTION_DEBUG_BREAK" (Text debugbreak))
           (If (Ident "OPTION_GCC") (Define "OPTION_DEBUG_BREAK" (Text trap))
              (Include "csignal" ;;
               If (Defined "SIGTRAP")
                 (Define "OPTION_DEBUG_BREAK" (Text raise_trap))
                 (Define "OPTION_DEBUG_BREAK" (Text raise_abort))))) ;;
           Include "cstdio" ;;
           Define "OPTION_VERIFY" (Text by_message)))
       (If (Ident "OPTION_MSVC") (Define "OPTION_VERIFY" (Text by_assume))
        (If (Ident "OPTION_CLANG") (Define "OPTION_VERIFY" (Text by_builtin_assume))
        (If (Ident "OPTION_GCC")
           (If (Ge (Ident "__GNUC__") (Lit 13))
              (Define "OPTION_VERIFY" (Text by_attribute))
              (Define "OPTION_VERIFY" (Text by_unreachable)))
           (Define "OPTION_VERIFY" (Text by_nothing))))))
    Skip.

(** option.hpp 235-243. *)
Definition version : code :=
  IfDef "_MSVC_LANG"
    (If (Gt (Ident "_MSVC_LANG") (Ident "__cplusplus"))
       (Define "OPTION_CXX_VER" (Alias "_MSVC_LANG"))
       (Define "OPTION_CXX_VER" (Alias "__cplusplus")))
    (Define "OPTION_CXX_VER" (Alias "__cplusplus")).

(** option.hpp 245-249. *)
Definition is_cxx20 : code :=
  If (Ge (Ident "OPTION_CXX_VER") (Lit 202002))
    (flag "OPTION_IS_CXX20" 1) (flag "OPTION_IS_CXX20" 0).

(** option.hpp 251-255. *)
Definition constexpr_cxx20 : code :=
  If (Ident "OPTION_IS_CXX20")
    (Define "OPTION_CONSTEXPR_CXX20" (Text "constexpr"))
    (Define "OPTION_CONSTEXPR_CXX20" (Text "inline")).

(** option.hpp 257-261. *)
Definition current_function : code :=
  If (Or (Ident "OPTION_GCC") (Ident "OPTION_CLANG"))
    (Define "OPTION_CURRENT_FUNCTION" (Text "__PRETTY_FUNCTION__"))
  (If (Ident "OPTION_MSVC")
    (Define "OPTION_CURRENT_FUNCTION" (Text "__FUNCSIG__"))
    Skip).

(** option.hpp 263-267. *)
Definition empty_bases : code :=
  If (Ident "OPTION_MSVC")
    (Define "OPTION_DECLSPEC_EMPTY_BASES" (Text "__declspec(empty_bases)"))
    (Define "OPTION_DECLSPEC_EMPTY_BASES" (Text "")).

(** option.hpp 269-273. *)
Definition reflect_enum : code :=
  IfDef "OPTION_CURRENT_FUNCTION"
    (flag "OPTION_CAN_REFLECT_ENUM" 1) (flag "OPTION_CAN_REFLECT_ENUM" 0).

(** option.hpp 275-277. *)
Definition consumed : code := default "OPTION_CONSUMED_ANNOTATION_CHECKING" 0.

(** option.hpp 279-293. *)
Definition has_cpp (a : string) : expr := Call "OPTION_HAS_CPP_ATTRIBUTE" a.

Definition annotations_available : expr :=
  And (And (And (And (And (has_cpp "clang::consumable") (has_cpp "clang::callable_when"))
    (has_cpp "clang::param_typestate")) (has_cpp "clang::return_typestate"))
    (has_cpp "clang::set_typestate")) (has_cpp "clang::test_typestate").

Definition annotations : code :=
  If (And (Ident "OPTION_CONSUMED_ANNOTATION_CHECKING") annotations_available)
    (Define "OPTION_CONSUMABLE" (Text "[[clang::consumable(x)]]") ;;
     Define "OPTION_CALLABLE_WHEN" (Text "[[clang::callable_when(x)]]") ;;
     Define "OPTION_PARAM_TYPESTATE" (Text "[[clang::param_typestate(x)]]") ;;
     Define "OPTION_RETURN_TYPESTATE" (Text "[[clang::return_typestate(x)]]") ;;
     Define "OPTION_SET_TYPESTATE" (Text "[[clang::set_typestate(x)]]") ;;
     Define "OPTION_TEST_TYPESTATE" (Text "[[clang::test_typestate(x)]]"))
    (Define "OPTION_CONSUMABLE" (Text "") ;;
     Define "OPTION_CALLABLE_WHEN" (Text "") ;;
     Define "OPTION_PARAM_TYPESTATE" (Text "") ;;
     Define "OPTION_RETURN_TYPESTATE" (Text "") ;;
     Define "OPTION_SET_TYPESTATE" (Text "") ;;
     Define "OPTION_TEST_TYPESTATE" (Text "")).

(** option.hpp 295-297. *)
Definition forward : code := default "OPTION_FORWARD_DECLARE_STD" 1.

(** option.hpp 299-330 and 490-499. *)
Definition std_namespace (begin end_ inner_begin inner_end : string) : code :=
  Define "OPTION_STD_NAMESPACE_BEGIN" (Text begin) ;;
  Define "OPTION_STD_NAMESPACE_END" (Text end_) ;;
  Define "OPTION_STD_NAMESPACE_CXX11_BEGIN" (Text inner_begin) ;;
  Define "OPTION_STD_NAMESPACE_CXX11_END" (Text inner_end).

Definition forward_std : code :=
  If (Ident "OPTION_FORWARD_DECLARE_STD")
    (If (And (And (Ident "OPTION_LIBCPP") (Defined "_LIBCPP_BEGIN_NAMESPACE_STD"))
             (Defined "_LIBCPP_END_NAMESPACE_STD"))
       (std_namespace "_LIBCPP_BEGIN_NAMESPACE_STD" "_LIBCPP_END_NAMESPACE_STD" "" "")
    (If (And (And (And (Ident "OPTION_LIBSTDCPP") (Defined "_GLIBCXX_VISIBILITY"))
             (Defined "_GLIBCXX_BEGIN_NAMESPACE_VERSION")) (Defined "_GLIBCXX_END_NAMESPACE_VERSION"))
       (std_namespace "namespace std _GLIBCXX_VISIBILITY(default) { _GLIBCXX_BEGIN_NAMESPACE_VERSION"
                      "_GLIBCXX_END_NAMESPACE_VERSION }"
                      "inline _GLIBCXX_BEGIN_NAMESPACE_CXX11" "_GLIBCXX_END_NAMESPACE_CXX11")
    (If (And (And (Ident "OPTION_STL") (Defined "_STD_BEGIN")) (Defined "_STD_END"))
       (std_namespace "_STD_BEGIN" "_STD_END" "" "")
       (std_namespace "namespace std {" "}" "" ""))))
    (Include "string_view" ;; Include "string" ;; Include "vector" ;; Include "memory" ;;
     Include "array" ;; Include "variant" ;; Include "complex").

(** option.hpp 501-503. *)
Definition memory : code := If (Ident "OPTION_IS_CXX20") (Include "memory") Skip.

(** option.hpp 505-510. *)
Definition addressof : code :=
  If (Or (Call "OPTION_HAS_BUILTIN" "__builtin_addressof") (Ident "OPTION_MSVC"))
    (Define "OPTION_ADDRESSOF" (Text "__builtin_addressof(x)"))
    (Include "memory" ;; Define "OPTION_ADDRESSOF" (Text "::std::addressof(x)")).

(** The whole of it, in the order of the header. *)
Definition header : code :=
  compilers ;; libraries ;; has_attribute ;; has_cpp_attribute ;; has_builtin ;; lifetimebound ;;
  pure ;; sanitize ;; no_sanitize ;; quiet_nan ;; pfr ;; builtin_traits ;; libassert_path ;;
  libassert ;; verify_macro ;; version ;; is_cxx20 ;; constexpr_cxx20 ;; current_function ;;
  empty_bases ;; reflect_enum ;; consumed ;; annotations ;; forward ;; forward_std ;; memory ;;
  addressof.

(** option.hpp 2524: whether throw_bad_access throws. *)
Definition exceptions_on : expr :=
  And (Defined "__cpp_exceptions") (Ge (Ident "__cpp_exceptions") (Lit 199711)).
