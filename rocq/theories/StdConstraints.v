(** When the constructors and assignments of std::optional<T> take part, by the C++ standard: C70.  T is an
    object type; [option_of] stands for std::optional. *)
From Coq Require Import Bool List.
From Verif Require Import Constraints Braces.
Import ListNotations.

Section Std.
Context (L : lang).

Definition some_of (f : ctype -> bool) (o : ctype) : bool :=
  f (lref o) || f (const_lref o) || f (rref o) || f (const_rref o).

(** converts-from-any-cvref, [optional.ctor]. *)
Definition converts_from_any_cvref (t w : ctype) : bool :=
  some_of (fun q => constructible L t [q] || convertible L q t) w.

Definition cv_bool (t : ctype) : bool := match t with ct NoRef _ _ Bool => true | _ => false end.

(** optional(U&&). *)
Definition std_value_ctor (t u : ctype) : bool :=
  constructible L t [u] && negb (same (remove_cvref u) in_place_t) && negb (same (remove_cvref u) (option_of t)) &&
  (if cv_bool t then negb (is_option (remove_cvref u)) else true).

(** optional(const optional<U>&) with q = const U&, optional(optional<U>&&) with q = U&&. *)
Definition std_option_ctor (t u q : ctype) : bool :=
  constructible L t [q] && (if cv_bool t then true else negb (converts_from_any_cvref t (option_of u))).

(** All three are explicit exactly if q (or u) does not convert to T. *)
Definition std_explicit (q t : ctype) : bool := negb (convertible L q t).

(** operator=(U&&); [decayed]: is_scalar_v<T> and is_same_v<T, decay_t<U>>. *)
Definition std_value_assign (decayed : bool) (t u : ctype) : bool :=
  negb (same (remove_cvref u) (option_of t)) && negb decayed && constructible L t [u] && assignable L (lref t) u.

(** operator=(const optional<U>&) and operator=(optional<U>&&). *)
Definition std_option_assign (t u q : ctype) : bool :=
  constructible L t [q] && assignable L (lref t) q && negb (converts_from_any_cvref t (option_of u)) &&
  negb (some_of (assignable L (lref t)) (option_of u)).

(** T and these arguments that only braces can bring together: an aggregate, before C++20. *)
Definition only_braces (t : ctype) (args : list ctype) : Prop :=
  cxx20 L = false /\ aggregate L t = true /\ constructible L t args = false /\ braces L t args = true.
End Std.

(** is_same_v<T, decay_t<U>> && is_scalar_v<T> for objects that are not arrays or functions. *)
Definition std_decayed (X : blang) (t u : ctype) : bool := scalar_type X t && same t (remove_cvref u).

(** a = {} for std::optional<T>. *)
Definition std_brace_choice (X : blang) (t : ctype) : option candidate :=
  chosen_for X (std_value_assign (bl X) (std_decayed X t (remove_cv t)) t (remove_cv t)) t.
