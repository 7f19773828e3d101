(** C103: the names of the standard library that the header uses are declared by what it includes. *)
From Coq Require Import NArith Bool List String.
From Verif Require Import StdFwd StdNames StdNamesSpec StdNamesFacts.
Import ListNotations.
Open Scope string_scope.
Open Scope list_scope.

(** In every setting, every use of a name comes after its declaration, by the header itself or by a header that has to declare
    it, except for these names. *)
Theorem C103_declared : forall s name line, uses s name line -> (declared s name line <-> ~ missing s name).
Proof. exact declared_exact. Qed.
Print Assumptions C103_declared.
Example C103_declared_ex : let s := mksetting Stl true true true false false false in
  uses s "hash" 4071 /\ declared s "hash" 4071 /\ uses s "construct_at" 650 /\ declared s "construct_at" 650 /\
  ~ uses (mksetting Stl true false true false false false) "construct_at" 650.
Proof. exact declared_ex. Qed.
(** The exceptions are used: reference_wrapper and ptrdiff_t always; the tags of iterators if the headers are included. *)
Theorem C103_missing_refuted : forall s, exists l1 l2 l3, uses s "reference_wrapper" l1 /\ ~ declared s "reference_wrapper" l1 /\
  uses s "ptrdiff_t" l2 /\ ~ declared s "ptrdiff_t" l2 /\
  uses s "random_access_iterator_tag" l3 /\ (declared s "random_access_iterator_tag" l3 <-> forward s = true).
Proof. exact missing_used. Qed.
Print Assumptions C103_missing_refuted.

(** The included headers are headers of the standard, except <ciso646> in C++20. *)
Theorem C103_headers : forall s l h, In (l, h) (includes s) -> (standard (cxx20 s) h <-> (h <> "ciso646" \/ cxx20 s = false)).
Proof. exact headers_exact. Qed.
Print Assumptions C103_headers.
Theorem C103_headers_refuted : forall s, cxx20 s = true -> exists l h, In (l, h) (includes s) /\ ~ standard (cxx20 s) h.
Proof. exact headers_missing. Qed.
Print Assumptions C103_headers_refuted.

(** Without __type_pack_element the header needs the members of std::tuple, and includes nothing that defines it. *)
Theorem C103_tuple_refuted : forall s, (uses s "tuple_element_t" 822 <-> pack_element s = false) /\
  forall l h n, In (l, h) (includes s) -> In n ["tuple"; "reference_wrapper"] -> ~ defines h n.
Proof. intros s. split; [exact (tuple_used s)|exact (never_defined s)]. Qed.
Print Assumptions C103_tuple_refuted.
