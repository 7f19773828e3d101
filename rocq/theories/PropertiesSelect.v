(** Properties of compile-time selection (C42, C44, C47), each with a concrete case. *)
From Coq Require Import NArith Bool List.
From Verif Require Import Words Types Lifetime Classes Select SelectSpec SelectFacts.
Import ListNotations.
Open Scope N_scope.
Open Scope bool_scope.

(** C42: no combination of arguments matches two specialisations, and only the documented ones fall
    back to the primary template. *)
Theorem C42_one_specialisation : forall a b c d e,
  length (filter (fun s => matches (fst s) [a; b; c; d; e]) base_specs) = (if a && b && c && d && negb e then 0 else 1)%nat /\
  length (filter (fun s => matches (fst s) [a; b; c; d; e]) enable_specs) = (if e || (a && b && c && d) then 0 else 1)%nat.
Proof. exact specs_disjoint. Qed.
Print Assumptions C42_one_specialisation.

(** Each special member is deleted, trivial and noexcept as documented (C42, C47). *)
Theorem C42_special_members : forall f k, coherent f = true ->
  exists m, option_member f k = Chosen m /\
    is_deleted m = doc_deleted f k /\ is_trivial m = doc_trivial f k /\
    (is_deleted m = false -> (doc_noexcept f k = true -> is_noexcept m = true) /\
                             (f_ref f = false -> is_noexcept m = doc_noexcept f k)).
Proof. exact special_ok. Qed.
Print Assumptions C42_special_members.

(** The same at every depth of nesting. *)
Theorem C42_nested : forall n f, coherent f = true -> coherent (nest_flags n f) = true.
Proof. exact nest_coherent. Qed.
Print Assumptions C42_nested.

(** The lifetime model makes the same choices. *)
Theorem C42_lifetime_model : forall W n (C : cls W) f, coherent f = true -> regular f = true -> describes f C ->
  regular (nest_flags n f) = true /\ describes (nest_flags n f) (nest_cls n C).
Proof. exact nest_describes. Qed.
Print Assumptions C42_lifetime_model.

(** A trivially copyable type, one with a throwing copy and no copy assignment, and std::unique_ptr. *)
Definition f_int := mkflags false true true true true true true true true true true true true true.
Definition f_half := mkflags false false true false true true false false false false false false true true.
Definition f_uptr := mkflags false false false false true true false false false false false false true true.
Example C42_ex : coherent f_int = true /\ coherent f_half = true /\ coherent f_uptr = true /\ regular f_int = true /\
  option_member f_int MoveAssign = Chosen Trivial /\ option_member f_half CopyAssign = Chosen Deleted /\
  option_member f_half CopyCtor = Chosen (Custom false) /\ option_member f_uptr CopyCtor = Chosen Deleted /\
  option_member f_uptr MoveAssign = Chosen (Custom true) /\ describes f_int (plain 2) /\
  option_member (nest_flags 5 f_uptr) MoveCtor = Chosen (Custom true).
Proof. repeat split. Qed.

(** A type that can be copied but not moved: the documentation calls the move constructor of the
    option deleted, yet moving the option compiles and copies. *)
Theorem C42_deleted_move_refuted : exists f, coherent f = true /\ f_mc f = false /\ doc_deleted f MoveCtor = true /\
  option_member f MoveCtor = Chosen Deleted /\ option_used f MoveCtor = Chosen Trivial.
Proof. exact (ex_intro _ (mkflags false true true true false false true true false false true true false false)
         (conj eq_refl (conj eq_refl (conj eq_refl (conj eq_refl eq_refl))))). Qed.
Print Assumptions C42_deleted_move_refuted.

(** C47: noexcept. *)
Theorem C47_noexcept : forall f k, coherent f = true ->
  exists m, option_member f k = Chosen m /\
    is_deleted m = doc_deleted f k /\ is_trivial m = doc_trivial f k /\
    (is_deleted m = false -> (doc_noexcept f k = true -> is_noexcept m = true) /\
                             (f_ref f = false -> is_noexcept m = doc_noexcept f k)).
Proof. exact special_ok. Qed.
Print Assumptions C47_noexcept.
Example C47_ex : option_member f_half CopyCtor = Chosen (Custom false) /\ doc_noexcept f_half CopyCtor = false /\
  option_member f_half MoveCtor = Chosen (Custom true) /\ doc_noexcept f_half MoveCtor = true.
Proof. repeat split. Qed.

(** C44: for every T that is not const the outer option's strategy fits the inner option. *)
Theorem C44_unqualified : forall t, fits false t = true /\ compiles false t = true.
Proof. exact plain_fits. Qed.
Print Assumptions C44_unqualified.
(** For const T it fits iff option_traits<const T> and option_traits<T> agree on having levels. *)
Theorem C44_const : forall t, fits true t = true <-> (const_max_level t = 0 <-> max_level t = 0).
Proof. exact const_fits. Qed.
Print Assumptions C44_const.
(** The levels of T are never used when there are none, const or not. *)
Theorem C44_levels_exist : forall c t, outer_strategy c t = InValue -> max_level t <> 0.
Proof. exact never_missing_levels. Qed.
Print Assumptions C44_levels_exist.
Theorem C44_const_compiles : forall t, compiles true t = true <-> max_level t = 0.
Proof. exact const_compiles. Qed.
Print Assumptions C44_const_compiles.
(** option<option<const bool>> asks for a flag that option<const bool> does not have. *)
Theorem C44_const_refuted : exists t, outer_strategy true t = InFlag /\ inner_has_flag t = false.
Proof. exact (ex_intro _ TBool (conj eq_refl eq_refl)). Qed.
Print Assumptions C44_const_refuted.
Example C44_ex : fits false (TOption TBool) = true /\ outer_strategy false TPtr64 = InValue /\
  fits true (TOpaque 4 4) = true /\ compiles true (TOpaque 4 4) = true /\ fits true TPtr64 = true /\ compiles true TPtr64 = false.
Proof. repeat split. Qed.
