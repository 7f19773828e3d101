(** C54: which mechanism a type gets, and how many levels follow. *)
From Coq Require Import ZArith NArith List Bool.
From Verif Require Import Words Ints Types Select Dispatch DispatchSpec DispatchFacts.
Import ListNotations.
Open Scope N_scope.

(** A mechanism that is used is one the documentation gives for the type. *)
Theorem C54_only_documented : forall P c, builtin c = true -> chosen P c <> s_none -> documented P c (chosen P c).
Proof. exact chosen_documented. Qed.
Print Assumptions C54_only_documented.

(** A type for which the documentation gives a mechanism gets one, the first in the header's order of
    precedence (polymorphic, PADDING, the enumerators, tuple-like, reflectable); enums with a signed
    underlying type and none of the special enumerators are the only exception. *)
Theorem C54_every_documented : forall P c s, documented P c s -> signed_enum c = false ->
  chosen P c <> s_none /\ (rank (chosen P c) <= rank s)%nat.
Proof. exact documented_chosen. Qed.
Print Assumptions C54_every_documented.

Theorem C54_unique : forall P c s, documented P c s -> signed_enum c = false ->
  (forall s', documented P c s' -> s' = s) -> chosen P c = s.
Proof. exact documented_unique. Qed.
Print Assumptions C54_unique.

(** The exception: the documentation's "Enumeration" does not mention that the underlying type must be
    unsigned.  `enum class color { red }` has the underlying type int. *)
Theorem C54_signed_enum : forall P c, signed_enum c = true -> chosen P c = s_none.
Proof. exact signed_enum_none. Qed.
Print Assumptions C54_signed_enum.
Definition gcc64 : platform := mkplatform 8 true true true false.
Definition color : cty := CEnum {| iw := 4; isg := true |} [0] None None None.
Theorem C54_signed_enum_refuted : exists P c s, documented P c s /\ pf_builtin P = true /\ chosen P c = s_none.
Proof. exists gcc64, color, s_enumeration. split; [now constructor|]. split; reflexivity. Qed.
Print Assumptions C54_signed_enum_refuted.

(** The word that a mechanism reads and writes lies inside the object. *)
Theorem C54_room : forall P c,
  match chosen P c, c with
  | s_pointer_64, CPointer n => n = 8%nat
  | s_pointer_32, CPointer n => n = 4%nat
  | s_member_pointer_32, CMemberPointer n => n = 4%nat
  | s_member_pointer_64, CMemberPointer n => (8 <= n)%nat
  | (s_float64_sNaN | s_float64_qNaN), CFloating n _ _ _ _ => n = 8%nat
  | (s_float32_sNaN | s_float32_qNaN), CFloating n _ _ _ _ => n = 4%nat
  | s_polymorphic, CClass n _ _ _ _ _ => (pf_ptr P <= n)%nat
  | s_pointer_64, _ | s_pointer_32, _ | s_member_pointer_32, _ | s_member_pointer_64, _ | s_float64_sNaN, _
  | s_float64_qNaN, _ | s_float32_sNaN, _ | s_float32_qNaN, _ | s_polymorphic, _ => False
  | _, _ => True
  end.
Proof. exact room. Qed.
Print Assumptions C54_room.

(** The number of levels that the header computes for a type, and for the const type, is the number
    the other layers of the model use (Types.v, Select.v), at every depth of nesting. *)
Theorem C54_levels : forall P, pf_builtin P = true -> forall c, const_free c = true -> sound P c = true ->
  traits_max P false c = max_level (to_ty P c) /\ traits_max P true c = const_max_level (to_ty P c).
Proof. exact levels_const_free. Qed.
Print Assumptions C54_levels.

(** The type of Types.v whose get_level and set_level the other theorems are about is one of the
    chosen mechanism. *)
Theorem C54_same_mechanism : forall P c, pf_builtin P = true -> builtin c = true -> sound P c = true ->
  stands_for (to_ty P c) (chosen P c) = true.
Proof. exact same_mechanism. Qed.
Print Assumptions C54_same_mechanism.

(** With const members: the same whenever set_level compiles. *)
Theorem C54_levels_const_members : forall P, pf_builtin P = true -> forall c, sound P c = true ->
  max_level (to_ty P c) <= traits_max P false c
  /\ (writable P false c = true -> max_level (to_ty P c) = traits_max P false c).
Proof. exact levels_agree. Qed.
Print Assumptions C54_levels_const_members.

(** Without OPTION_USE_BUILTIN_TRAITS only specialisations of option_traits have levels. *)
Theorem C54_no_builtin : forall P k c, pf_builtin P = false -> builtin c = true -> traits_max P k c = 0.
Proof. exact no_builtin. Qed.
Print Assumptions C54_no_builtin.

(** std::map elements: option<std::pair<const A, B>> compiles exactly if const A has no more levels
    than B. *)
Theorem C54_const_first : forall P o1 c1 o2 c2 n a, pf_builtin P = true -> const_free c2 = true -> sound P c2 = true ->
  instantiable P (CPair o1 (CConst c1) o2 c2 n a) = true <-> traits_max P true c1 <= traits_max P false c2.
Proof. exact const_first. Qed.
Print Assumptions C54_const_first.
Theorem C54_const_second : forall P o1 c1 o2 c2 n a, pf_builtin P = true -> const_free c1 = true -> sound P c1 = true ->
  instantiable P (CPair o1 c1 o2 (CConst c2) n a) = true <->
  traits_max P true c2 < traits_max P false c1 \/ (traits_max P true c2 = 0 /\ traits_max P false c1 = 0).
Proof. exact const_second. Qed.
Print Assumptions C54_const_second.

(** option<std::pair<const float, int>> does not compile, though option<std::pair<float, int>> and
    option<std::pair<const int, int>> do. *)
Definition int_ : cty := COther 4 4.
Definition float_ : cty := CFloating 4 4 true true true.
Theorem C54_const_member_refuted : exists P c1 c2,
  instantiable P (CPair 0 c1 4 c2 8 4) = true /\ instantiable P (CPair 0 (CConst c1) 4 c2 8 4) = false.
Proof. exists gcc64, float_, int_. split; reflexivity. Qed.
Print Assumptions C54_const_member_refuted.

Definition shape : cty :=   (* a polymorphic class with a PADDING member and reflected members *)
  CClass 24 8 true (Some (16, 4)%nat) None (Some [(8%nat, float_)]).
Definition deep : cty := COption (CPair 0 (CTuple [(0%nat, int_); (4%nat, COption CBool)] 8 4) 8 (CArray 2 float_) 16 8).
Example C54_ex :
  documented gcc64 shape s_polymorphic /\ documented gcc64 shape s_padding_member /\ chosen gcc64 shape = s_polymorphic /\
  chosen (mkplatform 4 true true true false) float_ = s_float32_qNaN /\ chosen gcc64 float_ = s_float32_sNaN /\
  chosen gcc64 (CEnum {| iw := 1; isg := false |} [0; 1; 2] None None None) = s_enumeration /\
  chosen gcc64 (CString LibStdCpp (mkalloc false false) 40 8) = s_none /\
  const_free deep = true /\ sound gcc64 deep = true /\ traits_max gcc64 false deep = 255 /\
  max_level (to_ty gcc64 deep) = 255 /\
  instantiable gcc64 (CPair 0 (CConst int_) 4 float_ 8 4) = true /\
  sound gcc64 (CPair 0 (CConst float_) 8 (CPointer 8) 16 8) = true /\
  writable gcc64 false (CPair 0 (CConst float_) 8 (CPointer 8) 16 8) = true.
Proof. do 2 (split; [constructor; cbn; try apply PeanoNat.Nat.leb_le; reflexivity|]). repeat split. Qed.
