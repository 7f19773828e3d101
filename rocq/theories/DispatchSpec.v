(** Which mechanism docs/builtin_traits.md promises for a type, section by section.

    The document gives one section per mechanism and no order between them, so [documented] is a
    relation: a class may be covered by several sections.  It says nothing about const types.  Nothing
    of the selection in Dispatch.v is used, except the descriptions of types and the names of the
    mechanisms. *)
From Coq Require Import ZArith NArith List Bool Arith.
From Verif Require Import Ints Types Dispatch.
Import ListNotations.

(** "signaling NaN ... Otherwise, tries to use negative quiet NaN ... If that is not possible too, not
    uses this trait entirely"; "On x32, it is always uses quiet NaN". *)
Definition uses_signaling (P : platform) (snan : bool) : Prop := snan = true /\ pf_ptr P <> 4%nat.
Definition uses_quiet (P : platform) (snan qnan : bool) : Prop :=
  (snan = true /\ pf_ptr P = 4%nat) \/ (snan = false /\ qnan = true).

(** "Allocator must satisfy std::is_empty_v and !std::is_final_v". *)
Definition plain_allocator (a : alloc) : Prop := a_empty a = true /\ a_final a = false.

Inductive documented (P : platform) : cty -> option_strategy -> Prop :=
| doc_bool : documented P CBool s_bool
| doc_reference_wrapper : documented P CRefWrap s_reference_wrapper
| doc_pair : forall o1 c1 o2 c2 n a, documented P (CPair o1 c1 o2 c2 n a) s_pair
| doc_tuple : forall fs n a, fs <> [] -> documented P (CTuple fs n a) s_tuple
| doc_empty_tuple : forall n a, documented P (CTuple [] n a) s_tuple_like  (* std::tuple_size is defined *)
| doc_tuple_like : forall n a p d fs r, documented P (CClass n a p d (Some fs) r) s_tuple_like
| doc_array : forall n c, n <> O -> documented P (CArray n c) s_array
| doc_reflectable : forall n a p d t fs, pf_pfr P = true -> documented P (CClass n a p d t (Some fs)) s_reflectable
| doc_polymorphic : forall n a d t r, (pf_ptr P <= n)%nat -> documented P (CClass n a true d t r) s_polymorphic
| doc_pointer_8 : documented P (CPointer 8) s_pointer_64
| doc_pointer_4 : documented P (CPointer 4) s_pointer_32
| doc_float_8s : forall a s q, uses_signaling P s -> documented P (CFloating 8 a true s q) s_float64_sNaN
| doc_float_8q : forall a s q, uses_quiet P s q -> documented P (CFloating 8 a true s q) s_float64_qNaN
| doc_float_4s : forall a s q, uses_signaling P s -> documented P (CFloating 4 a true s q) s_float32_sNaN
| doc_float_4q : forall a s q, uses_quiet P s q -> documented P (CFloating 4 a true s q) s_float32_qNaN
| doc_string_view : forall df, documented P (CStringView df) s_string_view
| doc_unique_ptr : forall n a, documented P (CUniquePtr true n a) s_unique_ptr
| doc_string : forall l al n a, pf_known_std P = true -> plain_allocator al -> documented P (CString l al n a) s_string
| doc_vector : forall al n a, pf_known_std P = true -> plain_allocator al -> documented P (CVector al n a) s_vector
| doc_padding : forall n a p o w t r, documented P (CClass n a p (Some (o, w)) t r) s_padding_member
| doc_sentinel : forall u named s st f, documented P (CEnum u named (Some s) st f) s_enumeration_sentinel
| doc_sentinel_start : forall u named se s, documented P (CEnum u named se (Some s) None) s_enumeration_sentinel_start
| doc_sentinel_start_end : forall u named se s e,
    documented P (CEnum u named se (Some s) (Some e)) s_enumeration_sentinel_start_end
| doc_enumeration : forall u named se st f, pf_enums P = true -> documented P (CEnum u named se st f) s_enumeration
| doc_member_pointer_4 : documented P (CMemberPointer 4) s_member_pointer_32
| doc_member_pointer_8 : forall n, (8 <= n)%nat -> documented P (CMemberPointer n) s_member_pointer_64
| doc_complex : forall c, documented P (CComplex c) s_complex
| doc_reference_option : documented P COptionRef s_reference_option
(* "opt::option: Recursively stores level value" *)
| doc_option_levels : forall c, (1 <= traits_max P false c)%N -> documented P (COption c) s_avaliable_option
| doc_option_flag : forall c, traits_max P false c = 0%N -> documented P (COption c) s_unavaliable_option.

(** A type that has its own specialisation of option_traits, or is const, is not covered. *)
Definition builtin (c : cty) : bool :=
  match c with
  | CSentTraits _ _ | CSentinel _ _ | CMember _ _ _ _ | CEnforce _ | CCustom _ _ _ _ _ _ | CConst _ => false
  | _ => true
  end.

(** The order in which the header tries the sections that can overlap; the documentation leaves it
    open.  Lower is first. *)
Definition rank (s : option_strategy) : nat :=
  match s with
  | s_polymorphic => 1
  | s_padding_member => 2
  | s_enumeration_sentinel => 3
  | s_enumeration_sentinel_start_end | s_enumeration_sentinel_start => 4
  | s_enumeration => 5
  | s_tuple_like => 6
  | s_reflectable => 7
  | _ => 0
  end%nat.
