(** Which mechanism option_traits<T> uses: dispatch_specializations and detemine_option_strategy
    (include/opt/option.hpp 994-1138), and the number of levels that follows (1140-1760).

    [cty] describes a C++ type by what the selection looks at: the template it is a specialisation of,
    whether it is const, its size, the enumerators and members it has.  Types.v models one type per
    mechanism; [to_ty] says which of them a described type is.  Nothing here runs at run time.

    Simplifications: volatile is left out; a member type that is a reference is [COther]; a class that
    has a specialisation of option_traits (CSentTraits ... CCustom) has, when it is const, none of the
    shapes that the selection looks for. *)
From Coq Require Import ZArith NArith List Bool Arith.
From Verif Require Import Outcome Words Ints Types.
Import ListNotations.
Open Scope N_scope.

(** The macros the selection depends on (the header's first 200 lines). *)
Record platform : Type := mkplatform {
  pf_ptr : nat;              (* sizeof(std::uintptr_t) *)
  pf_builtin : bool;         (* OPTION_USE_BUILTIN_TRAITS *)
  pf_known_std : bool;       (* !OPTION_UNKNOWN_STD *)
  pf_enums : bool;           (* OPTION_CAN_REFLECT_ENUM *)
  pf_pfr : bool              (* OPTION_HAS_PFR *)
}.

(** 1041, 1046: what is asked about an allocator *)
Record alloc : Type := mkalloc { a_empty : bool; a_final : bool }.
Definition ebo (a : alloc) : bool := a_empty a && negb (a_final a).

Inductive cty : Type :=
| COther (size align : nat)                    (* int, std::nullptr_t, unions, references, ...: nothing applies *)
| CBool
| CPointer (size : nat)                        (* T* *)
| CMemberPointer (size : nat)                  (* T U::* *)
| CFloating (size align : nat) (iec559 snan qnan : bool)   (* answers of std::numeric_limits *)
| CEnum (u : ity) (named : list N)             (* underlying type, values of the enumerators, and the *)
    (sent start fin : option Z)                (* enumerators SENTINEL, SENTINEL_START, SENTINEL_END *)
| CClass (size align : nat) (poly : bool)      (* a class: is it polymorphic, *)
    (padding : option (nat * nat))             (* the offset and size of its member PADDING, *)
    (tuple_like : option (list (nat * cty)))   (* its elements if std::tuple_size is specialised for it, *)
    (reflect : option (list (nat * cty)))      (* its members if boost.pfr reflects it *)
| CRefWrap
| CPair (o1 : nat) (c1 : cty) (o2 : nat) (c2 : cty) (size align : nat)
| CTuple (fs : list (nat * cty)) (size align : nat)
| CArray (n : nat) (c : cty)
| CStringView (data_first : bool)
| CString (lib : stdlib) (a : alloc) (size align : nat)
| CVector (a : alloc) (size align : nat)
| CUniquePtr (default_delete : bool) (size align : nat)
| CComplex (c : cty)
| COption (c : cty)                            (* opt::option<T>, T an object type *)
| COptionRef                                   (* opt::option<T&>, opt::option<T&&> *)
| CSentTraits (u : ity) (s : Z)                (* specialisations of option_traits: 1775 *)
| CSentinel (u : ity) (vals : list Z)          (* 3956 *)
| CMember (off : nat) (c : cty) (size align : nat) (* 4012 *)
| CEnforce (c : cty)                           (* 4032 *)
| CCustom (size align : nat) (max : N) (get : bytes -> res N) (set : N -> bytes -> res bytes) (inv : bytes -> Prop)
| CConst (c : cty).                            (* const c *)

(** 950-992 *)
Inductive option_strategy : Type :=
| s_none | s_other | s_bool | s_reference_wrapper | s_pair | s_tuple | s_array | s_avaliable_option
| s_unavaliable_option | s_reference_option | s_pointer_64 | s_pointer_32 | s_float64_sNaN | s_float64_qNaN
| s_float32_sNaN | s_float32_qNaN | s_polymorphic | s_string_view | s_string | s_vector | s_unique_ptr
| s_member_pointer_32 | s_member_pointer_64 | s_padding_member | s_tuple_like | s_enumeration_sentinel
| s_enumeration_sentinel_start | s_enumeration_sentinel_start_end | s_enumeration | s_complex | s_reflectable.

Definition is_some {A} (o : option A) : bool := match o with Some _ => true | None => false end.

Section Select.
Variable P : platform.

(** 994-1056.  [const]: the argument is const c; the specialisations are for unqualified types.
    [inner] is option_traits<T>::max_level for c = opt::option<T>. *)
Definition dispatch (const : bool) (c : cty) (inner : N) : option_strategy :=
  if const then s_other else
  match c with
  | COption _ => if 1 <=? inner then s_avaliable_option else s_unavaliable_option
  | COptionRef => s_reference_option
  | CBool => s_bool
  | CRefWrap => s_reference_wrapper
  | CPair _ _ _ _ _ _ => s_pair
  | CTuple [] _ _ => s_other                  (* the specialisation is for tuple<T0, Ts...> *)
  | CTuple _ _ _ => s_tuple
  | CArray n _ => if Nat.eqb n 0 then s_none else s_array
  | CStringView _ => s_string_view
  | CString _ a _ _ => if pf_known_std P then (if ebo a then s_string else s_none) else s_other
  | CVector a _ _ => if pf_known_std P then (if ebo a then s_vector else s_none) else s_other
  | CUniquePtr d _ _ => if d then s_unique_ptr else s_other
  | CComplex _ => s_complex
  | _ => s_other
  end.

(** The answers of the compiler; all of them look through const. *)
Definition is_pointer (c : cty) : bool := match c with CPointer _ => true | _ => false end.
Definition is_member_pointer (c : cty) : bool := match c with CMemberPointer _ => true | _ => false end.
Definition size_of (c : cty) : nat :=
  match c with
  | CPointer n | CMemberPointer n | CFloating n _ _ _ _ | CClass n _ _ _ _ _ => n
  | _ => 0                                    (* not asked for *)
  end.
Definition is_polymorphic (c : cty) : bool := match c with CClass _ _ p _ _ _ => p | _ => false end.
(** 683-705, 835 *)
Definition has_padding_member (c : cty) : bool := match c with CClass _ _ _ p _ _ => is_some p | _ => false end.
Definition is_custom_tuple_like (c : cty) : bool :=
  match c with
  | CClass _ _ _ _ t _ => is_some t
  | CPair _ _ _ _ _ _ | CTuple _ _ _ | CArray _ _ => true
  | _ => false
  end.
Definition is_reflectable (c : cty) : bool := match c with CClass _ _ _ _ _ r => is_some r | _ => false end.

(** 1076-1099 *)
Definition float_strategy (size : nat) (iec559 snan qnan : bool) : option_strategy :=
  if negb iec559 || (negb snan && negb qnan) then s_none
  else if Nat.eqb size 8 then
    (if Nat.eqb (pf_ptr P) 4 then s_float64_qNaN else if snan then s_float64_sNaN else s_float64_qNaN)
  else if Nat.eqb size 4 then
    (if Nat.eqb (pf_ptr P) 4 then s_float32_qNaN else if snan then s_float32_sNaN else s_float32_qNaN)
  else s_none.
(** 1111-1127 *)
Definition enum_strategy (u : ity) (sent start fin : option Z) : option_strategy :=
  if is_some sent then s_enumeration_sentinel
  else if is_some start then
    (if is_some fin then s_enumeration_sentinel_start_end else s_enumeration_sentinel_start)
  else if pf_enums P && negb (isg u) then s_enumeration
  else s_none.

(** 1058-1138 *)
Definition determine (const : bool) (c : cty) (inner : N) : option_strategy :=
  match dispatch const c inner with
  | s_other =>
      if is_pointer c then
        (if Nat.eqb (size_of c) 8 then s_pointer_64 else if Nat.eqb (size_of c) 4 then s_pointer_32 else s_none)
      else if is_member_pointer c then
        (if Nat.eqb (size_of c) 4 then s_member_pointer_32
         else if Nat.leb 8 (size_of c) then s_member_pointer_64 else s_none)
      else match c with
      | CFloating n _ i s q => float_strategy n i s q
      | _ =>
      if is_polymorphic c && Nat.leb (pf_ptr P) (size_of c) then s_polymorphic
      else if has_padding_member c then s_padding_member
      else match c with
      | CEnum u _ s st f => enum_strategy u s st f
      | _ =>
      if is_custom_tuple_like c then s_tuple_like
      else if pf_pfr P && is_reflectable c then s_reflectable
      else s_none
      end
      end
  | s => s
  end.

(** 1140-1760, 3276-3322: internal_option_traits<T, strategy>::max_level.  [elems] are the levels of the
    members (for [s_array]: of the elements), [inner] as above.  The traits of member pointers are
    for T U::*, which const member pointers are not (the primary template, 1140, applies). *)
Definition strategy_max (const : bool) (c : cty) (s : option_strategy) (elems : list N) (inner : N) : N :=
  match s with
  | s_none | s_other => 0
  | s_bool => 254
  | s_reference_wrapper | s_reference_option => 256
  | s_pointer_64 => 512
  | s_pointer_32 => 32
  | s_float64_sNaN | s_float64_qNaN | s_float32_sNaN | s_float32_qNaN => 256
  | s_polymorphic | s_string_view | s_string | s_vector | s_unique_ptr => 255
  | s_member_pointer_32 | s_member_pointer_64 => if const then 0 else 255
  | s_padding_member => match c with CClass _ _ _ (Some (_, w)) _ _ => padding_max w | _ => 0 end
  | s_enumeration => match c with CEnum u named _ _ _ => max_level (TEnumRefl (iw u) named) | _ => 0 end
  | s_enumeration_sentinel => 1
  | s_enumeration_sentinel_start => match c with CEnum u _ _ (Some s) _ => enum_start_max u s | _ => 0 end
  | s_enumeration_sentinel_start_end =>
      match c with CEnum u _ _ (Some s) (Some e) => enum_start_end_max u s e | _ => 0 end
  | s_pair => if nth 1 elems 0 <? nth 0 elems 0 then nth 0 elems 0 else nth 1 elems 0
  | s_array | s_complex => nth 0 elems 0
  | s_tuple | s_tuple_like | s_reflectable => find_max_level elems
  | s_avaliable_option => inner - 1
  | s_unavaliable_option => 254
  end.

(** 1762-1772 and the specialisations of option_traits: option_traits<T>::max_level for T = c, or
    T = const c.  std::tuple_element of a const type and the members of a const struct are const. *)
Fixpoint traits_max (const : bool) (c : cty) : N :=
  let internal elems inner :=
    if pf_builtin P then strategy_max const c (determine const c inner) elems inner else 0 in
  match c with
  | CConst c => traits_max true c
  | CSentTraits _ _ => if const then 0 else 1
  | CSentinel _ vals => if const then 0 else N.of_nat (length vals)
  | CMember _ c _ _ | CEnforce c => if const then 0 else traits_max false c
  | CCustom _ _ m _ _ _ => if const then 0 else m
  | COption c' => internal [] (traits_max false c')
  | CPair _ c1 _ c2 _ _ => internal [traits_max const c1; traits_max const c2] 0
  | CTuple fs _ _ => internal (map (fun f => traits_max const (snd f)) fs) 0
  | CArray n c' => internal (repeat (traits_max const c') n) 0
  | CComplex c' => internal [traits_max false c'] 0
  | CClass _ _ _ _ (Some fs) _ => internal (map (fun f => traits_max const (snd f)) fs) 0
  | CClass _ _ _ _ None (Some fs) => internal (map (fun f => traits_max const (snd f)) fs) 0
  | _ => internal [] 0
  end.

(** Whether set_level of option_traits<T> can be compiled, for T = c or const c: it writes through a
    pointer to the member that holds the level (memcpy to it, or an assignment), which must not be
    const.  The traits of complex (1745) write to a local variable.  Only asked if there are levels. *)
Fixpoint writable (const : bool) (c : cty) : bool :=
  match c with
  | CConst _ => false
  | CPair _ c1 _ c2 _ _ =>
      negb const && (if traits_max const c2 <? traits_max const c1 then writable const c1 else writable const c2)
  | CTuple fs _ _ | CClass _ _ false None (Some fs) _ | CClass _ _ false None None (Some fs) =>
      negb const &&
      nth (index_of_max (map (fun f => traits_max const (snd f)) fs)) (map (fun f => writable const (snd f)) fs) false
  | CArray _ c' | CMember _ c' _ _ | CEnforce c' => negb const && writable const c'
  | COption c' => negb const && (if 1 <=? traits_max false c' then writable false c' else true)
  | _ => negb const
  end.

(** opt::option<T> can be instantiated: it uses the levels of remove_cv_t<T> (1900), if there are any. *)
Definition instantiable (c : cty) : bool :=
  let c := match c with CConst c => c | _ => c end in
  (traits_max false c =? 0) || writable false c.

(** * The type of Types.v that a described type is *)

Fixpoint to_ty (c : cty) : ty :=
  let p := pf_ptr P in
  match c with
  | COther n a => TOpaque n a
  | CBool => TBool
  | CPointer n => if Nat.eqb n 8 then TPtr64 else if Nat.eqb n 4 then TPtr32 else TOpaque n n
  | CMemberPointer n => if Nat.eqb n 4 then TMemPtr32 else if Nat.leb 8 n then TMemPtr64 n else TOpaque n n
  | CFloating n a iec sn qn =>
      let quiet := Nat.eqb p 4 || negb sn in
      if iec && (sn || qn) then
        (if Nat.eqb n 8 then TFloat64 quiet else if Nat.eqb n 4 then TFloat32 quiet else TOpaque n a)
      else TOpaque n a
  | CEnum u named (Some s) _ _ => TEnumSent u s
  | CEnum u named None (Some s) (Some e) => TEnumStartEnd u s e
  | CEnum u named None (Some s) None => TEnumStart u s
  | CEnum u named None None _ => if pf_enums P && negb (isg u) then TEnumRefl (iw u) named else TOpaque (iw u) (iw u)
  | CClass n a true _ _ _ => TPoly p n a
  | CClass n a false (Some (o, w)) _ _ => TPadding n a o w
  | CClass n a false None (Some fs) _ => TTuple (map (fun f => (fst f, to_ty (snd f))) fs) n a
  | CClass n a false None None (Some fs) =>
      if pf_pfr P then TTuple (map (fun f => (fst f, to_ty (snd f))) fs) n a else TOpaque n a
  | CClass n a false None None None => TOpaque n a
  | CRefWrap => TRefWrap p
  | CPair o1 c1 o2 c2 n a => TPair o1 (to_ty c1) o2 (to_ty c2) n a
  | CTuple fs n a => TTuple (map (fun f => (fst f, to_ty (snd f))) fs) n a
  | CArray n c' => TArray n (to_ty c')
  | CStringView df => TStringView p df
  | CString lib a n al => if pf_known_std P && ebo a then TString p lib else TOpaque n al
  | CVector a n al => if pf_known_std P && ebo a then TVector p else TOpaque n al
  | CUniquePtr d n al => if d then TUniquePtr p else TOpaque n al
  | CComplex c' => TComplex (to_ty c')
  | COption c' => TOption (to_ty c')
  | COptionRef => TOptRef p
  | CSentTraits u s => TSentTraits u s
  | CSentinel u vals => TSentinel u vals
  | CMember o c' n a => TMember o (to_ty c') n a
  | CEnforce c' => TEnforce (to_ty c')
  | CCustom n a m g s i => TCustom n a m g s i
  | CConst c' => TOpaque (sizeof (to_ty c')) (alignof (to_ty c'))  (* a const member cannot hold levels *)
  end.
End Select.

(** No const anywhere in the description. *)
Fixpoint const_free (c : cty) : bool :=
  match c with
  | CConst _ => false
  | CPair _ c1 _ c2 _ _ => const_free c1 && const_free c2
  | CTuple fs _ _ => forallb (fun f => const_free (snd f)) fs
  | CClass _ _ _ _ tl rf =>
      match tl with Some fs => forallb (fun f => const_free (snd f)) fs | None => true end
      && match rf with Some fs => forallb (fun f => const_free (snd f)) fs | None => true end
  | CArray _ c' | CComplex c' | COption c' | CMember _ c' _ _ | CEnforce c' => const_free c'
  | _ => true
  end.

(** Every option inside c (c itself excluded) is one of an unqualified type and can be instantiated,
    and polymorphic classes have room for their vtable pointer. *)
Fixpoint sound (P : platform) (c : cty) : bool :=
  match c with
  | CConst c' => sound P c'
  | CPair _ c1 _ c2 _ _ => sound P c1 && sound P c2
  | CTuple fs _ _ => forallb (fun f => sound P (snd f)) fs
  | CClass n _ poly _ tl rf =>
      (negb poly || Nat.leb (pf_ptr P) n)
      && match tl with Some fs => forallb (fun f => sound P (snd f)) fs | None => true end
      && match rf with Some fs => forallb (fun f => sound P (snd f)) fs | None => true end
  | CComplex c' => sound P c' && const_free c'
  | CArray _ c' | CMember _ c' _ _ | CEnforce c' => sound P c'
  | COption c' => sound P c' && instantiable P c' && match c' with CConst _ => false | _ => true end
  | _ => true
  end.

(** The mechanisms that each constructor of Types.v stands for (its get_level and set_level are those
    of internal_option_traits<T, s>). *)
Definition stands_for (t : ty) (s : option_strategy) : bool :=
  match t, s with
  | TOpaque _ _, s_none | TBool, s_bool | TRefWrap _, s_reference_wrapper | TPtr64, s_pointer_64
  | TPtr32, s_pointer_32 | TFloat64 true, s_float64_qNaN | TFloat64 false, s_float64_sNaN
  | TFloat32 true, s_float32_qNaN | TFloat32 false, s_float32_sNaN | TPoly _ _ _, s_polymorphic
  | TStringView _ _, s_string_view | TUniquePtr _, s_unique_ptr | TMemPtr32, s_member_pointer_32
  | TMemPtr64 _, s_member_pointer_64 | TPadding _ _ _ _, s_padding_member | TEnumRefl _ _, s_enumeration
  | TEnumSent _ _, s_enumeration_sentinel | TEnumStart _ _, s_enumeration_sentinel_start
  | TEnumStartEnd _ _ _, s_enumeration_sentinel_start_end | TString _ _, s_string | TVector _, s_vector
  | TComplex _, s_complex | TPair _ _ _ _ _ _, s_pair | TTuple _ _ _, s_tuple | TTuple _ _ _, s_tuple_like
  | TTuple _ _ _, s_reflectable | TOptRef _, s_reference_option => true
  | TArray n _, s_none => Nat.eqb n 0
  | TArray n _, s_array => negb (Nat.eqb n 0)
  | TOption t, s_avaliable_option => negb (max_level t =? 0)
  | TOption t, s_unavaliable_option => max_level t =? 0
  | _, _ => false
  end.
