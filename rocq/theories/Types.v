(** The universe of modelled C++ types and the option_traits of each.

    A type [ty] stands for one C++ object type T together with its object layout.  For aggregates
    the layout (field offsets, size, alignment) is given explicitly, so every ABI is covered; the
    well-formedness predicate of TypesSpec.v asks only that fields are disjoint and inside the object.

    [p : nat] in a constructor is sizeof(std::uintptr_t) on the platform (8 or 4).

    Modelled: include/opt/option.hpp 802-1011 (selection), 1140-1760 (traits), 1775-1786,
    3276-3322 (options as values), 3930-4050 (sentinel, member, enforce). *)
From Coq Require Import ZArith NArith List Bool.
From Verif Require Import Outcome Words Ints.
Import ListNotations.
Open Scope N_scope.

(** Layout family of std::basic_string (option.hpp 1614-1661).  [STL debug]: MSVC STL with
    _ITERATOR_DEBUG_LEVEL != 0 or == 0; [LibCpp alt]: _LIBCPP_ABI_ALTERNATE_STRING_LAYOUT or not. *)
Inductive stdlib := STL (debug : bool) | LibCpp (alt : bool) | LibStdCpp.

Inductive ty : Type :=
| TOpaque (size align : nat)               (* no unused states known: int, long double, ... *)
| TBool
| TRefWrap (p : nat)                       (* std::reference_wrapper<T> *)
| TPtr64                                   (* T*, 8 bytes *)
| TPtr32                                   (* T*, 4 bytes *)
| TFloat64 (quiet : bool)                  (* 8-byte IEEE float; which NaN family is selected *)
| TFloat32 (quiet : bool)
| TPoly (p size align : nat)               (* polymorphic class: vtable pointer first *)
| TStringView (p : nat) (data_first : bool)(* libc++/MSVC: data first; libstdc++: length first *)
| TUniquePtr (p : nat)
| TMemPtr32                                (* pointer to member, 4 bytes *)
| TMemPtr64 (size : nat)                   (* pointer to member, >= 8 bytes *)
| TPadding (size align off w : nat)        (* class with unsigned member PADDING, w bytes at off *)
| TEnumRefl (w : nat) (named : list N)     (* unsigned enum, all named enumerator values *)
| TEnumSent (it : ity) (s : Z)             (* enum with enumerator SENTINEL = s *)
| TEnumStart (it : ity) (s : Z)            (* enum with SENTINEL_START = s *)
| TEnumStartEnd (it : ity) (s e : Z)       (* enum with SENTINEL_START = s, SENTINEL_END = e *)
| TString (p : nat) (lib : stdlib)
| TVector (p : nat)
| TSentTraits (it : ity) (s : Z)           (* integer-like T with opt::sentinel_option_traits<T> *)
| TSentinel (it : ity) (vals : list Z)     (* opt::sentinel<T, vals...> *)
| TComplex (t : ty)                        (* std::complex<T> *)
| TPair (o1 : nat) (t1 : ty) (o2 : nat) (t2 : ty) (size align : nat)
| TTuple (fs : list (nat * ty)) (size align : nat)  (* std::tuple, tuple-like, reflected aggregate *)
| TArray (n : nat) (t : ty)                (* std::array<T, n> *)
| TMember (off : nat) (t : ty) (size align : nat)   (* opt::member<S, &S::m>, m of type t at off *)
| TEnforce (t : ty)                        (* opt::enforce<T> *)
| TOption (t : ty)                         (* opt::option<T> *)
| TOptRef (p : nat)                        (* opt::option<T&> *)
| TCustom (size align : nat) (max : N)     (* a class with a user-written option_traits specialisation: *)
    (get : bytes -> res N)                 (* its get_level, *)
    (set : N -> bytes -> res bytes)        (* its set_level, *)
    (inv : bytes -> Prop).                 (* and which of its states are values (the class invariant) *)

(** * Constants of the traits, one per source line cited *)

(** option.hpp 1188: pointer_64::ptr_offset. *)
Definition ptr64_start : N := 0xF8E1B1825D5D6C67.
(** option.hpp 1204: pointer_32::ptr_offset = 0xFFFFFFFF - 63. *)
Definition ptr32_start : N := 0xFFFFFFFF - 63.
(** option.hpp 1219: float64_sNaN::nan_start (written there in binary). *)
Definition f64s_start : N := 0xFFF6C79F55B0898F.
(** option.hpp 1235: float64_qNaN::nan_start. *)
Definition f64q_start : N := 0xFFFBF26430BB3557.
(** option.hpp 1251: float32_sNaN::nan_start. *)
Definition f32s_start : N := 0xFFBF69AF.
(** option.hpp 1267: float32_qNaN::nan_start. *)
Definition f32q_start : N := 0xFFC3EFB5.
(** option.hpp 1366: std::uintptr_t(-1) - 89151. *)
Definition poly_start (p : nat) : N := wbase p - 1 - 89151.
(** option.hpp 1383: std::uintptr_t(-1) - 32185. *)
Definition sv_start (p : nat) : N := wbase p - 1 - 32185.
(** option.hpp 1400: std::uintptr_t(-1) - 46508. *)
Definition uptr_start (p : nat) : N := wbase p - 1 - 46508.
(** option.hpp 1467. *)
Definition memptr32_start : N := 0xFFFFFC17.
(** option.hpp 1484. *)
Definition memptr64_start : N := 0xFFFFFFFFD3B2F9B2.
(** option.hpp 1715: std::uintptr_t(-1) - 76326. *)
Definition vec_start (p : nat) : N := wbase p - 1 - 76326.

(** * The recurring shape "one word holds start + level"

    Every trait of option.hpp 1155-1279, 1363-1412, 1463-1496, 1712-1729 reads one w-byte unsigned
    integer, subtracts a constant in that width, and stores constant + level back. *)
Definition word_get (w : nat) (start : N) (off : nat) (b : bytes) : res N :=
  Ok (wsub (wbase w) (read_word off w b) start).
Definition word_set (w : nat) (start max : N) (off : nat) (l : N) (b : bytes) : res bytes :=
  verify (l <? max) (Ok (write_word off w (start + l) b)).

(** * Selection of the carrier in aggregates *)

(** option.hpp 802-814, index_of_max: first index holding the largest value. [idx], [max_value] and
    [i] are the loop variables. *)
Fixpoint index_of_max_loop (idx : nat) (max_value : N) (i : nat) (rest : list N) : nat :=
  match rest with
  | [] => idx
  | x :: rest' => if max_value <? x then index_of_max_loop i x (S i) rest'
                  else index_of_max_loop idx max_value (S i) rest'
  end.
Definition index_of_max (levels : list N) : nat :=
  match levels with
  | [] => 0%nat (* not called: find_max_level<> is a separate specialization, option.hpp 825-831 *)
  | x :: rest => index_of_max_loop 0 x 1 rest
  end.

(** option.hpp 816-831, find_max_level<Traits...>::type::max_level (0 for the empty pack). *)
Definition find_max_level (levels : list N) : N := nth (index_of_max levels) levels 0.

(** * Enumerator reflection *)

(** option.hpp 846-898 (max_enum_value_impl2 up to the rounding) with the list of named enumerator
    values standing for what the function recovers from the pretty-printed template arguments; the
    scan of the printed text itself is modelled in EnumScan.v.  The arguments are the candidate
    values max-1, max-2, ..., 0 in this order: if the first is named the result is 0; otherwise it
    is 1 + the largest named candidate, or 0 if none is named. *)
Fixpoint largest_named (named : list N) (k : nat) : N :=
  match k with
  | O => 0
  | S k' => if existsb (N.eqb (N.of_nat k')) named then N.of_nat k else largest_named named k'
  end.
Definition enum_bound (named : list N) (probe : nat) : N :=
  if existsb (N.eqb (N.of_nat probe - 1)) named then 0 else largest_named named (probe - 1).

(** option.hpp 899-908: round up to a power of two (bit hack on 16 bits). *)
Definition round_up_pow2 (x : N) : N :=
  let c := x - 1 in
  let c := N.lor c (N.shiftr c 1) in
  let c := N.lor c (N.shiftr c 2) in
  let c := N.lor c (N.shiftr c 4) in
  let c := N.lor c (N.shiftr c 8) in
  c + 1.

(** option.hpp 846-909 and 911-920.  [current] is 0 only on the early returns. *)
Definition max_enum_value (named : list N) (probe : nat) : N :=
  let c := enum_bound named probe in
  if c =? 0 then 0 else round_up_pow2 c.

(** option.hpp 1517: probe_value. *)
Definition enum_probe (w : nat) : nat := if (w =? 1)%nat then 256 else 1024.
Definition enum_start (w : nat) (named : list N) : N := max_enum_value named (enum_probe w).

(** * max_level *)

(** option.hpp 1502: std::uintmax_t(~member_type(0)).  For member types narrower than int the
    operand is promoted, ~0 is the int -1, and the conversion yields 2^64 - 1. *)
Definition padding_max (w : nat) : N :=
  if (w <? 4)%nat then umax_base - 1 else wbase w - 1.

(** option.hpp 1565: numeric_limits<underlying>::max() - std::uintmax_t(start) + 1, in uintmax_t. *)
Definition enum_start_max (it : ity) (s : Z) : N :=
  z_to_umax (imax it - s + 1).

(** option.hpp 1584: end - start + 1 in the promoted underlying type, converted to uintmax_t.
    Signed overflow here is in a constant expression, so such an enum does not compile; the
    well-formedness predicate excludes it. *)
Definition enum_start_end_max (it : ity) (s e : Z) : N :=
  if ((iw it <? 4)%nat || isg it)%bool then z_to_umax (e - s + 1)
  else z_to_umax ((e - s + 1) mod ibase it)%Z.

Fixpoint max_level (t : ty) : N :=
  match t with
  | TOpaque _ _ => 0                      (* 1140-1143: the primary template *)
  | TBool => 254                          (* 1159 *)
  | TRefWrap _ => 256                     (* 1172 *)
  | TPtr64 => 512                         (* 1190 *)
  | TPtr32 => 32                          (* 1206 *)
  | TFloat64 _ => 256                     (* 1221, 1237 *)
  | TFloat32 _ => 256                     (* 1253, 1269 *)
  | TPoly _ _ _ => 255                    (* 1368 *)
  | TStringView _ _ => 255                (* 1385 *)
  | TUniquePtr _ => 255                   (* 1402 *)
  | TMemPtr32 => 255                      (* 1469 *)
  | TMemPtr64 _ => 255                    (* 1486 *)
  | TPadding _ _ _ w => padding_max w     (* 1502 *)
  | TEnumRefl w named =>                  (* 1529-1530 *)
      if enum_start w named =? 0 then 0 else N.of_nat (enum_probe w) - enum_start w named
  | TEnumSent _ _ => 1                    (* 1548 *)
  | TEnumStart it s => enum_start_max it s
  | TEnumStartEnd it s e => enum_start_end_max it s e
  | TString _ _ => 255                    (* 1662 *)
  | TVector _ => 255                      (* 1717 *)
  | TSentTraits _ _ => 1                  (* 1776 *)
  | TSentinel _ vals => N.of_nat (length vals)  (* 3962: sizeof...(Values) *)
  | TComplex t => max_level t             (* 1736 *)
  | TPair _ t1 _ t2 _ _ =>                (* 1290-1296: the first only if strictly larger *)
      if max_level t2 <? max_level t1 then max_level t1 else max_level t2
  | TTuple fs _ _ =>                      (* 1319, 1352, 1602 *)
      find_max_level (map (fun f => max_level (snd f)) fs)
  | TArray n t => if (n =? 0)%nat then 0 else max_level t  (* 1031-1033, 1333 *)
  | TMember _ t _ _ => max_level t        (* 4021 *)
  | TEnforce t => max_level t             (* 4039 *)
  | TOption t =>                          (* 998-1004, 3281, 3296 *)
      let m := max_level t in if m =? 0 then 254 else m - 1
  | TOptRef _ => 256                      (* 3312 *)
  | TCustom _ _ m _ _ _ => m
  end.

(** * Size and alignment *)

Definition round_up (n al : nat) : nat := ((n + al - 1) / al * al)%nat.

(** option.hpp 1614-1661: layout table of std::basic_string. *)
Definition string_size (p : nat) (lib : stdlib) : nat :=
  match lib with
  | STL false => if (p =? 8)%nat then 32 else 24
  | STL true => if (p =? 8)%nat then 40 else 28
  | LibCpp _ => if (p =? 8)%nat then 24 else 12
  | LibStdCpp => if (p =? 8)%nat then 32 else 24
  end.
Definition string_size_offset (p : nat) (lib : stdlib) : nat :=
  match lib with
  | STL false => 16
  | STL true => if (p =? 8)%nat then 24 else 20
  | LibCpp _ => if (p =? 8)%nat then 8 else 4
  | LibStdCpp => if (p =? 8)%nat then 8 else 4
  end.
(** capacity_offset (STL, libc++) or data_offset (libstdc++): the word that tells a real string from
    an unused state. *)
Definition string_mark_offset (p : nat) (lib : stdlib) : nat :=
  match lib with
  | STL false => if (p =? 8)%nat then 24 else 20
  | STL true => if (p =? 8)%nat then 32 else 24
  | LibCpp false => 0
  | LibCpp true => if (p =? 8)%nat then 16 else 8
  | LibStdCpp => 0
  end.
(** the value of that word in an unused state: capacity 0, magic_capacity (little-endian rows of
    1630-1651), or a null data pointer. *)
Definition string_mark (p : nat) (lib : stdlib) : N :=
  match lib with
  | STL _ => 0
  | LibCpp false => 1
  | LibCpp true => wbase p / 2
  | LibStdCpp => 0
  end.

Fixpoint alignof (t : ty) : nat :=
  match t with
  | TOpaque _ a => a
  | TBool => 1
  | TRefWrap p => p
  | TPtr64 => 8
  | TPtr32 => 4
  | TFloat64 _ => 8
  | TFloat32 _ => 4
  | TPoly _ _ a => a
  | TStringView p _ => p
  | TUniquePtr p => p
  | TMemPtr32 => 4
  | TMemPtr64 _ => 8
  | TPadding _ a _ _ => a
  | TEnumRefl w _ => w
  | TEnumSent it _ => iw it
  | TEnumStart it _ => iw it
  | TEnumStartEnd it _ _ => iw it
  | TString p _ => p
  | TVector p => p
  | TSentTraits it _ => iw it
  | TSentinel it _ => iw it
  | TComplex t => alignof t
  | TPair _ _ _ _ _ a => a
  | TTuple _ _ a => a
  | TArray _ t => alignof t
  | TMember _ _ _ a => a
  | TEnforce t => alignof t
  | TOption t => alignof t
  | TOptRef p => p
  | TCustom _ a _ _ _ _ => a
  end.

(** option.hpp 1898-2110: option<T> is a union holding T, followed by a bool when T has no unused
    state.  option_base / enable_copy_move / option add no members (2135-2399, 2793). *)
Fixpoint sizeof (t : ty) : nat :=
  match t with
  | TOpaque n _ => n
  | TBool => 1
  | TRefWrap p => p
  | TPtr64 => 8
  | TPtr32 => 4
  | TFloat64 _ => 8
  | TFloat32 _ => 4
  | TPoly _ n _ => n
  | TStringView p _ => 2 * p
  | TUniquePtr p => p
  | TMemPtr32 => 4
  | TMemPtr64 n => n
  | TPadding n _ _ _ => n
  | TEnumRefl w _ => w
  | TEnumSent it _ => iw it
  | TEnumStart it _ => iw it
  | TEnumStartEnd it _ _ => iw it
  | TString p lib => string_size p lib
  | TVector p => 3 * p
  | TSentTraits it _ => iw it
  | TSentinel it _ => iw it
  | TComplex t => 2 * sizeof t
  | TPair _ _ _ _ n _ => n
  | TTuple _ n _ => n
  | TArray n t => if (n =? 0)%nat then alignof t else n * sizeof t
  | TMember _ _ n _ => n
  | TEnforce t => sizeof t
  | TOption t =>
      if max_level t =? 0 then round_up (sizeof t + 1) (alignof t) else sizeof t
  | TOptRef p => p
  | TCustom n _ _ _ _ _ => n
  end.

(** * get_level / set_level *)

(** Trait of a member at byte offset [off], occupying [n] bytes. *)
Definition sub_get (get : bytes -> res N) (off n : nat) (b : bytes) : res N := get (slice off n b).
Definition sub_set (set : N -> bytes -> res bytes) (off n : nat) (l : N) (b : bytes) : res bytes :=
  rmap (fun s => splice off s b) (set l (slice off n b)).

(** A call of a member of option_traits<T> that does not exist (max_level == 0): ill-formed in C++,
    [UB] here so that no theorem can rest on it. *)
Definition no_get (b : bytes) : res N := UB.
Definition no_set (l : N) (b : bytes) : res bytes := UB.

(** option.hpp 1155-1167 *)
Definition bool_get (off : nat) (b : bytes) : res N := word_get 1 2 off b.
Definition bool_set (off : nat) (l : N) (b : bytes) : res bytes := word_set 1 2 254 off l b.

(** option.hpp 1379-1395 *)
Definition sv_data_off (p : nat) (data_first : bool) : nat := if data_first then 0%nat else p.
Definition sv_size_off (p : nat) (data_first : bool) : nat := if data_first then p else 0%nat.
Definition sv_set (p : nat) (df : bool) (l : N) (b : bytes) : res bytes :=
  verify (l <? 255)
    (Ok (write_word (sv_size_off p df) p 0 (write_word (sv_data_off p df) p (sv_start p + l) b))).

(** option.hpp 1497-1512 *)
Definition padding_get (off w : nat) (b : bytes) : res N :=
  Ok (wsub umax_base (read_word off w b) 1).
Definition padding_set (off w : nat) (l : N) (b : bytes) : res bytes :=
  verify (l <? padding_max w) (Ok (write_word off w (to_umax (l + 1)) b)).

(** option.hpp 1513-1540 *)
Definition enum_get (w : nat) (named : list N) (b : bytes) : res N :=
  Ok (wsub umax_base (read_word 0 w b) (enum_start w named)).
Definition enum_set (w : nat) (named : list N) (l : N) (b : bytes) : res bytes :=
  verify (l <? max_level (TEnumRefl w named))
    (Ok (write_word 0 w (to_umax (l + enum_start w named)) b)).

(** option.hpp 1541-1557 *)
Definition enum_sent_get (it : ity) (s : Z) (b : bytes) : res N :=
  rmap z_to_umax (int_sub it (int_decode it b) s).
Definition enum_sent_set (it : ity) (s : Z) (l : N) (b : bytes) : res bytes :=
  verify (l =? 0) (Ok (int_encode it s)).

(** option.hpp 1558-1595: start and start_end differ only in max_level. *)
Definition enum_range_get (it : ity) (s : Z) (b : bytes) : res N :=
  rmap z_to_umax (int_sub it (int_decode it b) s).
Definition enum_range_set (it : ity) (s : Z) (max : N) (l : N) (b : bytes) : res bytes :=
  verify (l <? max) (Ok (int_encode it (s + Z.of_N l))).

(** option.hpp 1664-1710 *)
Definition string_get (p : nat) (lib : stdlib) (b : bytes) : res N :=
  if read_word (string_mark_offset p lib) p b =? string_mark p lib
  then Ok (read_word (string_size_offset p lib) p b)
  else Ok (umax_base - 1).
Definition string_set (p : nat) (lib : stdlib) (l : N) (b : bytes) : res bytes :=
  verify (l <? 255)
    (Ok (write_word (string_size_offset p lib) p l
          (write_word (string_mark_offset p lib) p (string_mark p lib) b))).

(** option.hpp 1774-1786 *)
Definition sent_traits_get (it : ity) (s : Z) (b : bytes) : res N :=
  Ok (if (int_decode it b =? s)%Z then 0 else 1).
Definition sent_traits_set (it : ity) (s : Z) (l : N) (b : bytes) : res bytes :=
  verify (l =? 0) (Ok (int_encode it s)).

(** option.hpp 3934-3943 *)
Fixpoint sentinel_get_impl (i : N) (vals : list Z) (x : Z) : N :=
  match vals with
  | [] => umax_base - 1
  | v :: vals' => if (x =? v)%Z then i else sentinel_get_impl (i + 1) vals' x
  end.
(** option.hpp 3944-3953 *)
Fixpoint sentinel_set_impl (i : N) (vals : list Z) (l : N) : res Z :=
  match vals with
  | [] => Verify
  | v :: vals' => if l =? i then Ok v else sentinel_set_impl (i + 1) vals' l
  end.
(** option.hpp 3956-3969 *)
Definition sentinel_get (it : ity) (vals : list Z) (b : bytes) : res N :=
  Ok (sentinel_get_impl 0 vals (int_decode it b)).
Definition sentinel_set (it : ity) (vals : list Z) (l : N) (b : bytes) : res bytes :=
  rmap (int_encode it) (sentinel_set_impl 0 vals l).

(** option.hpp 1731-1749 (complex): goes through a zero-initialised local real part. *)
Definition complex_set (set : N -> bytes -> res bytes) (max : N) (n : nat) (l : N) (b : bytes)
  : res bytes :=
  verify (l <? max) (rmap (fun s => splice 0 s b) (set l (repeat 0 n))).

(** option.hpp 3276-3289 (avaliable_option) *)
Definition avail_get (get : bytes -> res N) (b : bytes) : res N :=
  rmap (fun l => wsub umax_base l 1) (get b).
Definition avail_set (set : N -> bytes -> res bytes) (l : N) (b : bytes) : res bytes :=
  set (to_umax (l + 1)) b.

(** option.hpp 3307-3321 (reference_option); no VERIFY there *)
Definition optref_get (p : nat) (b : bytes) : res N :=
  Ok (wsub umax_base (read_word 0 p b) 1).
Definition optref_set (p : nat) (l : N) (b : bytes) : res bytes :=
  Ok (write_word 0 p (to_umax (l + 1)) b).

Fixpoint get_level (t : ty) (b : bytes) {struct t} : res N :=
  match t with
  | TOpaque _ _ => no_get b
  | TBool => bool_get 0 b
  | TRefWrap p => word_get p 0 0 b
  | TPtr64 => word_get 8 ptr64_start 0 b
  | TPtr32 => word_get 4 ptr32_start 0 b
  | TFloat64 q => word_get 8 (if q then f64q_start else f64s_start) 0 b
  | TFloat32 q => word_get 4 (if q then f32q_start else f32s_start) 0 b
  | TPoly p _ _ => word_get p (poly_start p) 0 b
  | TStringView p df => word_get p (sv_start p) (sv_data_off p df) b
  | TUniquePtr p => word_get p (uptr_start p) 0 b
  | TMemPtr32 => word_get 4 memptr32_start 0 b
  | TMemPtr64 _ => word_get 8 memptr64_start 0 b
  | TPadding _ _ off w => padding_get off w b
  | TEnumRefl w named => enum_get w named b
  | TEnumSent it s => enum_sent_get it s b
  | TEnumStart it s => enum_range_get it s b
  | TEnumStartEnd it s _ => enum_range_get it s b
  | TString p lib => string_get p lib b
  | TVector p => word_get p (vec_start p) 0 b
  | TSentTraits it s => sent_traits_get it s b
  | TSentinel it vals => sentinel_get it vals b
  | TComplex t => sub_get (get_level t) 0 (sizeof t) b
  | TPair o1 t1 o2 t2 _ _ =>
      if max_level t2 <? max_level t1 then sub_get (get_level t1) o1 (sizeof t1) b
      else sub_get (get_level t2) o2 (sizeof t2) b
  | TTuple fs _ _ =>
      nth (index_of_max (map (fun f => max_level (snd f)) fs))
          (map (fun '(o, ft) => sub_get (get_level ft) o (sizeof ft)) fs) no_get b
  | TArray n t => if (n =? 0)%nat then no_get b else sub_get (get_level t) 0 (sizeof t) b
  | TMember off t _ _ => sub_get (get_level t) off (sizeof t) b
  | TEnforce t => get_level t b
  | TOption t =>
      if max_level t =? 0 then bool_get (sizeof t) b else avail_get (get_level t) b
  | TOptRef p => optref_get p b
  | TCustom _ _ _ get _ _ => get b
  end.

Fixpoint set_level (t : ty) (l : N) (b : bytes) {struct t} : res bytes :=
  match t with
  | TOpaque _ _ => no_set l b
  | TBool => bool_set 0 l b
  | TRefWrap p => word_set p 0 256 0 l b
  | TPtr64 => word_set 8 ptr64_start 512 0 l b
  | TPtr32 => word_set 4 ptr32_start 32 0 l b
  | TFloat64 q => word_set 8 (if q then f64q_start else f64s_start) 256 0 l b
  | TFloat32 q => word_set 4 (if q then f32q_start else f32s_start) 256 0 l b
  | TPoly p _ _ => word_set p (poly_start p) 255 0 l b
  | TStringView p df => sv_set p df l b
  | TUniquePtr p => word_set p (uptr_start p) 255 0 l b
  | TMemPtr32 => word_set 4 memptr32_start 255 0 l b
  | TMemPtr64 _ => word_set 8 memptr64_start 255 0 l b
  | TPadding _ _ off w => padding_set off w l b
  | TEnumRefl w named => enum_set w named l b
  | TEnumSent it s => enum_sent_set it s l b
  | TEnumStart it s => enum_range_set it s (enum_start_max it s) l b
  | TEnumStartEnd it s e => enum_range_set it s (enum_start_end_max it s e) l b
  | TString p lib => string_set p lib l b
  | TVector p => word_set p (vec_start p) 255 0 l b
  | TSentTraits it s => sent_traits_set it s l b
  | TSentinel it vals => sentinel_set it vals l b
  | TComplex t => complex_set (set_level t) (max_level t) (sizeof t) l b
  | TPair o1 t1 o2 t2 _ _ =>
      if max_level t2 <? max_level t1 then sub_set (set_level t1) o1 (sizeof t1) l b
      else sub_set (set_level t2) o2 (sizeof t2) l b
  | TTuple fs _ _ =>
      nth (index_of_max (map (fun f => max_level (snd f)) fs))
          (map (fun '(o, ft) => sub_set (set_level ft) o (sizeof ft)) fs) no_set l b
  | TArray n t => if (n =? 0)%nat then no_set l b else sub_set (set_level t) 0 (sizeof t) l b
  | TMember off t _ _ => sub_set (set_level t) off (sizeof t) l b
  | TEnforce t => set_level t l b
  | TOption t =>
      if max_level t =? 0 then bool_set (sizeof t) l b else avail_set (set_level t) l b
  | TOptRef p => optref_set p l b
  | TCustom _ _ _ _ set _ => set l b
  end.
