(** Specification side: which object representations are values of a type, and what a user observes.

    Nothing here mentions levels except where an option's own has_value() is consulted. *)
From Coq Require Import ZArith NArith List Bool.
From Verif Require Import Outcome Words Ints Types OptBytes.
Import ListNotations.
Open Scope N_scope.

(** * What a user sees *)

(** The value held in an object, as seen through has_value() and get() at every layer.  Bytes of a
    scalar or of a class without options inside stand for themselves; [VBad] is "undefined behaviour
    when observed". *)
Inductive val : Type :=
| VBytes (b : bytes)
| VTup (vs : list val)
| VNone
| VSome (v : val)
| VBad.

Fixpoint decode (t : ty) (b : bytes) {struct t} : val :=
  match t with
  | TComplex t => VTup [decode t (slice 0 (sizeof t) b); decode t (slice (sizeof t) (sizeof t) b)]
  | TPair o1 t1 o2 t2 _ _ => VTup [decode t1 (slice o1 (sizeof t1) b); decode t2 (slice o2 (sizeof t2) b)]
  | TTuple fs _ _ => VTup (map (fun '(o, ft) => decode ft (slice o (sizeof ft) b)) fs)
  | TArray n t => VTup (map (fun i => decode t (slice (i * sizeof t) (sizeof t) b)) (seq 0 n))
  | TEnforce t => decode t b
  | TOption t =>
      match opt_has_value t b with
      | Ok true => VSome (decode t (slice 0 (sizeof t) b))
      | Ok false => VNone
      | _ => VBad
      end
  | TOptRef _ => if le_decode b =? 0 then VNone else VSome (VBytes b)
  | _ => VBytes b
  end.

(** * Platform facts about addresses *)

(** Objects, functions and vtables live neither in the first page of the address space nor in its
    last 128 KiB. *)
Definition object_addr (p : nat) (a : N) : Prop := 4096 <= a /\ a + 131072 <= wbase p.

(** x86-64 canonical addresses (48-bit or 57-bit paging: bits 56..63 all equal). *)
Definition canonical (a : N) : Prop := a < 2 ^ 56 \/ 2 ^ 64 - 2 ^ 56 <= a /\ a < 2 ^ 64.

(** A value that can be formed from the named enumerators: any bitwise-or of them (a plain enumerator
    is the or of itself; no enumerator at all is 0, the value-initialised enum). *)
Inductive flag_union (named : list N) : N -> Prop :=
| fu_zero : flag_union named 0
| fu_or e x : In e named -> flag_union named x -> flag_union named (N.lor e x).

(** * Well-formed types: descriptions a C++ implementation can produce *)

Definition wf_ity (it : ity) : Prop := iw it = 1%nat \/ iw it = 2%nat \/ iw it = 4%nat \/ iw it = 8%nat.
Definition wf_p (p : nat) : Prop := p = 4%nat \/ p = 8%nat.
Definition wf_w (w : nat) : Prop := w = 1%nat \/ w = 2%nat \/ w = 4%nat \/ w = 8%nat.
Definition wf_layout (size align : nat) : Prop := (0 < size /\ 0 < align /\ Nat.divide align size)%nat.

(** The number of levels the traits of [t] can really tell apart.  It equals max_level except for
    two kinds of type (and for types that use one of them as their carrier):
    - a class whose PADDING member is narrower than int (option.hpp 1502 overstates it there);
    - an enum with a negative SENTINEL_START and a signed underlying type at least as wide as int
      (option.hpp 1569 overflows for levels above the largest int); at least 2^31 levels remain. *)
Fixpoint levels (t : ty) : N :=
  match t with
  | TPadding _ _ _ w => wbase w - 1
  | TEnumStart it s =>
      if (isg it && (4 <=? iw it)%nat)%bool then N.min (max_level t) (Z.to_N (imax it + 1))
      else max_level t
  | TComplex t => levels t
  | TPair _ t1 _ t2 _ _ => if max_level t2 <? max_level t1 then levels t1 else levels t2
  | TTuple fs _ _ =>
      nth (index_of_max (map (fun f => max_level (snd f)) fs)) (map (fun f => levels (snd f)) fs) 0
  | TArray n t => if (n =? 0)%nat then 0 else levels t
  | TMember _ t _ _ => levels t
  | TEnforce t => levels t
  | TOption t => if max_level t =? 0 then 254 else levels t - 1
  | _ => max_level t
  end.

Fixpoint wf (t : ty) : Prop :=
  match t with
  | TOpaque n a => wf_layout n a
  | TBool | TPtr64 | TPtr32 | TFloat64 _ | TFloat32 _ | TMemPtr32 => True
  | TRefWrap p | TStringView p _ | TUniquePtr p | TVector p | TString p _ | TOptRef p => wf_p p
  | TPoly p n a => wf_p p /\ wf_layout n a /\ (p <= n)%nat
  | TMemPtr64 n => (8 <= n)%nat /\ Nat.divide 8 n
  | TPadding n a off w => wf_layout n a /\ wf_w w /\ (off + w <= n)%nat
  | TEnumRefl w named => wf_w w /\ Forall (fun e => e < wbase w) named
  | TEnumSent it s => wf_ity it /\ in_ity it s
  | TEnumStart it s => wf_ity it /\ in_ity it s
  | TEnumStartEnd it s e =>
      (* the enum compiles: end - start + 1 is a constant expression *)
      wf_ity it /\ in_ity it s /\ in_ity it e /\ (s <= e)%Z /\
      (isg it = true -> (4 <= iw it)%nat -> in_ity it (e - s + 1))
  | TSentTraits it s => wf_ity it /\ in_ity it s
  | TSentinel it vals => wf_ity it /\ Forall (in_ity it) vals /\ NoDup vals /\
                         N.of_nat (length vals) < umax_base
  | TComplex t => wf t
  | TPair o1 t1 o2 t2 n a =>
      wf_layout n a /\ (wf t1 /\ (o1 + sizeof t1 <= n)%nat) /\ (wf t2 /\ (o2 + sizeof t2 <= n)%nat)
  | TTuple fs n a =>
      wf_layout n a /\
      (fix all (l : list (nat * ty)) : Prop :=
         match l with
         | [] => True
         | (o, ft) :: l' => (wf ft /\ (o + sizeof ft <= n)%nat) /\ all l'
         end) fs
  | TArray n t => wf t
  | TMember off t n a => wf_layout n a /\ wf t /\ (off + sizeof t <= n)%nat
  | TEnforce t => wf t /\ 0 < max_level t    (* static_assert at option.hpp 4041 *)
  | TOption t => wf t /\ (max_level t = 0 \/ 1 <= levels t)
  | TCustom n a m get set inv =>
      (* the obligations docs/custom_traits_guide.md puts on a user-written option_traits *)
      wf_layout n a /\ m < umax_base /\
      (forall l b, l < m -> length b = n /\ is_bytes b ->
         exists b', set l b = Ok b' /\ (length b' = n /\ is_bytes b') /\ get b' = Ok l) /\
      (forall b, 0 < m -> length b = n /\ is_bytes b -> inv b ->
         exists l, get b = Ok l /\ m <= l /\ l < umax_base) /\
      (forall l b b', set l b = Ok b' -> length b' = length b) /\
      (forall b l, get b = Ok l -> l < umax_base)      (* it returns a std::uintmax_t *)
  end.

(** * Valid object representations *)

Definition sized (n : nat) (b : bytes) : Prop := length b = n /\ is_bytes b.

(** The bit patterns a float reserves: a contiguous block of 256 NaN payloads. *)
Definition in_block (start len x : N) : Prop := start <= x /\ x < start + len.

Fixpoint valid (t : ty) (b : bytes) {struct t} : Prop :=
  match t with
  | TOpaque n _ => sized n b
  | TBool => sized 1 b /\ (le_decode b = 0 \/ le_decode b = 1)
  | TRefWrap p => sized p b /\ object_addr p (le_decode b)
  | TPtr64 => sized 8 b /\ canonical (le_decode b)
  | TPtr32 => sized 4 b /\ ~ in_block 0xFFFFFFC0 32 (le_decode b)
  | TFloat64 q => sized 8 b /\ ~ in_block (if q then 0xFFFBF26430BB3557 else 0xFFF6C79F55B0898F) 256 (le_decode b)
  | TFloat32 q => sized 4 b /\ ~ in_block (if q then 0xFFC3EFB5 else 0xFFBF69AF) 256 (le_decode b)
  | TPoly p n _ => sized n b /\ object_addr p (read_word 0 p b)
  | TStringView p df =>
      sized (2 * p) b /\
      (read_word (if df then 0%nat else p) p b = 0 \/ object_addr p (read_word (if df then 0%nat else p) p b))
  | TUniquePtr p => sized p b /\ (le_decode b = 0 \/ object_addr p (le_decode b))
  | TMemPtr32 => sized 4 b /\ (le_decode b < 2 ^ 31 \/ le_decode b = 2 ^ 32 - 1)
  | TMemPtr64 n => sized n b /\ (read_word 0 8 b < 2 ^ 63 \/ read_word 0 8 b = 2 ^ 64 - 1)
  | TPadding n _ off w => sized n b /\ read_word off w b = 0
  | TEnumRefl w named => sized w b /\ flag_union named (le_decode b)
  | TEnumSent it s =>
      sized (iw it) b /\ int_decode it b <> s /\
      (isg it = true -> (4 <= iw it)%nat -> in_ity it (int_decode it b - s))
  | TEnumStart it s =>
      sized (iw it) b /\ (int_decode it b < s)%Z /\
      (isg it = true -> (4 <= iw it)%nat -> in_ity it (int_decode it b - s))
  | TEnumStartEnd it s e =>
      sized (iw it) b /\ ~ (s <= int_decode it b <= e)%Z /\
      (isg it = true -> (4 <= iw it)%nat -> in_ity it (int_decode it b - s))
  | TString p lib =>
      (* MSVC: capacity is never 0; libc++: a short string has the long-bit clear and a long one has a
         positive capacity, so the word is never the bare long-bit; libstdc++: data is never null. *)
      sized (string_size p lib) b /\ read_word (string_mark_offset p lib) p b <> string_mark p lib
  | TVector p => sized (3 * p) b /\ (read_word 0 p b = 0 \/ object_addr p (read_word 0 p b))
  | TSentTraits it s => sized (iw it) b /\ int_decode it b <> s
  | TSentinel it vals => sized (iw it) b /\ ~ In (int_decode it b) vals
  | TComplex t =>
      sized (2 * sizeof t) b /\ valid t (slice 0 (sizeof t) b) /\ valid t (slice (sizeof t) (sizeof t) b)
  | TPair o1 t1 o2 t2 n _ =>
      sized n b /\ valid t1 (slice o1 (sizeof t1) b) /\ valid t2 (slice o2 (sizeof t2) b)
  | TTuple fs n _ =>
      sized n b /\
      (fix all (l : list (nat * ty)) : Prop :=
         match l with
         | [] => True
         | (o, ft) :: l' => valid ft (slice o (sizeof ft) b) /\ all l'
         end) fs
  | TArray n t =>
      sized (sizeof (TArray n t)) b /\
      forall i, (i < n)%nat -> valid t (slice (i * sizeof t) (sizeof t) b)
  | TMember off t n _ => sized n b /\ valid t (slice off (sizeof t) b)
  | TEnforce t => valid t b
  | TOption t =>
      (* has_value() is false, or it is true and the contained object is a valid T *)
      sized (sizeof (TOption t)) b /\
      (opt_has_value t b = Ok false \/
       opt_has_value t b = Ok true /\ valid t (slice 0 (sizeof t) b))
  | TOptRef p => sized p b /\ (le_decode b = 0 \/ object_addr p (le_decode b))
  | TCustom n _ _ _ _ inv => sized n b /\ inv b
  end.

(** * Where a level is stored *)

(** Byte regions (offset, length) of an object of type [t] that storing a level may change: the one
    word of a scalar trait, the two words of a string or string_view, the whole object of an integer,
    enum or sentinel, the real part of a complex, the carrying member of an aggregate, the flag or the
    carrier of an option. *)
Fixpoint touched (t : ty) : list (nat * nat) :=
  let shift (o : nat) (l : list (nat * nat)) := map (fun '(a, n) => (o + a, n)%nat) l in
  match t with
  | TOpaque _ _ => []
  | TBool => [(0, 1)%nat]
  | TRefWrap p | TUniquePtr p | TVector p | TOptRef p => [(0, p)%nat]
  | TPoly p _ _ => [(0, p)%nat]
  | TPtr64 | TFloat64 _ | TMemPtr64 _ => [(0, 8)%nat]
  | TPtr32 | TFloat32 _ | TMemPtr32 => [(0, 4)%nat]
  | TStringView p _ => [(0, p)%nat; (p, p)%nat]
  | TPadding _ _ off w => [(off, w)]
  | TEnumRefl w _ => [(0, w)%nat]
  | TEnumSent it _ | TEnumStart it _ | TEnumStartEnd it _ _ | TSentTraits it _ | TSentinel it _ => [(0, iw it)%nat]
  | TString p lib => [(string_size_offset p lib, p); (string_mark_offset p lib, p)]
  | TComplex t => [(0%nat, sizeof t)]
  | TPair o1 t1 o2 t2 _ _ =>
      if max_level t2 <? max_level t1 then shift o1 (touched t1) else shift o2 (touched t2)
  | TTuple fs _ _ =>
      nth (index_of_max (map (fun f => max_level (snd f)) fs))
          (map (fun '(o, ft) => shift o (touched ft)) fs) []
  | TArray n t => if (n =? 0)%nat then [] else touched t
  | TMember off t _ _ => shift off (touched t)
  | TEnforce t => touched t
  | TOption t => if max_level t =? 0 then [(sizeof t, 1%nat)] else touched t
  | TCustom n _ _ _ _ _ => [(0%nat, n)]
  end.

Definition outside (i : nat) (regions : list (nat * nat)) : Prop :=
  forall o n, In (o, n) regions -> (i < o \/ o + n <= i)%nat.

(** option.hpp 1517: the values of a reflected enumeration that are looked at, by the size of the underlying type. *)
Definition probed (w : nat) : N := if (w =? 1)%nat then 256 else 1024.

(** [k] nested somes around [x]. *)
Fixpoint somes (k : nat) (x : val) : val :=
  match k with O => x | S k' => VSome (somes k' x) end.

(** Whether the subtraction [a - b] of two values of an underlying type is defined behaviour: unsigned
    types wrap around, types narrower than [int] are promoted to [int], and otherwise the difference
    has to be a value of the type. *)
Definition computable (it : ity) (a b : Z) : Prop :=
  isg it = false \/ (iw it < 4)%nat \/ in_ity it (a - b).

(** [e - s + 1] is the constant expression that counts the levels; in a signed type that is not
    promoted it has to fit for the program to compile. *)
Definition range_fits (it : ity) (s e : Z) : Prop :=
  isg it = true -> (4 <= iw it)%nat -> (e - s + 1 <= imax it)%Z.
