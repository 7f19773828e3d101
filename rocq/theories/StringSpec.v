(** What an object of std::basic_string looks like in the standard libraries that option.hpp knows.

    Models: the layouts that option.hpp 1614-1657 relies on, written from the definitions of the libraries
    themselves (little-endian):
    - the STL of Microsoft (xstring, _String_val): with iterator debugging a pointer to a proxy, then a union of 16 bytes with
      the buffer for short strings, the size and the capacity.  The buffer has max(16 / sizeof(Elem), 1) elements, one
      of them for the terminator; the capacity is never less than the rest.
    - libc++ (string, __rep): three words.  A short string has its size in a byte whose long bit is clear, a long one
      has the capacity and a long bit in one word; a string is long only if its capacity is not 0.  The usual layout begins with
      this byte and the long bit is its lowest, the alternate one ends with it and the long bit is its highest.
    - libstdc++ (basic_string.h): a pointer to the characters, never null, the size, and 16 bytes for the buffer of
      short strings or the capacity.
    [p]: the size of a pointer; [e]: the size of an element. *)
From Coq Require Import NArith List.
From Verif Require Import Words Types TypesSpec.
Open Scope N_scope.

(** Elements of the buffer in the STL, without the terminator. *)
Definition stl_small_capacity (e : N) : N := N.max (16 / e) 1 - 1.

Inductive string_object (p : nat) (e : N) : stdlib -> bytes -> Prop :=
| stl_string (debug : bool) (b : bytes) :
    let proxy := if debug then p else 0%nat in
    sized (proxy + 16 + p + p) b ->
    read_word (proxy + 16) p b <= read_word (proxy + 16 + p) p b ->
    stl_small_capacity e <= read_word (proxy + 16 + p) p b ->
    string_object p e (STL debug) b
| short_string (b : bytes) (size : N) :
    sized (3 * p) b -> read_word 0 1 b = 2 * size -> string_object p e (LibCpp false) b
| long_string (b : bytes) (cap : N) :
    sized (3 * p) b -> 0 < cap -> read_word 0 p b = 2 * cap + 1 -> string_object p e (LibCpp false) b
| short_string_alt (b : bytes) :
    sized (3 * p) b -> read_word (3 * p - 1) 1 b < 128 -> string_object p e (LibCpp true) b
| long_string_alt (b : bytes) (cap : N) :
    sized (3 * p) b -> 0 < cap -> read_word (2 * p) p b = wbase p / 2 + cap -> string_object p e (LibCpp true) b
| gnu_string (b : bytes) :
    sized (p + p + 16) b -> read_word 0 p b <> 0 -> string_object p e LibStdCpp b.

(** capacity() as libstdc++ computes it for an object that does not use its own buffer. *)
Definition gnu_capacity (p : nat) (b : bytes) : N := read_word (p + p) p b.

(** capacity() and size() in the others; for libc++ of a string whose long bit is set. *)
Definition capacity_word (p : nat) (lib : stdlib) (b : bytes) : N :=
  match lib with
  | STL debug => read_word ((if debug then p else 0) + 16 + p)%nat p b
  | LibCpp false => read_word 0 p b / 2
  | LibCpp true => read_word (2 * p) p b mod (wbase p / 2)
  | LibStdCpp => gnu_capacity p b
  end.
Definition size_word (p : nat) (lib : stdlib) (b : bytes) : N :=
  match lib with
  | STL debug => read_word ((if debug then p else 0) + 16)%nat p b
  | LibCpp _ | LibStdCpp => read_word p p b
  end.

(** What the documentation says of an unused state (docs/builtin_traits.md 18): capacity() is 0 and size() is at most 254.
    For libc++ the string must also be a long one, for libstdc++ only the pointer to the characters counts. *)
Definition unused_string (p : nat) (lib : stdlib) (b : bytes) : Prop :=
  size_word p lib b <= 254 /\
  match lib with
  | STL _ => capacity_word p lib b = 0
  | LibCpp false => capacity_word p lib b = 0 /\ N.odd (read_word 0 1 b) = true
  | LibCpp true => capacity_word p lib b = 0 /\ 128 <= read_word (3 * p - 1) 1 b
  | LibStdCpp => read_word 0 p b = 0
  end.
