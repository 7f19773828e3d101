(** Unsigned machine words and byte strings.

    Models: include/opt/option.hpp 769-795 (ptr_bit_cast, ptr_bit_copy, ptr_bit_cast_least,
    ptr_bit_copy_least: std::memcpy between an object and an unsigned integer).
    Platform assumption: 8-bit bytes, little-endian integers. *)
From Coq Require Import NArith List Lia.
Import ListNotations.
Open Scope N_scope.

(** An object representation: a list of bytes, lowest address first. *)
Definition bytes := list N.
Definition is_bytes (b : bytes) : Prop := Forall (fun x => x < 256) b.

(** 2^(8n), the number of values of an n-byte unsigned integer. *)
Definition wbase (n : nat) : N := 256 ^ N.of_nat n.

(** std::uintmax_t has 64 bits; conversions and arithmetic on it are modulo 2^64. *)
Definition umax_base : N := 18446744073709551616.
Definition to_umax (x : N) : N := x mod umax_base.

(** a - b in an unsigned type with [base] values (both operands already reduced). *)
Definition wsub (base a b : N) : N := (a + (base - b mod base)) mod base.
Definition wadd (base a b : N) : N := (a + b) mod base.

Fixpoint le_decode (b : bytes) : N :=
  match b with
  | [] => 0
  | x :: r => x + 256 * le_decode r
  end.

Fixpoint le_encode (n : nat) (x : N) : bytes :=
  match n with
  | O => []
  | S n' => (x mod 256) :: le_encode n' (x / 256)
  end.

(** memcpy out of / into the middle of an object. *)
Definition slice (off len : nat) (b : bytes) : bytes := firstn len (skipn off b).
Definition splice (off : nat) (src b : bytes) : bytes :=
  firstn off b ++ src ++ skipn (off + length src) b.

Definition read_word (off n : nat) (b : bytes) : N := le_decode (slice off n b).
Definition write_word (off n : nat) (x : N) (b : bytes) : bytes := splice off (le_encode n x) b.
