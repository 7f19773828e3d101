(** C++ integer types: two's complement values, integer promotion, conversions.

    Used by the enumeration and sentinel traits (include/opt/option.hpp 1497-1595, 3930-3969). *)
From Coq Require Import ZArith NArith List Bool.
From Verif Require Import Outcome Words.
Import ListNotations.
Open Scope Z_scope.

(** An integer type: width in bytes and signedness.  (bool is not one of these.) *)
Record ity := { iw : nat; isg : bool }.

Definition ibase (it : ity) : Z := Z.of_N (wbase (iw it)).
Definition imin (it : ity) : Z := if isg it then - (ibase it / 2) else 0.
Definition imax (it : ity) : Z := if isg it then ibase it / 2 - 1 else ibase it - 1.
Definition in_ity (it : ity) (z : Z) : Prop := imin it <= z <= imax it.
Definition in_ityb (it : ity) (z : Z) : bool := (imin it <=? z) && (z <=? imax it).

(** Conversion of any integer to [it] (modulo 2^width, two's complement). *)
Definition wrap (it : ity) (z : Z) : Z :=
  let u := z mod ibase it in
  if isg it && (imax it <? u) then u - ibase it else u.

(** The value of an object of type [it], and the object representation of a value. *)
Definition int_decode (it : ity) (b : bytes) : Z := wrap it (Z.of_N (le_decode b)).
Definition int_encode (it : ity) (z : Z) : bytes := le_encode (iw it) (Z.to_N (z mod ibase it)).

(** Conversion to std::uintmax_t. *)
Definition z_to_umax (z : Z) : N := Z.to_N (z mod Z.of_N umax_base).

(** a - b for two operands of type [it] after integer promotion: types narrower than int are
    computed in int (which holds every such difference); unsigned types of at least int's width
    wrap; signed types of at least int's width overflow, which is undefined behaviour. *)
Definition int_sub (it : ity) (a b : Z) : res Z :=
  if (iw it <? 4)%nat then Ok (a - b)
  else if isg it then (if in_ityb it (a - b) then Ok (a - b) else UB)
  else Ok ((a - b) mod ibase it).
