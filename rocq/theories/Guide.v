(** The specialisations of option_traits that the documentation and the examples write.

    Models: docs/custom_traits_guide.md (my_type, my_type_3, my_type_4, double, float), docs/reference.md
    1245-1268 (as_option), examples/option_traits.cpp (some_struct).  int has 32 bits and no padding. *)
From Coq Require Import ZArith NArith List Bool.
From Verif Require Import Outcome Words Ints Types.
Import ListNotations.
Open Scope N_scope.

Definition int32 : ity := {| iw := 4; isg := true |}.

(** Bytes written inside an object. *)
Definition put (off : nat) (src b : bytes) : bytes := if (off + length src <=? length b)%nat then splice off src b else b.

(** A data member of integer type at an offset: its value, and an assignment to it (which converts). *)
Definition load (it : ity) (off : nat) (b : bytes) : Z := int_decode it (slice off (iw it) b).
Definition assign (it : ity) (off : nat) (z : Z) (b : bytes) : bytes := put off (int_encode it (wrap it z)) b.

(** a + b and a - b in the type after promotion, as int_sub of Ints.v. *)
Definition int_add (it : ity) (a b : Z) : res Z :=
  if (iw it <? 4)%nat then Ok (a + b)%Z
  else if isg it then (if in_ityb it (a + b) then Ok (a + b)%Z else UB)
  else Ok ((a + b) mod ibase it)%Z.

(** struct my_type { int x; int y; }, guide lines 51-62: [my_get] and [my_set]. *)
Definition my_x : bytes -> Z := load int32 0.
Definition my_y : bytes -> Z := load int32 4.
Definition my_get (b : bytes) : res N := Ok (if (my_x b =? -1)%Z then z_to_umax (my_y b) else umax_base - 1).
Definition my_set (l : N) (b : bytes) : res bytes := Ok (assign int32 4 (Z.of_N l) (assign int32 0 (-1) b)).

(** template<class T> struct my_type_3 { T x; }, SFINAE section, for an integer T: get_level returns
    value->x + 1 and set_level assigns -1. *)
Definition my3_get (it : ity) (b : bytes) : res N := rmap z_to_umax (int_add it (load it 0 b) 1).
Definition my3_set (it : ity) (l : N) (b : bytes) : res bytes := Ok (assign it 0 (-1) b).

(** struct my_type_4 { int x; int y; int z; }: set_level has the statement [value->x == -1;]. *)
Definition my4_set (l : N) (b : bytes) : res bytes :=
  let _ := (my_x b =? -1)%Z in
  Ok (assign int32 4 (Z.of_N l) b).

(** float: a number equal to 0.f, of either sign. *)
Definition float_is_zero (b : bytes) : bool := (le_decode b =? 0) || (le_decode b =? 0x80000000).
Definition float_get (b : bytes) : res N := Ok (if float_is_zero b then 0 else umax_base - 1).
Definition float_set (l : N) (b : bytes) : res bytes := Ok (put 0 (le_encode 4 0) b).

(** some_struct { int val; } of the examples. *)
Definition some_get (b : bytes) : res N := Ok (if (load int32 0 b =? -1)%Z then 0 else umax_base - 1).
Definition some_set (l : N) (b : bytes) : res bytes := Ok (assign int32 0 (-1) b).

(** my_type { int x; } of as_option: get_level returns value->x - 100. *)
Definition hundred_get (b : bytes) : res N := rmap z_to_umax (int_sub int32 (load int32 0 b) 100).
Definition hundred_set (l : N) (b : bytes) : res bytes := Ok (assign int32 0 100 b).
