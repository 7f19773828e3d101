(** Traits assembled from user-supplied pieces: opt::sentinel_option_traits with a user-defined
    operator==, and opt::sentinel_f with user-supplied Compare and Set.

    Modelled: include/opt/option.hpp 1774-1786, 3971-4010.  An object of the user's class is its
    sequence of bytes; the user's functions are arbitrary functions on such objects. *)
From Coq Require Import ZArith NArith List Bool.
From Verif Require Import Outcome Words Types.
Import ListNotations.
Open Scope N_scope.

Section SentinelOptionTraits.
  Variable size align : nat.
  Variable eqv : bytes -> bytes -> bool.        (* the user's operator== *)
  Variable assign : bytes -> bytes -> bytes.    (* the user's operator= : old object, right-hand side *)
  Variable sent : bytes.                        (* sentinel_option_traits<T>::sentinel_value *)

  (** option.hpp 1778-1780: !( *value == sentinel_value ) as 0 or 1. *)
  Definition sot_get (b : bytes) : res N := Ok (if eqv b sent then 0 else 1).
  (** option.hpp 1781-1784 *)
  Definition sot_set (l : N) (b : bytes) : res bytes := verify (l =? 0) (Ok (assign b sent)).
  (** option.hpp 1774-1776: max_level is 1; a value is anything that does not compare equal. *)
  Definition sot_type : ty :=
    TCustom size align 1 sot_get sot_set (fun b => eqv b sent = false).
End SentinelOptionTraits.

Section SentinelF.
  Variable V : Type.                            (* the type of the listed constants *)
  Variable size align : nat.
  Variable compare : bytes -> V -> bool.
  Variable setv : bytes -> V -> bytes.

  (** option.hpp 3975-3984.  With two or more constants the recursive call names
      sentinel_get_level_impl with a type where it takes a number, so the program does not compile;
      [UB] stands for that. *)
  Definition sf_get (vals : list V) (b : bytes) : res N :=
    match vals with
    | [] => UB      (* no template argument for Value: ill-formed *)
    | [v] => Ok (if compare b v then 0 else umax_base - 1)
    | _ => UB
    end.
  (** option.hpp 3985-3994, with the same defect. *)
  Definition sf_set (vals : list V) (l : N) (b : bytes) : res bytes :=
    match vals with
    | [] => UB
    | [v] => if l =? 0 then Ok (setv b v) else Verify
    | _ => UB
    end.
  (** option.hpp 3997-4010 *)
  Definition sf_type (vals : list V) : ty :=
    TCustom size align (N.of_nat (length vals)) (sf_get vals) (sf_set vals)
            (fun b => forall v, In v vals -> compare b v = false).

  (** What the two functions would compute if the recursive calls named sentinel_f_get_level_impl /
      sentinel_f_set_level_impl (the evident intention). *)
  Fixpoint sf_get_fixed (i : N) (vals : list V) (b : bytes) : N :=
    match vals with
    | [] => umax_base - 1
    | v :: vals' => if compare b v then i else sf_get_fixed (i + 1) vals' b
    end.
  Fixpoint sf_set_fixed (i : N) (vals : list V) (l : N) (b : bytes) : res bytes :=
    match vals with
    | [] => Verify
    | v :: vals' => if l =? i then Ok (setv b v) else sf_set_fixed (i + 1) vals' l b
    end.
  Definition sf_type_fixed (vals : list V) : ty :=
    TCustom size align (N.of_nat (length vals))
            (fun b => Ok (sf_get_fixed 0 vals b)) (sf_set_fixed 0 vals)
            (fun b => forall v, In v vals -> compare b v = false).
End SentinelF.
