(** The numbers that stand for an empty option. *)
From Coq Require Import NArith List.
From Verif Require Import Types.
Import ListNotations.
Open Scope N_scope.

(** The numbers for which [none] is shown. *)
Definition marks (k : nat) (t : ty) : list N :=
  match t with
  | TBool => [2 + N.of_nat k]
  | TRefWrap _ => [N.of_nat k]
  | TFloat32 _ => [0xFFBF69AF + N.of_nat k; 0xFFC3EFB5 + N.of_nat k]
  | _ => [0xFFF6C79F55B0898F + N.of_nat k; 0xFFFBF26430BB3557 + N.of_nat k]
  end.
