(** What the documentation says about the initialisation of the contained value. *)
From Coq Require Import ZArith List Bool.
From Verif Require Import Words Ints Init.
Import ListNotations.

(** docs/reference.md, at every constructor and at emplace: direct-list-initialization. *)
Definition reference_says (cxx20 : bool) (t : uty) (args : list arg) : init := brace cxx20 t args.

(** docs/feature_list.md 74-76: in C++17 direct-list-initialization for aggregates, otherwise
    direct-initialization; in C++20 direct-initialization. *)
Definition feature_list_says (cxx20 : bool) (t : uty) (args : list arg) : init :=
  if cxx20 then paren cxx20 t args
  else match t with
       | UAgg _ => brace cxx20 t args
       | _ => paren cxx20 t args
       end.

(** std::array<it, n>. *)
Definition std_array (it : ity) (n : nat) : uty := UAgg [UCArr n (UInt it)].

Definition is_wrapper (t : uty) : bool := match t with UWrap _ => true | _ => false end.
Definition is_container (t : uty) : bool := match t with UVec _ | UStr _ => true | _ => false end.

(** Integer arguments without narrowing. *)
Definition plain (it : ity) (a : arg) : Prop := exists s z, a = AInt s z /\ fits s it = true.
Definition number (it : ity) (a : arg) : uval := match a with AInt _ z => VInt (wrap it z) | _ => VInt 0 end.
