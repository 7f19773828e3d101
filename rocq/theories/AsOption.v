(** as_option.

    Models: include/opt/option.hpp 3391-3399.  T is trivially copyable, so the assignment through
    get_unchecked() is taken to copy the object representation. *)
From Coq Require Import ZArith NArith List Bool.
From Verif Require Import Outcome Words Ints Types OptBytes.
Import ListNotations.
Open Scope N_scope.
Open Scope res_scope.

Definition opt_as_option (t : ty) (v junk : bytes) : res bytes :=
  let* b := opt_default t junk in
  Ok (splice 0 v b).
