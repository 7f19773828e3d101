(** The number that the visualizer shows below an option, as the item "[raw]".

    Models: debugger/option.natvis, the Item elements of 3-131. *)
From Coq Require Import NArith List Bool Arith.
From Verif Require Import Outcome Words Types OptBytes.
Import ListNotations.
Open Scope N_scope.

(** How many bytes are read; p is the size of a pointer.  The entries exist for three depths; those with enforce<T> as
    AlternativeType serve both. *)
Fixpoint raw_size (p : nat) (t : ty) : option nat :=
  match t with
  | TEnforce u => raw_size p u
  | TBool => Some 1%nat
  | TRefWrap _ => Some p
  | TFloat32 _ => Some 4%nat
  | TFloat64 _ => Some 8%nat
  | _ => None
  end.
Definition raw (p k : nat) (t : ty) (b : bytes) : option N :=
  if (k <=? 2)%nat then option_map (fun n => read_word 0 n b) (raw_size p t) else None.
