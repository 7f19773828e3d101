(** What the state of a nested option is for its user, and what a program on it does.

    A nested option of [n] layers is known by how many layers are engaged, counted from the outside, and by the T when all are. *)
From Coq Require Import Arith NArith List Bool.
From Verif Require Import Outcome Words Types OptBytes TypesSpec Layers.
Import ListNotations.
Open Scope list_scope.

Record layers := state { engaged : nat; leaf : val }.

(** The bytes of an object in that state. *)
Definition in_state (n : nat) (t : ty) (s : layers) (b : bytes) : Prop :=
  valid (nest n t) b /\ (engaged s <= n)%nat /\
  decode (nest n t) b = somes (engaged s) (if (engaged s <? n)%nat then VNone else leaf s).

(** Dereferencing k times is allowed if the k outermost layers are engaged. *)
Definition spec_step (n : nat) (t : ty) (s : layers) (c : stmt) : option (layers * list (bool + val)) :=
  let m := engaged s in
  match c with
  | Reset k => if (k <=? m)%nat then Some (state k (leaf s), []) else None
  | Emplace k v => if (k <=? m)%nat then Some (state n (decode t v), []) else None
  | HasValue k => if (k <=? m)%nat then Some (s, [inl (k <? m)%nat]) else None
  | Value => if (m =? n)%nat then Some (s, [inr (leaf s)]) else None
  end.

Fixpoint spec_run (n : nat) (t : ty) (s : layers) (p : list stmt) : option (layers * list (bool + val)) :=
  match p with
  | [] => Some (s, [])
  | c :: p =>
      match spec_step n t s c with
      | Some (s', o) => match spec_run n t s' p with Some (s'', o') => Some (s'', o ++ o') | None => None end
      | None => None
      end
  end.

(** What the user sees, without the bytes. *)
Definition observe (t : ty) (o : seen) : bool + val :=
  match o with Has h => inl h | Bytes v => inr (decode t v) end.

(** The arguments of emplace are objects of T. *)
Definition given (t : ty) (c : stmt) : Prop := match c with Emplace _ v => valid t v | _ => True end.

(** Emptying from the inside to the outside. *)
Fixpoint inside_out (n : nat) : list stmt := match n with O => [] | S n => Reset n :: inside_out n end.
