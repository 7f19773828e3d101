(** Calls whose argument is a reference to an object in the same memory, perhaps to the contained object itself.

    Models: include/opt/option.hpp 2885-2889 (constructor from a value), 2912-2930 (assignment of a value),
    3000-3006 (emplace), 3008-3015 (try_emplace), with an argument of type T& or const T&, over the memory of
    ByteProg.v.  A reference is an address: it is computed, with the checks of operator*, before the call, and the
    bytes behind it are read when T's constructor or assignment runs, not before.

    As in ByteProg.v a T is copied by its bytes.  emplace destroys the old value first; a constructor that then reads
    the destroyed object of a T with a destructor is undefined behaviour ([basic.life]); for other T the bytes
    that reset() leaves are read. *)
From Coq Require Import ZArith NArith List Bool.
From Verif Require Import Outcome Words Ints Types OptBytes TypesSpec Lifetime History ByteClass ByteProg.
Import ListNotations.
Open Scope N_scope.
Open Scope res_scope.

(** The address of the object at the end of a path, relative to the start of the path. *)
Fixpoint addr_path (p : path) (u : ty) (b : bytes) : res nat :=
  match p with
  | [] => Ok 0%nat
  | Deref :: p =>
      match u with
      | TOption t => let* v := opt_get t b in addr_path p t v
      | _ => UB
      end
  | Field i :: p =>
      match field u i with
      | Some (o, t) => let* a := addr_path p t (slice o (sizeof t) b) in Ok (o + a)%nat
      | None => UB
      end
  end.

Inductive rop : Type :=
| RPlain (o : op bytes)         (* a call of ByteProg *)
| RNew (x : nat) (q : place)    (* option<T> x(q); *)
| RAssign (p q : place)         (* p = q; with q of type T *)
| REmplace (p q : place)        (* p.emplace(q); *)
| RTryEmplace (p q : place).    (* p.try_emplace(q); *)

Section Machine.
Context (k : ty -> triviality) (env : list (nat * ty)).

Definition addr (p : place) (m : bytes) : res nat :=
  match nth_error env (fst p) with
  | Some (o, u) => let* a := addr_path (snd p) u (slice o (sizeof u) m) in Ok (o + a)%nat
  | None => UB
  end.

(** A member function on the [n] bytes at [o]. *)
Definition at_addr (o n : nat) (f : bytes -> res bytes) (m : bytes) : res bytes :=
  let* b := f (slice o n m) in Ok (splice o b m).

(** Do n bytes at a and at o have bytes in common? *)
Definition overlap (n a o : nat) : bool := (Nat.ltb a (o + n) && Nat.ltb o (a + n))%bool.

Definition rstep (r : rop) (m : bytes) : res (bytes * option obs) :=
  match r with
  | RPlain o => bstep k env o m
  | RNew x q => no_obs (let* a := addr q m in on_option env (x, []) (fun t => opt_construct t (slice a (sizeof t) m)) m)
  | RAssign p q =>
      match place_ty env p with
      | Some (TOption t) =>
          no_obs (let* a := addr q m in let* o := addr p m in
                  at_addr o (sizeof (TOption t)) (opt_assign_value (t_scalar (k t)) t (slice a (sizeof t) m)) m)
      | _ => UB
      end
  | REmplace p q =>
      match place_ty env p with
      | Some (TOption t) =>
          no_obs (let* a := addr q m in let* o := addr p m in
                  let* h := opt_has_value t (slice o (sizeof (TOption t)) m) in
                  if (negb (t_td (k t)) && h && overlap (sizeof t) a o)%bool then UB
                  else let* m1 := at_addr o (sizeof (TOption t)) (opt_reset (t_td (k t)) t) m in
                       at_addr o (sizeof (TOption t)) (opt_construct t (slice a (sizeof t) m1)) m1)
      | _ => UB
      end
  | RTryEmplace p q =>
      match place_ty env p with
      | Some (TOption t) =>
          no_obs (let* a := addr q m in let* o := addr p m in
                  at_addr o (sizeof (TOption t)) (opt_try_emplace t (slice a (sizeof t) m)) m)
      | _ => UB
      end
  end.

Fixpoint rrun (rs : list rop) (m : bytes) : list obs * res bytes :=
  match rs with
  | [] => ([], Ok m)
  | r :: rs =>
      match rstep r m with
      | Ok (m', s) =>
          let (tr, e) := rrun rs m' in
          (match s with Some s => s :: tr | None => tr end, e)
      | Verify => ([], Verify)
      | UB => ([], UB)
      end
  end.
End Machine.
