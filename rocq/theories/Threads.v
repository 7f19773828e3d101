(** Several threads calling member functions of options in one memory.

    Models: include/opt/option.hpp 1898-2110 (option_destruct_base), 2904-3040, 3060-3125, 3253-3268 as in ByteProg.v.
    The header declares no atomic, no mutex, no thread_local and no variable of static storage that a call changes;
    the calls of ByteProg.v touch only the memory.

    A call is one step.  ThreadsSpec.v says which bytes a call reads and writes; two calls without a conflict have the
    same effect whichever way their single reads and writes are ordered. *)
From Coq Require Import ZArith NArith List Bool.
From Verif Require Import Outcome Words Ints Types OptBytes TypesSpec Lifetime History ByteClass ByteProg.
Import ListNotations.
Open Scope res_scope.

Section Machine.
Context (k : ty -> triviality) (env : list (nat * ty)).

(** [sched] names the thread that makes the next call; a thread that has finished is passed over.  A failed check or
    undefined behaviour ends the whole program. *)
Fixpoint threads (sched : list nat) (ts : list (list (op bytes))) (m : bytes) : list (nat * obs) * res bytes :=
  match sched with
  | [] => ([], Ok m)
  | i :: sched =>
      match nth_error ts i with
      | Some (o :: os) =>
          match bstep k env o m with
          | Ok (m', s) =>
              let (tr, r) := threads sched (put ts i os) m' in
              (match s with Some s => (i, s) :: tr | None => tr end, r)
          | Verify => ([], Verify)
          | UB => ([], UB)
          end
      | _ => threads sched ts m
      end
  end.
End Machine.
