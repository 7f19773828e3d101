(** C98: threads. *)
From Coq Require Import ZArith NArith List Bool Lia.
From Verif Require Import Outcome Words WordsFacts Ints Types OptBytes TypesSpec FrameFacts Lifetime History ByteClass ByteProg ByteProgSpec
  FindingsFacts Threads ThreadsSpec ThreadsFacts.
Import ListNotations.
Open Scope nat_scope.

(** C98: a call changes no byte outside the objects it writes. *)
Theorem C98_writes : forall k env n, laid_out env n -> forall o m x s, length m = n -> typed env o -> bstep k env o m = Ok (x, s) ->
  length x = n /\ forall i, ~ inside i (writes env o) -> nth_error x i = nth_error m i.
Proof. exact step_keeps. Qed.
Print Assumptions C98_writes.

(** C98: what a call does depends on no byte beyond those it reads or writes; has_value() in particular reads only the bytes
    that hold the state. *)
Theorem C98_reads : forall k env n, laid_out env n -> forall o m m', length m = n -> length m' = n -> typed env o ->
  alike (reads env o ++ writes env o) m m' ->
  match bstep k env o m, bstep k env o m' with
  | Ok (x, s), Ok (x', s') => s = s' /\ alike (reads env o ++ writes env o) x x'
  | Verify, Verify => True
  | UB, UB => True
  | _, _ => False
  end.
Proof. exact step_reads. Qed.
Print Assumptions C98_reads.

(** C98: without conflicting calls every thread sees what it sees when it runs alone, and leaves the same bytes. *)
Theorem C98_alone : forall k env n, laid_out env n -> forall sched ts m tr m', length m = n -> all_typed env ts -> race_free env ts ->
  threads k env sched ts m = (tr, Ok m') ->
  forall i os, nth_error ts i = Some os ->
    exists mi, brun k env (firstn (turns i sched) os) m = (seen_by i tr, Ok mi) /\ alike (footprint env os) m' mi.
Proof. exact threads_ok. Qed.
Print Assumptions C98_alone.

(** C98: ... the program fails only where a thread fails alone. *)
Theorem C98_fail : forall k env n, laid_out env n -> forall sched ts m tr e, length m = n -> all_typed env ts -> race_free env ts ->
  threads k env sched ts m = (tr, e) -> e = Verify \/ e = UB ->
  exists i os, nth_error ts i = Some os /\ brun k env (firstn (turns i sched) os) m = (seen_by i tr, e).
Proof. exact threads_fail. Qed.
Print Assumptions C98_fail.

(** C98: ... and all schedules that make the same calls end in the same memory. *)
Theorem C98_order : forall k env n, laid_out env n -> forall s1 s2 ts m tr1 m1, length m = n -> all_typed env ts -> race_free env ts ->
  (forall i os, nth_error ts i = Some os -> firstn (turns i s1) os = firstn (turns i s2) os) ->
  threads k env s1 ts m = (tr1, Ok m1) ->
  exists tr2, threads k env s2 ts m = (tr2, Ok m1) /\ forall i os, nth_error ts i = Some os -> seen_by i tr1 = seen_by i tr2.
Proof. exact threads_order. Qed.
Print Assumptions C98_order.

(** C98: calls are in conflict only if one changes a variable that the other names: options of different variables, and
    shared options that are only looked at, need no synchronisation. *)
Theorem C98_variables : forall env n, laid_out env n -> forall ts, separate ts -> race_free env ts.
Proof. exact separate_free. Qed.
Print Assumptions C98_variables.

(** C98: has_value() and get() change nothing. *)
Theorem C98_observers : forall k env p m x s, bstep k env (OHas p) m = Ok (x, s) \/ bstep k env (OGet p) m = Ok (x, s) -> x = m.
Proof. exact observers_same. Qed.
Print Assumptions C98_observers.

(** C98: an option with a flag of its own can be asked has_value() while another thread changes members of the contained object. *)
Theorem C98_flag : forall env n, laid_out env n -> forall x off t q o, nth_error env x = Some (off, TOption t) -> max_level t = 0%N ->
  on_member (x, Deref :: q) o -> ~ conflict env o (OHas (x, [])).
Proof. exact flag_free. Qed.
Print Assumptions C98_flag.

(** C98: one whose state is kept in the contained object can not.  x is an option<pair<option<bool>, int>>; x->first.reset() does
    not change x.has_value(), yet it writes the byte that x.has_value() reads.  With std::optional these are different bytes. *)
Theorem C98_member_refuted : exists env n reset has,
  laid_out env n /\ typed env reset /\ typed env has /\ on_member (0, [Deref; Field 0]) reset /\ has = OHas (0, []) /\
  (forall a a' e, sstep (meaning env reset) a = SDone a' e -> forall s,
     sstep (meaning env has) a = SDone a s -> sstep (meaning env has) a' = SDone a' s) /\
  forall k, exists m m' m'' i, represents env m [Some (VSome (VTup [VSome (VBytes [1]%N); VBytes [7; 0; 0; 0]%N]))] /\
    bstep k env reset m = Ok (m', None) /\ nth_error m' i <> nth_error m i /\
    represents env m'' [Some VNone] /\ (forall j, j <> i -> nth_error m'' j = nth_error m j) /\
    bstep k env has m = Ok (m, Some (SeenHas true)) /\ bstep k env has m'' = Ok (m'', Some (SeenHas false)).
Proof. exact member_shared. Qed.
Print Assumptions C98_member_refuted.

(** ** Examples *)

(** option<bool> x, y and the pair z.  One thread works on x, the other on y, both look at z. *)
Definition ex_env : list (nat * ty) := [(0, TOption TBool); (1, TOption TBool); (4, TOption pair_t)].
Definition ex_threads : list (list (op bytes)) := [
  [OAssign (0, []) [1%N]; OHas (2, []); OReset (0, []); OHas (0, [])];
  [OEmplace (1, []) [0%N]; OHas (2, [Deref; Field 0]); OCopyAssign (1, []) (2, [Deref; Field 0]); OGet (1, [])]].
Definition ex_memory : bytes := [2; 2; 0; 0; 1; 9; 9; 9; 7; 0; 0; 0]%N.

Example C98_ex_separate : separate ex_threads.
Proof.
  intros [|[|[|i]]] [|[|[|j]]] os os' o o' x N Hi Hj Io Io'; cbn in Hi, Hj; try discriminate; try congruence;
    injection Hi as <-; injection Hj as <-; cbn in Io, Io'; intuition (subst; cbn in *; intuition congruence).
Qed.

Example C98_ex_laid : laid_out ex_env 12.
Proof.
  pose proof (proj1 pair_laid 0 0 (TOption pair_t) eq_refl) as [Hw _]. split.
  - intros [|[|[|[|x]]]] o u H; cbn in H; try discriminate; injection H as <- <-.
    + split; [|vm_compute; lia]. cbn; repeat split; right; vm_compute; congruence.
    + split; [|vm_compute; lia]. cbn; repeat split; right; vm_compute; congruence.
    + split; [exact Hw|vm_compute; lia].
  - intros [|[|[|[|x]]]] [|[|[|[|y]]]] o u o' u' N H H'; cbn in H, H'; try discriminate; injection H as <- <-; injection H' as <- <-;
      try congruence; vm_compute; lia.
Qed.

Example C98_ex_typed : all_typed ex_env ex_threads.
Proof.
  assert (is_option ex_env (0, []) TBool) as H0 by (split; [exact I|reflexivity]).
  assert (is_option ex_env (1, []) TBool) as H1 by (split; [exact I|reflexivity]).
  assert (is_option ex_env (2, []) pair_t) as H2 by (split; [exact I|reflexivity]).
  assert (is_option ex_env (2, [Deref; Field 0]) TBool) as H3 by (split; [split; [exact pair_apart|exact I]|reflexivity]).
  assert (valid TBool [1%N]) as V1 by (split; [apply bytes_ok_sized; vm_compute; reflexivity|right; vm_compute; reflexivity]).
  assert (valid TBool [0%N]) as V0 by (split; [apply bytes_ok_sized; vm_compute; reflexivity|left; vm_compute; reflexivity]).
  intros [|[|[|i]]] os H; cbn in H; try discriminate; injection H as <-; repeat constructor; cbn [typed]; eauto 6.
Qed.

(** One after the other, and in turn. *)
Definition ex_k : ty -> triviality := fun _ => mktriv true true true true true true.
Example C98_ex_run :
  threads ex_k ex_env [0; 0; 0; 0; 1; 1; 1; 1] ex_threads ex_memory =
    ([(0, SeenHas true); (0, SeenHas false); (1, SeenHas true); (1, SeenValue (VBytes [1%N]))], Ok [2; 1; 0; 0; 1; 9; 9; 9; 7; 0; 0; 0]%N) /\
  threads ex_k ex_env [1; 0; 1; 0; 1; 0; 1; 0] ex_threads ex_memory =
    ([(1, SeenHas true); (0, SeenHas true); (1, SeenValue (VBytes [1%N])); (0, SeenHas false)], Ok [2; 1; 0; 0; 1; 9; 9; 9; 7; 0; 0; 0]%N).
Proof. split; vm_compute; reflexivity. Qed.

(** Threads with a conflict: what the second sees depends on the schedule. *)
Example C98_ex_race : let ts := [[OReset (0, [])]; [OHas (0, [])]] in
  ~ race_free ex_env ts /\
  threads ex_k ex_env [0; 1] ts [1; 2; 0; 0; 1; 9; 9; 9; 7; 0; 0; 0]%N = ([(1, SeenHas false)], Ok [2; 2; 0; 0; 1; 9; 9; 9; 7; 0; 0; 0]%N) /\
  threads ex_k ex_env [1; 0] ts [1; 2; 0; 0; 1; 9; 9; 9; 7; 0; 0; 0]%N = ([(1, SeenHas true)], Ok [2; 2; 0; 0; 1; 9; 9; 9; 7; 0; 0; 0]%N).
Proof.
  split; [|split; vm_compute; reflexivity]. intros H.
  apply (H 0 1 [OReset (0, [])] [OHas (0, [])] (OReset (0, [])) (OHas (0, []))); [discriminate|reflexivity|reflexivity|now left|now left|].
  exists 0. left. split; exists 0, 1; (split; [vm_compute; auto|lia]).
Qed.

(** The flag of option<int> lies behind the int. *)
Example C98_ex_flag : max_level (TOpaque 4 4) = 0%N /\ state [(0, TOption (TOpaque 4 4))] (0, []) = [(4, 1)] /\
  object [(0, TOption (TOpaque 4 4))] (0, [Deref]) = [(0, 4)] /\ state pair_env (0, []) = [(0, 1)].
Proof. repeat split; vm_compute; reflexivity. Qed.
