(** Properties that compare option<T> with std::optional<T>: programs (C69), constraints and a = {} (C70), each
    with a concrete case. *)
From Coq Require Import NArith ZArith Bool List.
From Verif Require Import Outcome Words Lifetime LifetimeSpec LifetimeFacts History HistorySpec HistoryFacts Log LogFacts Classes
  ClassesFacts StdOptional StdSpec StdFacts.
From Verif Require Constraints.
From Verif Require Import Braces StdConstraints StdConstraintsFacts.
From Verif Require PropertiesConstraints.
Import ListNotations.
Open Scope N_scope.

(** C69: a program that uses std::optional<T> does the same with option<T>: the same calls throw, the world of
    T's objects ends up the same, and the variables hold the same values. *)
Theorem C69_program : forall W (C : cls W) (Sm : sem C), lawful C Sm -> honest C Sm -> fresh C Sm ->
  forall g os1 os2 n w,
  Forall2 (same_call C C Sm (equal C Sm) eq) os1 os2 -> Forall (gentle C Sm) os1 ->
  same_run C C Sm (equal C Sm) (stops Sm) (run C Sm os1 (repeat None n) w) (s_run C g os2 (repeat None n) w).
Proof. exact like_std. Qed.
Print Assumptions C69_program.

(** C69: for a T without unused values nothing is asked of the calls. *)
Theorem C69_flag : forall W (C : cls W) (Sm : sem C), lawful C Sm -> honest C Sm -> fresh C Sm -> lmax C = 0 ->
  forall g os1 os2 n w, Forall2 (same_call C C Sm (equal C Sm) eq) os1 os2 ->
  same_run C C Sm (equal C Sm) (stops Sm) (run C Sm os1 (repeat None n) w) (s_run C g os2 (repeat None n) w).
Proof. exact like_std_flag. Qed.
Print Assumptions C69_flag.

(** C69: every constructor, assignment, swap and destructor of T is called in the same order, and the same ones
    throw: the logs are part of the world. *)
Theorem C69_calls : forall W (C : cls W) (Sm : sem C), lawful C Sm -> fresh C Sm -> no_trivial C ->
  forall g os1 os2 n w,
  Forall2 (same_call (logged C) (logged C) (log_sem C Sm) (equal (logged C) (log_sem C Sm)) eq) os1 os2 ->
  Forall (gentle (logged C) (log_sem C Sm)) os1 ->
  same_run (logged C) (logged C) (log_sem C Sm) (equal (logged C) (log_sem C Sm)) (stops Sm)
    (run (logged C) (log_sem C Sm) os1 (repeat None n) (w, []))
    (s_run (logged C) g os2 (repeat None n) (w, [])).
Proof. exact like_std_calls. Qed.
Print Assumptions C69_calls.

(** C69: has_value() answers the same for every variable. *)
Theorem C69_has_value : forall W (C1 C2 : cls W) (Sm : sem C1) R, lawful C1 Sm ->
  forall l1 l2, alike C1 C2 Sm R l1 l2 -> same_answers C1 C2 l1 l2.
Proof. intros W C1 C2 Sm R. exact (alike_answers C1 C2 Sm R). Qed.
Print Assumptions C69_has_value.

(** C69: the same special members are trivial, nested to any depth. *)
Theorem C69_trivial : forall W (d : nat) (C : cls W) g,
  let D := nest_cls d C in let E := projT1 (nest_std d C g) in
  td D = td E /\ tcc D = tcc E /\ tca D = tca E /\ tmc D = tmc E /\ tma D = tma E.
Proof. exact same_trivial. Qed.
Print Assumptions C69_trivial.

(** C69: options nested to any depth, in programs that do not swap. *)
Theorem C69_nested : forall W (d : nat) (C : cls W) (Sm : sem C),
  lawful C Sm -> steady C Sm -> honest C Sm -> fresh C Sm -> forall g os1 os2 n w,
  Forall2 (same_call (nest_cls d C) (projT1 (nest_std d C g)) (nest_sem d C Sm) (nest_rel d C Sm g)
    (nest_init_rel d C g)) os1 os2 ->
  existsb (exchanges (nest_cls d C) (nest_sem d C Sm)) os1 = false ->
  same_run (nest_cls d C) (projT1 (nest_std d C g)) (nest_sem d C Sm) (nest_rel d C Sm g)
    (stops (nest_sem d C Sm))
    (run (nest_cls d C) (nest_sem d C Sm) os1 (repeat None n) w)
    (s_run (projT1 (nest_std d C g)) (projT2 (nest_std d C g)) os2 (repeat None n) w).
Proof. exact like_std_nested. Qed.
Print Assumptions C69_nested.

(** A class that never throws and has no trivial members, for the examples: objects are numbers, a moved-from
    object is 0. *)
Definition calm : cls unit := {|
  raw := N;
  init := N;
  td := false;
  tcc := false;
  tca := false;
  tmc := false;
  tma := false;
  scalar := false;
  ctor := fun i _ w => Ret (i, w);
  cctor := fun s _ w => Ret (s, w);
  mctor := fun _ sw => Ret (fst sw, (0, snd sw));
  asgn := fun i _ w => Ret (i, w);
  cassign := fun s _ w => Ret (s, w);
  massign := fun _ sw => Ret (fst sw, (0, snd sw));
  self_cassign := fun r w => Ret (r, w);
  self_massign := fun r w => Ret (r, w);
  swp := fun a bw => Ret (fst bw, (a, snd bw));
  self_swp := fun r w => Ret (r, w);
  dtor := fun r w => Ret (r, w);
  lmax := 0;
  lget := fun _ => 0;
  lset := fun _ r => r
|}.

Definition calm_sem : sem calm := {|
  V := N;
  ok := fun _ : raw calm => True;
  val := fun r : raw calm => r;
  denotes := fun (i : init calm) v => v = i;
  mv := fun _ v' => v' = 0;
  selfmv := fun v v' => v' = v;
  own := fun _ => 0%Z;
  cnt := fun _ => 0%Z;
  stops := False
|}.

Lemma calm_lawful : lawful calm calm_sem.
Proof. constructor; cbn; auto; try discriminate; try reflexivity; intros l r H; now apply N.nlt_0_r in H. Qed.

Definition calm_log := logged calm.
Definition calm_log_sem : sem calm_log := log_sem calm calm_sem.

Lemma calm_log_rules : lawful calm_log calm_log_sem /\ steady calm_log calm_log_sem /\ honest calm_log calm_log_sem /\
  fresh calm_log calm_log_sem.
Proof.
  split; [apply logged_lawful, calm_lawful|]. split; [constructor; cbn; intros; destruct w; discriminate|].
  split; [apply no_trivial_honest; repeat split|]. apply logged_fresh. constructor; cbn; auto.
Qed.

(** The programs of the examples. *)
Definition bits (C : cls schedule) (r : raw C) : cell C := mkcell r 0 false.

(** a(7); b(a); c(std::move(a)); b = 9; b = c (throws); c.emplace( *b ); a.swap(d); a.swap(d); c = std::move(d);
    b.reset(); end of all. *)
Definition ex_calls : list (call (fussy 3 false) (fussy_sem 3 false)) :=
  let g := bits (fussy 3 false) 77 in
  [New 0 (IVal (7%N : init (fussy 3 false))) g; NewCopy 1 0 g; NewMove 2 0 g; New 3 INone g; Assign 1 (IVal (9%N : init (fussy 3 false))); CopyAssign 1 2;
   EmplaceFrom 2 1; Swap 0 3; Swap 3 0; MoveAssign 2 3; Reset 1; CopyAssign 1 2; Destroy 0; Destroy 1]%nat.

Definition ex_schedule : schedule := [false; false; false; false; true; false; true].

Example C69_ex_rules : lawful (fussy 3 false) (fussy_sem 3 false) /\ honest (fussy 3 false) (fussy_sem 3 false) /\
  fresh (fussy 3 false) (fussy_sem 3 false) /\
  Forall2 (same_call _ _ _ (equal _ (fussy_sem 3 false)) eq) ex_calls (flat_map std_call ex_calls) /\
  Forall (gentle _ (fussy_sem 3 false)) ex_calls.
Proof.
  split; [apply fussy_lawful; reflexivity|]. split; [apply no_trivial_honest; repeat split|].
  split; [apply fussy_fresh|]. split; [now apply std_calls_same|].
  apply Forall_forall. intros o _. apply quiet_gentle, fussy_quiet. now right.
Qed.

Example C69_ex_run :
  match run _ _ ex_calls (repeat None 4%nat) ex_schedule,
        s_run (fussy 3 false) 5 (flat_map std_call ex_calls) (repeat None 4%nat) ex_schedule with
  | HDone ks1 _ w1, RDone ks2 l2 w2 =>
      ks1 = ks2 /\ w1 = w2 /\ existsb (fun k => k) ks1 = true /\ l2 = [None; None; Some (Some 3); Some (Some 3)]
  | _, _ => False
  end.
Proof. vm_compute. repeat split. Qed.

(** C69 with a log: copying, a copy assignment and the end of both call the same members of T. *)
Definition ex_log_calls : list (call calm_log calm_log_sem) :=
  let g := mkcell (C := calm_log) 77%N 0 false in
  [New 0 (IVal (7%N : init calm_log)) g; NewCopy 1 0 g; Reset 0; CopyAssign 0 1; Swap 0 1; Destroy 0; Destroy 1]%nat.

Example C69_ex_calls :
  lawful calm calm_sem /\ fresh calm calm_sem /\ no_trivial calm /\
  Forall2 (same_call _ _ _ (equal _ calm_log_sem) eq) ex_log_calls (flat_map std_call ex_log_calls) /\
  Forall (gentle _ calm_log_sem) ex_log_calls /\
  match run _ _ ex_log_calls (repeat None 2%nat) (tt, []), s_run calm_log 5 (flat_map std_call ex_log_calls) (repeat None 2%nat) (tt, []) with
  | HDone _ _ (_, l1), RDone _ _ (_, l2) =>
      l1 = returned [ECtor; ECopyCtor; EDtor; ECopyCtor; ESwap; EDtor; EDtor] /\ l1 = l2
  | _, _ => False
  end.
Proof.
  split; [exact calm_lawful|]. split; [constructor; cbn; auto|]. split; [repeat split|].
  split; [now apply std_calls_same|]. split; [|vm_compute; repeat split].
  apply Forall_forall. intros o _. apply quiet_gentle, flag_quiet. reflexivity.
Qed.

(** C69 for option<option<option<T>>>: x(some(some(5))); y(some(none)); y = x; x = std::move(y); x.reset(). *)
Definition deep : nat := 2.
Definition ex_deep (some none : init (nest_cls deep calm_log)) : list (call (nest_cls deep calm_log) (nest_sem deep calm_log calm_log_sem)) :=
  let g := mkcell (C := nest_cls deep calm_log) (mkcell (C := nest_cls 1 calm_log) (mkcell (C := calm_log) 9 9 false) 9 false) 9 false in
  [New 0 (IVal some) g; New 1 (IVal none) g; CopyAssign 1 0; MoveAssign 0 1; Reset 1; Destroy 0]%nat.
Definition ex_deep_std (some none : init (projT1 (nest_std deep calm_log 5))) : list (scall (projT1 (nest_std deep calm_log 5))) :=
  [SNew 0 (IVal some); SNew 1 (IVal none); SCopyAssign 1 0; SMoveAssign 0 1; SReset 1; SDestroy 0]%nat.

Example C69_ex_nested :
  let some := IVal (IVal (5 : init calm_log)) in let none := IVal INone in
  Forall2 (same_call _ _ _ (nest_rel deep calm_log calm_log_sem 5) (nest_init_rel deep calm_log 5))
    (ex_deep some none) (ex_deep_std some none) /\
  existsb (exchanges _ _) (ex_deep some none) = false /\
  match run _ _ (ex_deep some none) (repeat None 2%nat) (tt, []),
        s_run _ (projT2 (nest_std deep calm_log 5)) (ex_deep_std some none) (repeat None 2%nat) (tt, []) with
  | HDone _ _ (_, l1), RDone _ _ (_, l2) =>
      l1 = returned [ECtor; ECopyCtor; EMoveAssign; EDtor; EDtor] /\ l1 = l2
  | _, _ => False
  end.
Proof.
  cbn zeta. split; [|split; [reflexivity|vm_compute; repeat split]].
  unfold ex_deep, ex_deep_std. repeat constructor.
Qed.

(** C69 fails for swap of nested options: swap(std::optional&, std::optional&) exchanges the objects with
    T's swap; two options are exchanged with three moves (see C58). *)
Theorem C69_nested_swap_refuted : exists (C : cls (unit * log)) (Sm : sem C) g os1 os2,
  (lawful C Sm /\ steady C Sm /\ honest C Sm /\ fresh C Sm) /\
  Forall2 (same_call (nest_cls 1 C) (projT1 (nest_std 1 C g)) (nest_sem 1 C Sm) (nest_rel 1 C Sm g)
    (nest_init_rel 1 C g)) os1 os2 /\
  match run (nest_cls 1 C) (nest_sem 1 C Sm) os1 (repeat None 2%nat) (tt, []),
        s_run (projT1 (nest_std 1 C g)) (projT2 (nest_std 1 C g)) os2 (repeat None 2%nat) (tt, []) with
  | HDone _ _ (_, l1), RDone _ _ (_, l2) =>
      l1 = returned [ECtor; ECtor; EMoveCtor; EMoveAssign; EMoveAssign; EDtor] /\
      l2 = returned [ECtor; ECtor; ESwap]
  | _, _ => False
  end.
Proof.
  exists calm_log, calm_log_sem, 5.
  exists (let g := mkcell (C := nest_cls 1 calm_log) (mkcell (C := calm_log) 9 9 false) 9 false in
          [New 0 (IVal (IVal 1%N : init (nest_cls 1 calm_log))) g; New 1 (IVal (IVal 2%N : init (nest_cls 1 calm_log))) g;
           Swap 0 1]%nat).
  exists [SNew 0 (IVal (IVal 1%N : init (projT1 (nest_std 1 calm_log 5%N)))) ;
          SNew 1 (IVal (IVal 2%N : init (projT1 (nest_std 1 calm_log 5%N)))); SSwap 0 1]%nat.
  split; [exact calm_log_rules|]. split; [repeat constructor|]. vm_compute. repeat split.
Qed.
Print Assumptions C69_nested_swap_refuted.

(** C69 fails for an unused value that is used after all: option notices, std::optional keeps it. *)
Theorem C69_sentinel_refuted : exists (C : cls unit) (Sm : sem C) g os1 os2,
  (lawful C Sm /\ honest C Sm /\ fresh C Sm) /\
  Forall2 (same_call C C Sm (equal C Sm) eq) os1 os2 /\ Forall (gentle C Sm) os1 /\
  match run C Sm os1 [None] tt, s_run C g os2 [None] tt with
  | HAbort _, RDone _ [Some (Some _)] _ => True
  | _, _ => False
  end.
Proof.
  exists (plain 1), (plain_sem 1), 5.
  exists [New 0 (IVal (0%N : init (plain 1%N))) (mkcell (C := plain 1%N) 9%N 9%N false)]%nat, [SNew 0 (IVal (0%N : init (plain 1)))]%nat.
  split; [split; [apply plain_lawful|split; [apply plain_honest|apply plain_fresh]]|].
  split; [repeat constructor|]. split; [repeat constructor|]. exact I.
Qed.
Print Assumptions C69_sentinel_refuted.

(** C70: the constructors take part, and are explicit, exactly when those of std::optional do.  Only T's that
    braces alone can make are an extension. *)
Theorem C70_value_constructor : forall L t u ex, Constraints.is_reference t = false -> ~ only_braces L t [u] ->
  Constraints.value_ctor L ex t u = std_value_ctor L t u && Bool.eqb (std_explicit L u t) ex.
Proof. exact value_ctor_std. Qed.
Print Assumptions C70_value_constructor.

Theorem C70_option_constructor : forall L t u q ex, Constraints.is_reference t = false -> ~ only_braces L t [q] ->
  Constraints.same u t = false ->
  Constraints.option_ctor L ex t u q = std_option_ctor L t u q && Bool.eqb (std_explicit L q t) ex.
Proof. exact option_ctor_std. Qed.
Print Assumptions C70_option_constructor.

(** C70: the assignment of a value, too, but for a scalar T and a value of type T (d), where std::optional has
    no such assignment: a = {} then would mean a = T(). *)
Theorem C70_value_assignment : forall L t u d, Constraints.is_reference t = false -> ~ only_braces L t [u] ->
  Constraints.value_assign L t u = std_value_assign L d t u || d && std_value_assign L false t u.
Proof. exact value_assign_std. Qed.
Print Assumptions C70_value_assignment.

Theorem C70_option_assignment : forall L t u q, Constraints.is_reference t = false -> ~ only_braces L t [q] ->
  Constraints.same u t = false -> Constraints.option_assign L t u q = std_option_assign L t u q.
Proof. exact option_assign_std. Qed.
Print Assumptions C70_option_assignment.

(** C70: whatever std::optional accepts, option accepts, as explicit or implicit as there. *)
Theorem C70_accepted : forall L t u, Constraints.is_reference t = false ->
  (std_value_ctor L t u = true -> Constraints.value_ctor L (std_explicit L u t) t u = true) /\
  (forall q, Constraints.same u t = false -> std_option_ctor L t u q = true ->
     Constraints.option_ctor L (std_explicit L q t) t u q = true) /\
  (forall d, std_value_assign L d t u = true -> Constraints.value_assign L t u = true) /\
  (forall q, Constraints.same u t = false -> std_option_assign L t u q = true ->
     Constraints.option_assign L t u q = true).
Proof. exact std_accepted. Qed.
Print Assumptions C70_accepted.

(** C70: a = {} of a std::optional is the move assignment from an empty one, whatever T is. *)
Theorem C70_braces_std : forall X t, Constraints.is_reference t = false -> Constraints.remove_cv t = t ->
  std_brace_choice X t = Some Moving.
Proof. exact brace_choice_std. Qed.
Print Assumptions C70_braces_std.

(** C70: a = {} of an option is so for classes; for scalars that can be assigned it is a = T(). *)
Theorem C70_braces : forall X t, Constraints.is_reference t = false ->
  brace_choice X t =
  Some (if scalar_type X (Constraints.remove_cv t) && Constraints.value_assign (bl X) t (Constraints.remove_cv t)
        then FromValueOf else Moving).
Proof. exact brace_choice_object. Qed.
Print Assumptions C70_braces.

(** C70: for a reference to const or an rvalue reference to a scalar, a = {} binds the reference to a temporary
    scalar. *)
Theorem C70_braces_reference : forall X r c v b, r <> Constraints.NoRef ->
  brace_choice X (Constraints.ct r c v b) =
  Some (if scalar_type X (Constraints.ct Constraints.NoRef c v b) &&
           Constraints.value_assign (bl X) (Constraints.ct r c v b) (Constraints.ct r c v b) &&
           match r with Constraints.RRef => true | _ => c && negb v end
        then FromValueOf else Moving).
Proof. exact brace_choice_reference. Qed.
Print Assumptions C70_braces_reference.

(** C70: what the two choices do: the option is empty afterwards, and no exception comes out; or it holds a
    value made from {}. *)
Theorem C70_braces_move : forall W (C : cls W) (Sm : sem C), lawful C Sm -> forall i0 tmp c w,
  quiet_move C Sm -> inv C Sm c ->
  post (stops Sm) (assign_braces C i0 (Some Moving) tmp c w)
    (fun p => inv C Sm (fst p) /\ o_has C (fst p) = Ok false) (fun _ => False).
Proof. intros W. exact braces_move. Qed.
Print Assumptions C70_braces_move.

Theorem C70_braces_value : forall W (C : cls W) (Sm : sem C), lawful C Sm -> forall i0 tmp c w,
  quiet_init C i0 -> inv C Sm c ->
  post (stops Sm) (assign_braces C i0 (Some FromValueOf) tmp c w)
    (fun p => inv C Sm (fst p) /\ o_has C (fst p) = Ok true /\
       exists v, oval C Sm (fst p) = Some v /\ denotes Sm i0 v)
    (fun p => inv C Sm (fst p) /\ o_has C (fst p) = o_has C c).
Proof. intros W. exact braces_value. Qed.
Print Assumptions C70_braces_value.

(** Types for the examples: int and a class. *)
Definition numbers : blang :=
  mkblang PropertiesConstraints.with_pointers
    (fun t => Constraints.same (Constraints.remove_cv t) PropertiesConstraints.int_t)
    (fun t => Constraints.same (Constraints.remove_cv t) PropertiesConstraints.short_t).

(** C70 fails: option<int> a = 5; a = {}; leaves 0 in a, a std::optional is empty then. *)
Theorem C70_braces_refuted : exists X t (C : cls unit) (Sm : sem C) i0 tmp c,
  Constraints.is_reference t = false /\ Constraints.remove_cv t = t /\ scalar_type X t = true /\
  lawful C Sm /\ inv C Sm c /\ scalar C = true /\ o_has C c = Ok true /\
  (exists c', assign_braces C i0 (std_brace_choice X t) tmp c tt = Ret (c', tt) /\ o_has C c' = Ok false) /\
  (exists c', assign_braces C i0 (brace_choice X t) tmp c tt = Ret (c', tt) /\ o_has C c' = Ok true).
Proof.
  exists numbers, PropertiesConstraints.int_t, (plain 0), (plain_sem 0), 0, (mkcell (C := plain 0) 9 9 false),
    (mkcell (C := plain 0) 5 1 true).
  split; [reflexivity|]. split; [reflexivity|]. split; [reflexivity|]. split; [apply plain_lawful|].
  split; [split; [|split]; cbn; intros; try discriminate; auto|]. split; [reflexivity|]. split; [reflexivity|].
  split; eexists; split; reflexivity.
Qed.
Print Assumptions C70_braces_refuted.

(** option<const int&> a; a = {}; stores the address of a temporary: the assignment from a value is chosen, and
    the reference binds to what the braces make. *)
Theorem C70_braces_reference_refuted : exists X t, Constraints.is_reference t = true /\
  brace_choice X t = Some FromValueOf.
Proof. exists numbers, PropertiesConstraints.const_int_ref. split; reflexivity. Qed.
Print Assumptions C70_braces_reference_refuted.

Example C70_ex :
  (~ only_braces PropertiesConstraints.with_pointers PropertiesConstraints.int_t [PropertiesConstraints.short_t]) /\
  Constraints.value_ctor PropertiesConstraints.with_pointers false PropertiesConstraints.int_t PropertiesConstraints.short_t = true /\
  std_value_ctor PropertiesConstraints.with_pointers PropertiesConstraints.int_t PropertiesConstraints.short_t = true /\
  std_option_ctor PropertiesConstraints.with_pointers PropertiesConstraints.int_t PropertiesConstraints.short_t PropertiesConstraints.short_t = true /\
  std_value_assign PropertiesConstraints.with_pointers true PropertiesConstraints.int_t PropertiesConstraints.int_t = false /\
  std_value_assign PropertiesConstraints.with_pointers false PropertiesConstraints.int_t PropertiesConstraints.int_t = true /\
  std_option_assign PropertiesConstraints.with_pointers PropertiesConstraints.int_t PropertiesConstraints.short_t PropertiesConstraints.short_t = true /\
  brace_choice numbers PropertiesConstraints.short_t = Some Moving /\
  brace_choice numbers PropertiesConstraints.int_t = Some FromValueOf /\
  brace_choice numbers PropertiesConstraints.int_ref = Some Moving.
Proof. split; [intros (_ & H & _); discriminate|]. repeat split. Qed.
