(** The typestate analysis of whole functions.  Statements only: each theorem is closed by [exact], with its
    assumptions printed, and examples that meet the hypotheses. *)
From Coq Require Import NArith ZArith Bool List Lia.
From Verif Require Import Outcome Words Lifetime LifetimeSpec LifetimeFacts History HistorySpec HistoryFacts
  Classes ClassesFacts LifetimeLemmas Typestate TypestateSpec TypestateFacts PropertiesTypestate
  TypestateFlow TypestateFlowSpec TypestateFlowFacts.
Import ListNotations.
Open Scope N_scope.

(** C93: for every class, every program with branches, loops, returns and handlers, every run of it: if nothing is known
    after functions without annotation and in handlers, then no access without warning fails its check. *)
Theorem C93_sound : forall W (C : cls W) (S : sem C), lawful C S ->
  forall vs (s : stmt C S) p o l w l' w' e, all_calls (fun o => fair C S o /\ gentle C S o) s ->
  healthy C S l -> truthful C e l -> fst (flow false vs s (Some e)) = true ->
  comes_to s p o -> takes C S p l w l' w' -> step C S o l' w' = SAbort -> stops S.
Proof. intros W C S L vs. exact (flow_safe L vs). Qed.
Print Assumptions C93_sound.

(** ... and what is known after a run is true. *)
Theorem C93_known : forall W (C : cls W) (S : sem C), lawful C S ->
  forall vs (s : stmt C S) p l w l' w' e, path s p Through -> all_calls (fun o => fair C S o /\ gentle C S o) s ->
  healthy C S l -> truthful C e l -> takes C S p l w l' w' -> fst (flow false vs s (Some e)) = true ->
  exists e', snd (flow false vs s (Some e)) = Some e' /\ truthful C e' l'.
Proof. intros W C S L vs. exact (flow_after L vs). Qed.
Print Assumptions C93_known.

(** The rules of Clang come to the same for programs without handlers that call only functions with annotations, copy
    or destroy options. *)
Theorem C93_clang : forall W (C : cls W) (S : sem C), lawful C S ->
  forall vs (s : stmt C S) p o l w l' w' e, all_calls (fun o => fair C S o /\ gentle C S o) s ->
  all_calls annotated s -> no_handlers s ->
  healthy C S l -> truthful C e l -> fst (flow true vs s (Some e)) = true ->
  comes_to s p o -> takes C S p l w l' w' -> step C S o l' w' = SAbort -> stops S.
Proof.
  intros W C S L vs s p o l w l' w' e A N H. rewrite clang_same by assumption.
  exact (flow_safe L vs s p o l w l' w' e A).
Qed.
Print Assumptions C93_clang.

(** Tests are understood: if (x) *x;  and  if (!x) return; *x;  give no warning, and an access without test gives one. *)
Theorem C93_guarded : forall W (C : cls W) (S : sem C) clang vs x (o : call C S) e, accessed o = Some x ->
  e x = Unknown \/ e x = Consumed -> fst (flow clang vs (If x true (Act o) Skip) (Some e)) = true.
Proof. intros W C S. exact guarded_silent. Qed.
Print Assumptions C93_guarded.
Theorem C93_early_return : forall W (C : cls W) (S : sem C) clang vs x (o : call C S) e, accessed o = Some x ->
  e x = Unknown \/ e x = Consumed -> fst (flow clang vs (Seq (If x false Return Skip) (Act o)) (Some e)) = true.
Proof. intros W C S. exact early_return_silent. Qed.
Print Assumptions C93_early_return.
Theorem C93_unguarded : forall W (C : cls W) (S : sem C) clang vs x (o : call C S) e, accessed o = Some x ->
  e x <> Consumed -> fst (flow clang vs (Act o) (Some e)) = false.
Proof. intros W C S. exact unguarded_warned. Qed.
Print Assumptions C93_unguarded.

(** while (x) body;  where nothing is known about x before the loop gives a warning, whatever the body does, unless
    nothing is known about x at the end of the body. *)
Theorem C93_loop : forall W (C : cls W) (S : sem C) clang vs x answer (a : stmt C S) e e1, e x = Unknown ->
  existsb (Nat.eqb x) vs = true -> snd (flow clang vs a (Some (know (only vs e) x (tested answer)))) = Some e1 ->
  e1 x <> Unknown -> fst (flow clang vs (While x answer a) (Some e)) = false.
Proof. intros W C S. exact loop_warned. Qed.
Print Assumptions C93_loop.

(** Code that Clang takes for unreachable gives no warning. *)
Theorem C93_unreachable : forall W (C : cls W) (S : sem C) clang vs (s : stmt C S), no_handlers s ->
  flow clang vs s None = (true, None).
Proof. intros W C S. exact unreachable_silent. Qed.
Print Assumptions C93_unreachable.

Lemma ex_fair_at : forall x, fair ex_int ex_int_sem (ex_use x).
Proof. intros x r w H. cbn. split; [exact H|]. split; [reflexivity|lia]. Qed.

Lemma ex_fg : forall x, (fun o => fair ex_int ex_int_sem o /\ gentle ex_int ex_int_sem o) (ex_use x).
Proof. intros x. split; [apply ex_fair_at|exact I]. Qed.

Local Ltac path :=
  lazymatch goal with
  | |- takes _ _ [] _ _ _ _ => split; reflexivity
  | |- takes _ _ (Do _ _ :: ?p) _ _ _ _ => eexists; eexists; split; [vm_compute; reflexivity|path]
  | |- takes _ _ (Saw _ _ :: ?p) _ _ _ _ => split; [eexists; split; vm_compute; reflexivity|path]
  | |- _ => idtac
  end.

(** option<int> a = option<long>(5);
    while (...) { if (...) { a.emplace(5); *a; } else a.reset(); }
    if (!a) return;
    *a;
    A run goes once through each branch and then to the last line. *)
Definition ex_prog : stmt ex_int ex_int_sem :=
  Seq (Act (New 0 (IConv (Some ex_5)) ex_mem))
 (Seq (Repeat (Either (Seq (Act (Emplace 0 ex_5)) (Act (ex_use 0))) (Act (Reset 0))))
 (Seq (If 0 false Return Skip) (Act (ex_use 0)))).
Definition ex_run : list (event ex_int ex_int_sem) :=
  [Do (New 0 (IConv (Some ex_5)) ex_mem) false; Do (Reset 0) false; Do (Emplace 0 ex_5) false; Do (ex_use 0) false; Saw 0 true].
Example C93_ex :
  fst (flow false [0%nat] ex_prog (Some nothing)) = true /\ comes_to ex_prog ex_run (ex_use 0) /\
  (exists l w, takes ex_int ex_int_sem ex_run [None] [] l w) /\ truthful ex_int nothing [None] /\
  all_calls (fun o => fair ex_int ex_int_sem o /\ gentle ex_int ex_int_sem o) ex_prog.
Proof.
  split; [vm_compute; reflexivity|]. split; [|split; [eexists; eexists; unfold ex_run; path|split]].
  - unfold ex_prog, ex_run. apply (c_seq _ _ [_]); [constructor|].
    apply (c_seq _ _ [_; _; _]); [|apply (c_seq _ _ [_]); [apply (p_else 0 false); constructor|constructor]].
    apply (p_repeat _ [_]); [apply p_either_right; constructor|].
    apply (p_repeat _ [_; _]); [apply p_either_left; apply (p_seq _ _ [_]); constructor|]. constructor.
  - intros [|[|x]] c H; discriminate H.
  - destruct ex_quiet as [Q1 Q2 Q3]. cbn [all_calls ex_prog].
    split; [|split; [split; [split|]|split; [split|]]]; try exact I; try (split; [exact I|exact I]).
    + split; [exact I|apply Q1].
    + split; [exact I|apply Q1].
    + split; [apply ex_fair_at|exact I].
    + split; [apply ex_fair_at|exact I].
Qed.

(** A program without warnings by the rules of Clang, and a run of it that ends in an access that fails. *)
Definition fooled (vs : list nat) (e : knowledge) (s : stmt ex_int ex_int_sem) (n : nat) : Prop :=
  exists w0 p o l w, fst (flow true vs s (Some e)) = true /\ comes_to s p o /\
  takes ex_int ex_int_sem p (repeat None n) w0 l w /\ step ex_int ex_int_sem o l w = SAbort /\ ~ stops ex_int_sem.

(** option<int> a = option<long>(5); option<int> b; if (a) *b;  a counts as empty, and the branch as unreachable. *)
Theorem C93_converted_refuted :
  fooled [0%nat; 1%nat] nothing (Seq (Act (New 0 (IConv (Some ex_5)) ex_mem)) (Seq (Act (New 1 INone ex_mem)) (If 0 true (Act (ex_use 1)) Skip))) 2.
Proof.
  exists [], [Do (New 0 (IConv (Some ex_5)) ex_mem) false; Do (New 1 INone ex_mem) false; Saw 0 true], (ex_use 1).
  eexists; eexists. split; [vm_compute; reflexivity|]. split; [|split; [cbn [repeat]; path|split; [vm_compute; reflexivity|exact id]]].
  apply (c_seq _ _ [_]); [constructor|]. apply (c_seq _ _ [_]); [constructor|]. apply c_if. constructor.
Qed.
Print Assumptions C93_converted_refuted.

(** void f(option<int> a) { option<int> b; if (a) *b; }  called with a value: the same for a parameter by value. *)
Theorem C93_parameter_refuted :
  let s := Seq (Act (New 1 INone ex_mem)) (If 0 true (Act (ex_use 1)) Skip) : stmt ex_int ex_int_sem in
  fst (flow true [0%nat; 1%nat] s (Some (know nothing 0 (parameter true)))) = true /\
  fst (flow true [0%nat; 1%nat] s (Some (know nothing 0 (parameter false)))) = false /\
  exists p o l w, comes_to s p o /\ takes ex_int ex_int_sem p [Some (mkcell (C := ex_int) 5 1 true); None] [] l w /\
  step ex_int ex_int_sem o l w = SAbort /\ ~ stops ex_int_sem.
Proof.
  cbv zeta. split; [vm_compute; reflexivity|]. split; [vm_compute; reflexivity|].
  exists [Do (New 1 INone ex_mem) false; Saw 0 true], (ex_use 1).
  eexists; eexists. split; [|split; [path|split; [vm_compute; reflexivity|exact id]]].
  apply (c_seq _ _ [_]); [constructor|]. apply c_if. constructor.
Qed.
Print Assumptions C93_parameter_refuted.

(** option<int> a = 5; if (...) a.reset(); *a; *)
Theorem C93_branch_refuted :
  fooled [0%nat] nothing (Seq (Act (New 0 (IVal ex_5) ex_mem)) (Seq (Either (Act (Reset 0)) Skip) (Act (ex_use 0)))) 1.
Proof.
  exists [], [Do (New 0 (IVal ex_5) ex_mem) false; Do (Reset 0) false], (ex_use 0).
  eexists; eexists. split; [vm_compute; reflexivity|]. split; [|split; [cbn [repeat]; path|split; [vm_compute; reflexivity|exact id]]].
  apply (c_seq _ _ [_]); [constructor|]. apply (c_seq _ _ [_]); [apply p_either_left|]; constructor.
Qed.
Print Assumptions C93_branch_refuted.

(** option<int> a; try { a.emplace(5); } catch (...) { *a; }  Handlers are not looked at. *)
Theorem C93_handler_refuted :
  fooled [0%nat] nothing (Seq (Act (New 0 INone ex_mem)) (Try (Act (Emplace 0 ex_5)) (Act (ex_use 0)))) 1.
Proof.
  exists [true], [Do (New 0 INone ex_mem) false; Do (Emplace 0 ex_5) true], (ex_use 0).
  eexists; eexists. split; [vm_compute; reflexivity|]. split; [|split; [cbn [repeat]; path|split; [vm_compute; reflexivity|exact id]]].
  apply (c_seq _ _ [_]); [constructor|]. apply (c_catch _ _ [_]); constructor.
Qed.
Print Assumptions C93_handler_refuted.

Lemma loop_never_fails : forall p o l w l' w', healthy ex_int ex_int_sem l ->
  comes_to (While 0 true (Seq (Act (ex_use 0)) (Act (Reset 0)))) p o ->
  takes ex_int ex_int_sem p l w l' w' -> step ex_int ex_int_sem o l' w' <> SAbort.
Proof.
  intros p o l w l' w' H P T E.
  refine (flow_safe ex_lawful [0%nat] _ p o l w l' w' nothing _ H (truthful_nothing ex_lawful l H) _ P T E).
  - cbn [all_calls]. split; [apply ex_fg|split; exact I].
  - vm_compute. reflexivity.
Qed.

(** while (a) { *a; a.reset(); } of a parameter option<int>& a: a warning by the rules of Clang, although no run fails. *)
Definition ex_loop : stmt ex_int ex_int_sem := While 0 true (Seq (Act (ex_use 0)) (Act (Reset 0))).
Example C93_ex_loop :
  fst (flow true [0%nat] ex_loop (Some (know nothing 0 (parameter false)))) = false /\
  fst (flow false [0%nat] ex_loop (Some (know nothing 0 (parameter false)))) = true /\
  (exists e1, snd (flow true [0%nat] (Seq (Act (ex_use 0)) (Act (Reset 0)) : stmt ex_int ex_int_sem)
    (Some (know (only [0%nat] (know nothing 0 (parameter false))) 0 (tested true)))) = Some e1 /\ e1 0%nat = Consumed).
Proof. split; [vm_compute; reflexivity|]. split; [vm_compute; reflexivity|]. eexists. split; reflexivity. Qed.
(** No run of this loop fails. *)
Theorem C93_loop_false_alarm : forall p o l w l' w', healthy ex_int ex_int_sem l -> comes_to ex_loop p o ->
  takes ex_int ex_int_sem p l w l' w' -> step ex_int ex_int_sem o l' w' <> SAbort.
Proof. exact loop_never_fails. Qed.
Print Assumptions C93_loop_false_alarm.
(** A program to which the theorem about Clang's rules applies. *)
Definition ex_prog2 : stmt ex_int ex_int_sem :=
  Seq (Act (New 0 INone ex_mem)) (Seq (If 0 true Skip (Act (Emplace 0 ex_5))) (Act (ex_use 0))).
Example C93_ex_clang :
  fst (flow true [0%nat] ex_prog2 (Some nothing)) = true /\ all_calls annotated ex_prog2 /\ no_handlers ex_prog2 /\
  comes_to ex_prog2 [Do (New 0 INone ex_mem) false; Saw 0 false; Do (Emplace 0 ex_5) false] (ex_use 0).
Proof.
  split; [vm_compute; reflexivity|]. split; [cbn; auto|]. split; [cbn; auto|].
  apply (c_seq _ _ [_]); [constructor|]. apply (c_seq _ _ [_; _]); [|constructor]. apply (p_else 0 true). constructor.
Qed.
