(** The typestate annotations.  Statements only: each theorem is closed by [exact], with its assumptions
    printed, and examples that meet the hypotheses. *)
From Coq Require Import NArith ZArith Bool List Lia.
From Verif Require Import Outcome Words Lifetime LifetimeSpec LifetimeFacts History HistorySpec HistoryFacts
  Classes ClassesFacts LifetimeLemmas Typestate TypestateSpec TypestateFacts.
Import ListNotations.
Open Scope N_scope.

(** C63: for every class and state: a function that is annotated returns only with what the annotation says. *)
Theorem C63_annotations : forall W (C : cls W) (S : sem C), lawful C S ->
  forall o l w l' w' x s, healthy C S l -> fair C S o -> gentle C S o ->
  step C S o l w = SRet l' w' -> annotation o = Some (x, s) ->
  exists c h, slot l' x = Some c /\ o_has C c = Ok h /\ promises s h.
Proof. intros W C S L. exact (annotation_true L). Qed.
Print Assumptions C63_annotations.

(** ... and these are the annotations that the analyses go by. *)
Theorem C63_used : forall W (C : cls W) (S : sem C) clang (o : call C S) x s e, annotation o = Some (x, s) ->
  (match o with NewTake _ z y _ => z <> y | _ => True end) -> after clang o false e x = s.
Proof. intros W C S. exact annotation_used. Qed.
Print Assumptions C63_used.

(** If functions without annotation leave nothing known, then on every path of every program, with any
    exceptions, everything that is known is true. *)
Theorem C63_sound : forall W (C : cls W) (S : sem C), lawful C S ->
  forall p l w l' w' e, healthy C S l -> calls p (fair C S) -> calls p (gentle C S) ->
  truthful C e l -> takes C S p l w l' w' -> healthy C S l' /\ truthful C (analysed false p e) l'.
Proof. intros W C S L. exact (sound L). Qed.
Print Assumptions C63_sound.

(** ... so that an access without warning never fails its check. *)
Theorem C63_accepted : forall W (C : cls W) (S : sem C), lawful C S ->
  forall p o l w l' w' e, healthy C S l -> calls p (fair C S) -> calls p (gentle C S) ->
  fair C S o -> gentle C S o -> truthful C e l -> takes C S p l w l' w' ->
  accepted false p o e = true -> step C S o l' w' = SAbort -> stops S.
Proof. intros W C S L. exact (accepted_safe L). Qed.
Print Assumptions C63_accepted.

(** By Clang's rules a member function without annotation changes nothing, and the source of a move is
    "consumed".  This is for paths without reset, swap and take_if (no annotation) of an option with a known value,
    and without moves from options not known to have one; for these there are witnesses below. *)
Theorem C63_clang : forall W (C : cls W) (S : sem C), lawful C S ->
  forall p o l w l' w' e, healthy C S l -> calls p (fair C S) -> calls p (gentle C S) ->
  fair C S o -> gentle C S o -> hopeful l e -> fitting p e -> takes C S p l w l' w' ->
  accepted true p o e = true -> step C S o l' w' = SAbort -> stops S.
Proof. intros W C S L. exact (clang_safe L). Qed.
Print Assumptions C63_clang.

Definition ex_int : cls (list bool) := fussy 0 false.
Definition ex_int_sem : sem ex_int := fussy_sem 0 false.
Definition ex_mem : cell ex_int := mkcell (C := ex_int) 9 0 false.
Definition ex_5 : init ex_int := 5.
Definition ex_use (x : nat) : call ex_int ex_int_sem := Update x (fun r w => Ret (r, w)) (fun v v' => v' = v).
Definition ex_yes : raw ex_int -> list bool -> out (raw ex_int * (bool * list bool)) := fun r w => Ret (r, (true, w)).

Lemma ex_lawful : lawful ex_int ex_int_sem. Proof. apply fussy_lawful. vm_compute. reflexivity. Qed.
Lemma ex_fair : fair ex_int ex_int_sem (ex_use 0).
Proof. intros r w H. cbn. split; [exact H|]. split; [reflexivity|lia]. Qed.
Lemma ex_quiet : quiet ex_int ex_int_sem. Proof. apply flag_quiet. reflexivity. Qed.

(** Emplace, test, use: accepted by both analyses; it runs to the end. *)
Example C63_ex :
  let p := [Do (New 0 INone ex_mem) false; Do (Emplace 0 ex_5) false; Do (ex_use 0) false; Do (Reset 0) false;
            Do (New 1 (IConv (Some ex_5)) ex_mem) false; Saw 1 true] in
  let l' := [Some (mkcell (C := ex_int) 5 0 false); Some (mkcell (C := ex_int) 5 1 true)] in
  takes ex_int ex_int_sem p [None; None] [] l' [] /\ accepted false p (ex_use 1) (fun _ => Unknown) = true /\
  analysed false p (fun _ => Unknown) 1%nat = Consumed /\ truthful ex_int (analysed false p (fun _ => Unknown)) l'.
Proof.
  cbv zeta. split; [|split; [vm_compute; reflexivity|split; [vm_compute; reflexivity|]]].
  - cbn [takes]. do 5 (eexists; eexists; split; [vm_compute; reflexivity|]).
    split; [eexists; split; vm_compute; reflexivity|]. split; reflexivity.
  - intros [|[|x]] c H; vm_compute in H; try (injection H as <-; eexists; split; [vm_compute; reflexivity|exact I || reflexivity]).
    destruct x; discriminate H.
Qed.

Local Ltac path :=
  lazymatch goal with
  | |- takes _ _ [] _ _ _ _ => split; reflexivity
  | |- takes _ _ (_ :: ?p) _ _ _ _ => eexists; eexists; split; [vm_compute; reflexivity|path]
  | |- _ => idtac
  end.

(** A path that Clang's rules accept although the last access fails. *)
Definition misled (p : list (event ex_int ex_int_sem)) (o : call ex_int ex_int_sem) : Prop :=
  exists l w, takes ex_int ex_int_sem p [None; None] [] l w /\ accepted true p o (fun _ => Unknown) = true /\
  step ex_int ex_int_sem o l w = SAbort /\ ~ stops ex_int_sem /\ accepted false p o (fun _ => Unknown) = false.

(** option<int> a = 5; a.reset(); *a; *)
Theorem C63_reset_refuted : misled [Do (New 0 (IVal ex_5) ex_mem) false; Do (Reset 0) false] (ex_use 0).
Proof.
  eexists; eexists. split; [path|].
  split; [vm_compute; reflexivity|]. split; [vm_compute; reflexivity|]. split; [exact id|vm_compute; reflexivity].
Qed.
Print Assumptions C63_reset_refuted.

(** option<int> a = 5; option<int> b; a.swap(b); *a; *)
Theorem C63_swap_refuted :
  misled [Do (New 0 (IVal ex_5) ex_mem) false; Do (New 1 INone ex_mem) false; Do (Swap 0 1) false] (ex_use 0).
Proof.
  eexists; eexists. split; [path|].
  split; [vm_compute; reflexivity|]. split; [vm_compute; reflexivity|]. split; [exact id|vm_compute; reflexivity].
Qed.
Print Assumptions C63_swap_refuted.

(** option<int> a = 5; auto b = a.take_if(yes); *a; *)
Theorem C63_take_if_refuted :
  misled [Do (New 0 (IVal ex_5) ex_mem) false; Do (NewTakeIf true ex_yes (fun v b v' => b = true /\ v' = v) 1 0 ex_mem) false] (ex_use 0).
Proof.
  eexists; eexists. split; [path|].
  split; [vm_compute; reflexivity|]. split; [vm_compute; reflexivity|]. split; [exact id|vm_compute; reflexivity].
Qed.
Print Assumptions C63_take_if_refuted.

(** option<int> a; option<int> b = std::move(a); *a;  "Consumed" after a move means "has a value" here. *)
Theorem C63_move_refuted :
  misled [Do (New 0 INone ex_mem) false; Do (NewMove 1 0 ex_mem) false] (ex_use 0).
Proof.
  eexists; eexists. split; [path|].
  split; [vm_compute; reflexivity|]. split; [vm_compute; reflexivity|]. split; [exact id|vm_compute; reflexivity].
Qed.
Print Assumptions C63_move_refuted.

(** An option made from an option<U> is "unconsumed", that is empty, whatever it was made from. *)
Theorem C63_converted_refuted :
  exists l w, takes ex_int ex_int_sem [Do (New 0 (IConv (Some ex_5)) ex_mem) false] [None] [] l w /\
  analysed true [Do (New 0 (IConv (Some ex_5)) ex_mem : call ex_int ex_int_sem) false] (fun _ => Unknown) 0%nat = Unconsumed /\
  exists c, slot l 0 = Some c /\ o_has ex_int c = Ok true.
Proof.
  eexists; eexists. split; [path|].
  split; [vm_compute; reflexivity|]. eexists. split; vm_compute; reflexivity.
Qed.
Print Assumptions C63_converted_refuted.
