(** Properties of programs that use iterators and const iterators together (C90). *)
From Coq Require Import NArith ZArith Bool List.
From Verif Require Import Outcome Lifetime LifetimeSpec Classes ClassesFacts Observe Iter IterProg IterProgSpec MixIter MixIterSpec
  MixIterFacts PropertiesObserve.
Import ListNotations.
Open Scope Z_scope.

(** C90: every program that compiles, with iterators and const iterators of one option, conversions and
    assignments between them, reads and writes, gets what a range of one value gives; on an empty option, every
    program that only converts, assigns, compares with ==, !=, <=, >= and subtracts gets what an empty range gives. *)
Theorem C90_programs : forall W (C : cls W) (S : sem C), lawful C S -> forall o c, inv C S c ->
  exists b e, begin_ o c = Ret b /\ end_ o c = Ret e /\
    forall R g t (p : mprog R) h, accepted g p (start_types t) ->
      (c_alive c = true -> matches o h (mrun g p (start_types t) [b; e; b; e] h) (expected p [0; 1; 0; 1] [h o])) /\
      (c_alive c = false -> only_compares p -> exists r, mrun g p (start_types t) [b; e; b; e] h = Ok (r, h) /\
         expected p [0; 0; 0; 0] [] = Ok (r, [])).
Proof. exact @option_mixed. Qed.
Print Assumptions C90_programs.
(** test/option.test.cpp 938-946, and a write seen through a const iterator. *)
Definition test_938 : mprog (bool * bool) :=
  MConst 2 (MAssign 4 3 (MCompare CEq 4 1 (fun x => MAssign 4 0 (MCompare CNe 4 3 (fun y => MDone (x, y)))))).
Definition write_read : mprog Z := MConst 0 (MWrite 0 7 (MRead 4 (fun v => MDone v))).
Example C90_programs_ex : accepted Cxx17 test_938 (start_types (Object false)) /\
  accepted Cxx17 write_read (start_types (Object false)) /\ ~ accepted Cxx17 write_read (start_types (Object true)) /\
  inv (fussy 3 false) (fussy_sem 3 false) (one34 4) /\ only_compares (MCompare CEq 2 1 (fun x => MDone x)) /\
  match mrun Cxx17 write_read (start_types (Object false)) [IAt 64 0; IAt 64 1; IAt 64 0; IAt 64 1] (fun _ => 3) with
  | Ok (v, h) => v = 7 /\ h 64%N = 7 /\ h 65%N = 3
  | _ => False
  end /\
  match mrun Cxx17 test_938 (start_types (Object false)) [IAt 64 0; IAt 64 1; IAt 64 0; IAt 64 1] (fun _ => 3) with
  | Ok (v, _) => v = (true, true)
  | _ => False
  end.
Proof.
  split; [cbn; repeat (eexists || split); discriminate|].
  split; [cbn; repeat (eexists || split)|].
  split; [cbn; intros [a [E [b [E2 [H _]]]]]; injection E as <-; injection E2 as <-; discriminate|].
  split; [exact (one34_inv 4)|].
  split; [exact I|]. split; [repeat split|reflexivity].
Qed.

(** Which comparisons and differences compile: the right operand has to be of the type of the left one or
    convert to it; before P2468 C++20 also allows the other order for == and !=. *)
Theorem C90_operators_exact : forall g l r,
  (forall c, resolve g c l r <> None <->
     (l = r \/ l = add_const r \/ (g = Cxx20 /\ (c = CEq \/ c = CNe) /\ r = add_const l))) /\
  (subtracts l r = true <-> l = r \/ l = add_const r).
Proof. exact (fun g l r => conj (fun c => compares_iff g c l r) (subtracts_iff l r)). Qed.
Print Assumptions C90_operators_exact.

(** So either operand may be replaced by a const iterator, as in a container, exactly if the two types are the
    same, which is so for options of const objects and of references. *)
Theorem C90_mixes_exact : forall g t, mixes g t <-> (t = Object true \/ exists c, t = Reference c).
Proof. exact mixes_which. Qed.
Print Assumptions C90_mixes_exact.
Theorem C90_mixes_refuted : exists t,
  resolve Cxx17 CEq (iterator t) (const_iterator t) = None /\ resolve P2468 CNe (iterator t) (const_iterator t) = None /\
  (forall g, resolve g CLt (iterator t) (const_iterator t) = None) /\ subtracts (iterator t) (const_iterator t) = false /\
  (forall g c, resolve g c (const_iterator t) (iterator t) = Some Direct) /\ subtracts (const_iterator t) (iterator t) = true.
Proof. exact (ex_intro _ (Object false) one_order). Qed.
Print Assumptions C90_mixes_refuted.

(** A program that has only the const iterators of an option of objects changes nothing. *)
Theorem C90_const : forall R g c (p : mprog R) its h r h',
  accepted g p [const_iterator (Object c); const_iterator (Object c)] ->
  mrun g p [const_iterator (Object c); const_iterator (Object c)] its h = Ok (r, h') -> h' = h.
Proof. exact const_iterators_read. Qed.
Print Assumptions C90_const.
Example C90_const_ex : let p := MMove Inc 0 (MMove Dec 2 (MRead 3 (fun v => MDone v))) in
  accepted P2468 p [const_iterator (Object false); const_iterator (Object false)] /\
  match mrun P2468 p [const_iterator (Object false); const_iterator (Object false)] [IAt 64 0; IAt 64 1] (fun _ => 3) with
  | Ok (v, _) => v = 3
  | _ => False
  end.
Proof. split; [cbn; repeat (eexists || split)|reflexivity]. Qed.
(** Not so for options of references, whose const iterators give references to objects that are not const. *)
Theorem C90_reference_refuted : exists (p : mprog unit) h',
  accepted Cxx17 p [const_iterator (Reference false); const_iterator (Reference false)] /\
  mrun Cxx17 p [const_iterator (Reference false); const_iterator (Reference false)] [IAt 64 0; IAt 64 1] (fun _ => 3) =
    Ok (tt, h') /\ h' 64%N = 7.
Proof. exact reference_writes. Qed.
Print Assumptions C90_reference_refuted.

(** Which assignments and writes compile: to an iterator of the same type or to the const iterator, and through
    iterators whose elements are not const. *)
Theorem C90_assignments_exact : forall R g ts i j (k : mprog R), accepted g (MAssign i j k) ts <->
  exists a b, nth_error ts i = Some a /\ nth_error ts j = Some b /\ (a = b \/ a = add_const b) /\ accepted g k ts.
Proof. exact assigns_iff. Qed.
Print Assumptions C90_assignments_exact.
Theorem C90_writes_exact : forall R g ts i v (k : mprog R), accepted g (MWrite i v k) ts <->
  exists a, nth_error ts i = Some a /\ (a = Object false \/ a = Reference false) /\ accepted g k ts.
Proof. exact writes_iff. Qed.
Print Assumptions C90_writes_exact.
Example C90_assignments_ex : accepted Cxx17 (MAssign 2 0 (MDone tt)) (start_types (Object false)) /\
  ~ accepted Cxx17 (MAssign 0 2 (MDone tt)) (start_types (Object false)) /\
  ~ accepted Cxx17 (MWrite 0 7 (MDone tt)) (start_types (Reference true)).
Proof.
  split; [|split].
  - apply C90_assignments_exact. exists (Object true), (Object false). cbn. auto.
  - intros H. apply C90_assignments_exact in H as (a & b & Ha & Hb & [E|E] & _); cbn in *; injection Ha as <-;
      injection Hb as <-; discriminate.
  - intros H. apply C90_writes_exact in H as (a & Ha & [E|E] & _); cbn in Ha; injection Ha as <-; discriminate.
Qed.
