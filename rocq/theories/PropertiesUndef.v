(** Properties C36, C53, C80, C87, C90: what the models call undefined, so that its absence says something. *)
From Coq Require Import ZArith NArith Bool List.
From Verif Require Import Outcome Words Types Lifetime Lookup ByteProg Alias UndefSeen.
From Verif Require Iter IterProg MixIter Layers.
Import ListNotations.
Open Scope N_scope.

(** The iterators are pointers to an object or one past it. *)
Theorem C36_pointers_undefined : forall p q n f,
  (Iter.p_add p n = UB <-> match p with Iter.INull => n <> 0%Z | Iter.IAt _ i => (i + n <> 0 /\ i + n <> 1)%Z end) /\
  (Iter.p_diff p q = UB <-> apart p q) /\ (Iter.p_cmp f p q = UB <-> apart p q) /\
  (Iter.p_deref p = UB <-> forall o, p <> Iter.IAt o 0).
Proof. exact (fun p q n f => conj (add_undef p n) (conj (diff_undef p q) (conj (cmp_undef f p q) (deref_undef p)))). Qed.
Print Assumptions C36_pointers_undefined.
Example C36_pointers_undefined_ex : Iter.p_add (Iter.IAt 3 1) 1 = UB /\ Iter.p_add (Iter.IAt 3 0) 1 = Ok (Iter.IAt 3 1) /\
  apart (Iter.IAt 3 0) (Iter.IAt 4 0) /\ apart Iter.INull (Iter.IAt 4 0) /\ ~ apart (Iter.IAt 3 0) (Iter.IAt 3 1).
Proof. cbn. repeat split; try discriminate. intros X. now apply X. Qed.

Theorem C90_no_operator_undefined : forall g c l r p q, MixIter.resolve g c l r = None -> MixIter.compared g c l r p q = UB.
Proof. exact compare_undef. Qed.
Print Assumptions C90_no_operator_undefined.
Example C90_no_operator_undefined_ex : MixIter.resolve MixIter.Cxx17 IterProg.CLt (MixIter.Object false) (MixIter.Object true) = None.
Proof. reflexivity. Qed.

Theorem C87_elements_undefined : forall X (c : list X) i,
  (subscript c i = UB <-> (length c <= N.to_nat i)%nat) /\ (entry c i = UB <-> (length c <= N.to_nat i)%nat) /\
  (front c = UB <-> c = []) /\ (back c = UB <-> c = []).
Proof. exact element_undef. Qed.
Print Assumptions C87_elements_undefined.
Example C87_elements_undefined_ex : subscript [true; false] 2 = UB /\ subscript [true; false] 1 = Ok 1 /\ @front bool [] = UB.
Proof. repeat split. Qed.

Theorem C87_index_undefined : forall W (C : cls W) n i (c : cell C) v, (n <= i)%nat -> get_index n i c = Undef /\ variant_get n i v = Undef.
Proof. exact index_undef. Qed.
Print Assumptions C87_index_undefined.
Example C87_index_undefined_ex : variant_get 2 2 (Some 1%nat) = Undef /\ variant_get 2 1 (Some 1%nat) = Ret (Some 1%nat).
Proof. split; reflexivity. Qed.

(** Programs on bytes: variables that do not exist, member functions of option on other objects, steps that do not exist. *)
Theorem C53_variables_undefined : forall env p m f, nth_error env (fst p) = None ->
  read env p m = UB /\ update env p f m = UB /\ addr env p m = UB.
Proof. exact no_variable. Qed.
Print Assumptions C53_variables_undefined.
Example C53_variables_undefined_ex : nth_error [(0%nat, TBool)] 1 = None /\ read [(0%nat, TBool)] (1%nat, []) [0] = UB.
Proof. split; reflexivity. Qed.
Theorem C53_calls_undefined : forall k env p m, (forall t, place_ty env p <> Some (TOption t)) ->
  bstep k env (OReset p) m = UB /\ (forall v, bstep k env (OAssign p v) m = UB /\ bstep k env (OEmplace p v) m = UB /\ bstep k env (OTryEmplace p v) m = UB) /\
  (forall q, bstep k env (OSwap p q) m = UB) /\ bstep k env (OHas p) m = UB /\ bstep k env (OGet p) m = UB /\
  (forall q, rstep k env (RAssign p q) m = UB /\ rstep k env (REmplace p q) m = UB /\ rstep k env (RTryEmplace p q) m = UB).
Proof. exact no_option. Qed.
Print Assumptions C53_calls_undefined.
Example C53_calls_undefined_ex : forall t, place_ty [(0%nat, TBool)] (0%nat, []) <> Some (TOption t).
Proof. discriminate. Qed.
Theorem C53_steps_undefined : forall u b,
  ((forall t, u <> TOption t) -> forall p f, read_path (Deref :: p) u b = UB /\ update_path (Deref :: p) u f b = UB /\ addr_path (Deref :: p) u b = UB) /\
  (forall i, field u i = None -> forall p f, read_path (Field i :: p) u b = UB /\ update_path (Field i :: p) u f b = UB /\ addr_path (Field i :: p) u b = UB).
Proof. exact no_step. Qed.
Print Assumptions C53_steps_undefined.
Example C53_steps_undefined_ex : field TBool 0 = None /\ (forall t, TBool <> TOption t).
Proof. split; [reflexivity|discriminate]. Qed.

(** Layers that do not exist. *)
Theorem C89_layers_undefined : forall n t b, (forall u, t <> TOption u) -> Layers.read_at (S n) t b = UB.
Proof. exact layer_undef. Qed.
Print Assumptions C89_layers_undefined.
Example C89_layers_undefined_ex : Layers.read_at 1 TBool [0] = UB.
Proof. reflexivity. Qed.
