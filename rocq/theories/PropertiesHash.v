(** Property theorems about std::hash of options of any depth: C75. *)
From Coq Require Import NArith Bool List Lia.
From Verif Require Import ObserveSpec Convert Compare CompareSpec CompareFacts Hash HashSpec HashFacts PropertiesCompare.
Import ListNotations.
Open Scope N_scope.

(** C75: the hash of an option can be used exactly if that of the innermost type can, or that is a reference. *)
Theorem C75_enabled : forall given pq t, well_formed t = true ->
  (usable (hash_class given pq t) <->
   (exists u, t = TOption u /\ is_reference (strip u) = true) \/ usable (given (innermost t))).
Proof. exact class_usable. Qed.
Print Assumptions C75_enabled.

(** A hash that is not enabled is disabled in the sense of the standard: it can be neither made, copied, moved,
    destroyed nor called. *)
Theorem C75_disabled : forall given pq u, well_formed u = true -> ~ usable (hash_class given pq (TOption u)) ->
  hash_class given pq (TOption u) = mkanswers false false false false false false.
Proof. exact class_disabled. Qed.
Print Assumptions C75_disabled.
Example C75_disabled_ex : ~ usable (hash_class (fun _ => mkanswers true false true true true true) true (TOption (TBase 0))).
Proof. intros (_ & A & _). discriminate A. Qed.


(** With hashes like those of the library this is the documented condition. *)
Theorem C75_documented : forall given pq, honest given -> forall u, well_formed u = true ->
  (usable (hash_class given pq (TOption u)) <->
   is_reference u = true \/ default_constructible (hash_class given pq (remove_const u)) = true).
Proof. exact class_documented. Qed.
Print Assumptions C75_documented.

(** In general it is not: a hash that can be made but not copied is not enough. *)
Theorem C75_documented_refuted : exists given pq u, well_formed u = true /\
  default_constructible (hash_class given pq (remove_const u)) = true /\
  ~ usable (hash_class given pq (TOption u)).
Proof.
  exists (fun _ => mkanswers true false true true true true), true, (TBase 0).
  split; [reflexivity|]. split; [reflexivity|]. intros (A & _). discriminate A.
Qed.
Print Assumptions C75_documented_refuted.

Theorem C75_noexcept : forall given pq u, well_formed u = true -> usable (hash_class given pq (TOption u)) ->
  quiet (hash_class given pq (TOption u)) = if is_reference (strip u) then pq else quiet (given (strip u)).
Proof. exact class_quiet. Qed.
Print Assumptions C75_noexcept.

(** C75: the hash is that of the value inside all layers, 0 if a layer is empty. *)
Theorem C75_value : forall X (object_hash : hty -> X -> N) pointer_hash t v b,
  well_formed t = true -> innermost t = TBase b -> fits (compared t) v ->
  hash_of object_hash pointer_hash t v =
    Some match leaf v with Some p => object_hash (TBase b) (content p) | None => 0 end.
Proof. exact hash_value. Qed.
Print Assumptions C75_value.

(** C75: options, and values, that compare equal hash equally: at all depths, in C++17 and C++20. *)
Theorem C75_equal : forall own cxx20 exchanged, own_law own cxx20 ->
  forall X (object_hash : hty -> X -> N) pointer_hash (eq : rel6 -> X -> X -> bool) t u b c v w,
  well_formed t = true -> well_formed u = true -> innermost t = TBase b -> innermost u = TBase c ->
  fits (compared t) v -> fits (compared u) w -> own REq (core (compared t)) (core (compared u)) = true ->
  (forall x y, eq REq x y = true -> object_hash (TBase b) x = object_hash (TBase c) y) ->
  compare_values own cxx20 exchanged (fun rel x y => eq rel (content x) (content y)) REq (compared t) (compared u) v w
    = Some true ->
  hash_of object_hash pointer_hash t v = hash_of object_hash pointer_hash u w.
Proof. exact hash_compared. Qed.
Print Assumptions C75_equal.

(** C75: with references the hash is that of the address; the option next to the reference is a null pointer if it
    is empty. *)
Theorem C75_reference : forall X (object_hash : hty -> X -> N) pointer_hash u v,
  well_formed u = true -> is_reference (strip u) = true ->
  (exists i, v = Nat.iter i Yes No /\ (i < depth (TOption u))%nat) \/
  (exists p, v = Nat.iter (depth (TOption u)) Yes (Leaf p)) ->
  hash_of object_hash pointer_hash (TOption u) v =
    Some match leaf v, stop v with
         | Some p, _ => pointer_hash (address p)
         | None, Some i => if Nat.eqb (S i) (depth (TOption u)) then pointer_hash 0 else 0
         | None, None => 0
         end.
Proof. exact hash_reference. Qed.
Print Assumptions C75_reference.

(** But options of references compare what they refer to, so equal ones need not hash equally: such options cannot
    be keys of std::unordered_map. *)
Theorem C75_reference_refuted : exists (object_hash : hty -> nat -> N) pointer_hash v w,
  let t := TOption (TLRef (TBase 0)) in
  well_formed t = true /\ fits (compared t) v /\ fits (compared t) w /\
  compare_values num_own true (fun _ => true) (fun rel x y => num_base rel (content x) (content y)) REq
    (compared t) (compared t) v w = Some true /\
  hash_of object_hash pointer_hash t v <> hash_of object_hash pointer_hash t w.
Proof.
  exists (fun _ x => N.of_nat x), (fun p => p), (Yes (Leaf (mkplace 100 5%nat))), (Yes (Leaf (mkplace 200 5%nat))).
  repeat split. discriminate.
Qed.
Print Assumptions C75_reference_refuted.

(** Empty options of different depth are equal; if the hash of a null pointer is not 0 they hash differently. *)
Theorem C75_reference_empty_refuted : exists (object_hash : hty -> nat -> N) pointer_hash,
  let t := TOption (TLRef (TBase 0)) in
  compare_values num_own true (fun _ => true) (fun rel x y => num_base rel (content x) (content y)) REq
    (compared t) (compared (TOption t)) No No = Some true /\
  hash_of object_hash pointer_hash t No <> hash_of object_hash pointer_hash (TOption t) No.
Proof. exists (fun _ x => N.of_nat x), (fun p => p + 7). split; [reflexivity|discriminate]. Qed.
Print Assumptions C75_reference_empty_refuted.

(** docs/reference.md 2126: the hash of an empty option is std::size_t(-96391). *)
Theorem C75_documented_value_refuted : exists t, well_formed t = true /\ innermost t = TBase 0 /\
  forall X (object_hash : hty -> X -> N) pointer_hash,
  hash_of object_hash pointer_hash t No <> Some (2 ^ 64 - 96391).
Proof. exists (TOption (TBase 0)). split; [reflexivity|]. split; [reflexivity|]. intros. discriminate. Qed.
Print Assumptions C75_documented_value_refuted.

(** int and float have a hash; class 2 has none (test/special.test.cpp 1574-1616). *)
Definition std_given (t : hty) : answers :=
  match t with
  | TBase 0 | TBase 1 => provided true
  | _ => disabled
  end.

Example C75_ex :
  let is_hashable t := helper2 (hash_class std_given true t) in
  honest std_given /\
  map is_hashable [TOption (TBase 0); TBase 0; TOption (TConst (TBase 1)); TBase 1; TOption (TBase 2); TBase 2;
                   TOption (TConst (TBase 2)); TOption (TLRef (TBase 0)); TOption (TLRef (TConst (TBase 0)));
                   TOption (TRRef (TBase 0)); TOption (TRRef (TConst (TBase 0)))]
    = [true; true; true; true; false; false; false; true; true; true; true] /\
  quiet (hash_class std_given true (TOption (TConst (TBase 1)))) = true /\
  well_formed (TOption (TConst (TOption (TBase 1)))) = true /\
  is_hashable (TOption (TConst (TOption (TBase 1)))) = true /\ is_hashable (TOption (TOption (TBase 2))) = false /\
  is_hashable (TConst (TOption (TBase 0))) = false.
Proof. split; [intros [[|[|b]]|t|t|t|t] H; try discriminate H; now apply helper2_usable|]. repeat split. Qed.

Example C75_ex_value :
  let h := hash_of (fun t x => match t with TBase _ => x + 7 | _ => 0 end) (fun p => p) in
  h (TOption (TConst (TOption (TBase 0)))) (Yes (Yes (Leaf (mkplace 64 5)))) = Some 12 /\
  h (TOption (TBase 0)) (Yes (Leaf (mkplace 72 5))) = Some 12 /\ h (TBase 0) (Leaf (mkplace 80 5)) = Some 12 /\
  h (TOption (TOption (TBase 0))) (Yes No) = Some 0 /\
  h (TOption (TOption (TLRef (TBase 0)))) (Yes (Yes (Leaf (mkplace 88 5)))) = Some 88.
Proof. repeat split. Qed.

(** The hypotheses of [C75_equal] hold of an option of a const option and a plain option. *)
Example C75_ex_equal :
  let t := TOption (TConst (TOption (TBase 0))) in let u := TOption (TBase 1) in
  let v := Yes (Yes (Leaf (mkplace 64 5%nat))) in let w := Yes (Leaf (mkplace 72 5%nat)) in
  own_law num_own true /\ well_formed t = true /\ innermost t = TBase 0 /\ innermost u = TBase 1 /\
  fits (compared t) v /\ fits (compared u) w /\ num_own REq (core (compared t)) (core (compared u)) = true /\
  compare_values num_own true (fun _ => true) (fun rel x y => num_base rel (content x) (content y)) REq
    (compared t) (compared u) v w = Some true.
Proof. split; [apply C71_ex_law|]. repeat split. Qed.
