(** Properties of comparisons between options of any depth, none and values (C71), each with a concrete case. *)
From Coq Require Import Bool List Arith Lia.
From Verif Require Import ObserveSpec Constraints ConstraintsSpec Convert ConvertFacts Compare CompareSpec CompareFacts.
Import ListNotations.

(** C71: of the templates that accept the operands the one made for them is chosen; the comparison is never
    ambiguous, and it compiles exactly if the innermost types compare.  In C++17 and in C++20, whichever operators
    take part with exchanged operands. *)
Theorem C71_chosen : forall own cxx20 exchanged, own_law own cxx20 ->
  forall rel l r, proper l = true -> proper r = true -> operands l r = true ->
  chosen own cxx20 exchanged rel l r = (if comparable (own rel) l r then best_template rel l r else Invalid).
Proof. exact chosen_ok. Qed.
Print Assumptions C71_chosen.

(** The choice is unambiguous: an operator is chosen only if it is better than every other candidate. *)
Theorem C71_unambiguous : forall rel cs,
  (forall c, best_of rel cs = Chosen c -> In c cs /\ forall d, In d cs -> d <> c -> better rel c d = true /\ better rel d c = false) /\
  (best_of rel cs = Invalid -> forall c, In c cs -> exists d, In d cs /\ d <> c /\ better rel c d = false).
Proof. exact best_of_ok. Qed.
Print Assumptions C71_unambiguous.
(** Were there no template for two options, option == option would be ambiguous. *)
Example C71_ambiguous : best_of REq [mkcand OV REq false; mkcand VO REq false] = Invalid /\
  best_of REq [mkcand OV REq false; mkcand OO REq false; mkcand VO REq false] = Chosen (mkcand OO REq false).
Proof. split; reflexivity. Qed.


(** C71: the result: an option that is empty further out is smaller, one that is full is larger, full ones
    compare like what they hold, whatever the depths are. *)
Theorem C71_order : forall own cxx20 exchanged, own_law own cxx20 ->
  forall X (base : rel6 -> X -> X -> bool) rel l r v w,
  proper l = true -> proper r = true -> operands l r = true -> comparable (own rel) l r = true ->
  fits l v -> fits r w ->
  compare_values own cxx20 exchanged base rel l r v w = order base rel v w.
Proof. exact compare_ok. Qed.
Print Assumptions C71_order.

(** C71: this is one order across all depths: the six operators fit together, exchanging the operands mirrors the
    operator, and all but != are transitive if T's operator is. *)
Theorem C71_consistent : forall X (base : rel6 -> X -> X -> bool), consistent base -> forall v w : value X,
  exists c, forall rel, order base rel v w = Some (of_comparison rel c).
Proof. exact order_total. Qed.
Print Assumptions C71_consistent.

Theorem C71_mirror : forall X (base : rel6 -> X -> X -> bool), mirrored base base -> forall rel (v w : value X),
  order base (mirror rel) w v = order base rel v w.
Proof. exact order_mirror. Qed.
Print Assumptions C71_mirror.

Theorem C71_transitive : forall X (base : rel6 -> X -> X -> bool) rel,
  (forall x y z, base rel x y = true -> base rel y z = true -> base rel x z = true) -> rel <> RNe ->
  forall u v w : value X, order base rel u v = Some true -> order base rel v w = Some true ->
  order base rel u w = Some true.
Proof. exact order_trans. Qed.
Print Assumptions C71_transitive.

(** The type option<...<b>...> of depth k. *)
Fixpoint deep (k : nat) (b : nat) : cty := match k with O => Plain b | S k => Opt (deep k b) end.

(** C71: an option converted to a deeper one (C50) equals its source exactly if no layer was added or the source is
    full; otherwise it is greater. *)
Theorem C71_converted : forall X (base : rel6 -> X -> X -> bool), (forall x, base REq x x = true) ->
  forall L, closed L -> forall x p, leaves_by L x x p ->
  forall (make : value X -> X), (forall z, make (Leaf z) = z) ->
  forall k m c v v', has_depth m v -> m <= k ->
  build L (plain x) (plain x) c make k m v = Some v' ->
  (order base REq v' v = Some true <-> k = m \/ stop v = None) /\
  (m < k -> stop v <> None -> order base RGt v' v = Some true).
Proof. exact order_converted. Qed.
Print Assumptions C71_converted.

(** Numbers compare with numbers. *)
Definition num_own (_ : rel6) (l r : cty) : bool := match l, r with Plain _, Plain _ => true | _, _ => false end.
Definition num_base (rel : rel6) (x y : nat) : bool := of_comparison rel (Nat.compare x y).

Example C71_ex_law : own_law num_own true /\ consistent num_base /\ mirrored num_base num_base /\
  (forall x, num_base REq x x = true).
Proof.
  split; [intros _; split; intros [b| |t] [b'| |t']; cbn; auto|].
  split; [intros x y; now exists (Nat.compare x y)|].
  split; [|intros x; unfold num_base; now rewrite Nat.compare_refl].
  intros rel x y. unfold num_base. rewrite (Nat.compare_antisym x y). destruct (x ?= y), rel; reflexivity.
Qed.

(** option<option<int>> with option<int>: empty inside is more than empty; int with option<option<int>>; none. *)
Example C71_ex :
  let ev := compare_values num_own true (fun _ => true) num_base in
  chosen num_own true (fun _ => true) RNe (deep 2 0) (deep 1 1) = Chosen (mkcand OO RNe false) /\
  chosen num_own true (fun _ => true) REq (deep 2 0) NoneT = Chosen (mkcand ON REq false) /\
  chosen num_own true (fun _ => true) REq (deep 2 0) (Plain 3) = Chosen (mkcand OV REq false) /\
  ev REq (deep 2 0) (deep 1 1) (Yes No) No = Some false /\
  ev RGt (deep 2 0) (deep 1 1) (Yes No) No = Some true /\
  ev RNe (deep 1 1) (deep 3 0) (Yes (Leaf 4)) (Yes (Yes (Yes (Leaf 4)))) = Some false /\
  ev RLt (deep 3 0) (Plain 1) (Yes (Yes No)) (Leaf 0) = Some true /\
  ev RLe NoneT (deep 2 0) No (Yes No) = Some true.
Proof. vm_compute. repeat split. Qed.

(** C71: so after option<option<int>> a = b; the comparison a == b is false if b is empty. *)
Theorem C71_converted_refuted : exists L x (v v' : value nat),
  closed L /\ leaves L x x /\ has_depth 1 v /\
  build L (plain x) (plain x) Lvalue (fun u => match u with Leaf z => z | _ => 0 end) 2 1 v = Some v' /\
  compare_values num_own true (fun _ => true) num_base REq (deep 2 0) (deep 1 0) v' v = Some false.
Proof.
  exists (completed arithmetic), (Named 0), No, (Yes No).
  split; [apply completed_closed|]. split; [apply arithmetic_leaves|]. split; [exact I|]. split; vm_compute; reflexivity.
Qed.
Print Assumptions C71_converted_refuted.

(** Without what C++20 does for the operators of T themselves, a comparison with exchanged operands can be
    chosen: if only b == a exists, option<A> == option<B> calls it. *)
Example C71_ex_exchanged :
  chosen (fun rel l r => match rel, l, r with REq, Plain 1, Plain 0 => true | _, _, _ => false end) true
    (fun s => match s with OO => true | _ => false end) REq (deep 1 0) (deep 1 1) = Chosen (mkcand OO REq true).
Proof. reflexivity. Qed.
