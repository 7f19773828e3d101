(** Facts about the hash of options: when there is one, what it is, and that it respects equality. *)
From Coq Require Import NArith Bool List Lia.
From Verif Require Import ObserveSpec Convert Compare CompareSpec CompareFacts Hash HashSpec.
Import ListNotations.
Open Scope N_scope.

Lemma helper2_usable : forall a, helper2 a = true <-> usable a.
Proof.
  intros [[] [] [] [] [] q]; unfold helper2, usable; cbn; (split; [intros H|intros (A & B & C & D & E)]); auto 6; discriminate.
Qed.

Section Facts.
Variable given : hty -> answers.
Variable pq : bool.
Notation class := (hash_class given pq).

Lemma class_layer : forall u, is_reference u = false ->
  class (TOption u) = if helper2 (class (remove_const u)) then provided (quiet (class (remove_const u))) else disabled.
Proof. intros [b|u|u|u|u] H; cbn in *; try discriminate; reflexivity. Qed.

Lemma class_reference : forall u, is_reference u = true -> class (TOption u) = provided pq.
Proof. intros [b|u|u|u|u] H; cbn in *; try discriminate; reflexivity. Qed.

(** A const that is not repeated hides a base type or an option. *)
Lemma const_inside : forall u, well_formed (TConst u) = true -> is_reference u = false /\ remove_const u = u /\ well_formed u = true.
Proof. intros [b|u|u|u|u] H; cbn in *; try discriminate; auto. Qed.

Definition answer_of (t : hty) : answers :=
  match t with
  | TOption u =>
      if is_reference (strip u) then provided pq
      else if helper2 (given (strip u)) then provided (quiet (given (strip u))) else disabled
  | t => given t
  end.

Lemma provided_usable : forall q, helper2 (provided q) = true.
Proof. reflexivity. Qed.

Lemma option_answer : forall u, well_formed u = true -> class (TOption u) = answer_of (TOption u).
Proof.
  induction u as [b|u IH|u IH|u IH|u IH]; intros W; try reflexivity.
  - destruct (const_inside u W) as (Nr & Rc & Wu). specialize (IH Wu).
    transitivity (class (TOption u)).
    + rewrite !class_layer by (exact Nr || reflexivity). cbn [remove_const]. now rewrite Rc.
    + exact IH.
  - rewrite class_layer by reflexivity. cbn [remove_const]. rewrite (IH W). cbn [answer_of strip].
    destruct (is_reference (strip u)); [reflexivity|]. destruct (helper2 (given (strip u))); reflexivity.
Qed.

Lemma class_answer : forall t, well_formed t = true -> class t = answer_of t.
Proof. intros [b|u|u|u|u] W; try reflexivity. now apply option_answer. Qed.

Theorem class_usable : forall t, well_formed t = true ->
  (usable (class t) <->
   (exists u, t = TOption u /\ is_reference (strip u) = true) \/ usable (given (innermost t))).
Proof.
  intros t W. rewrite class_answer by exact W. rewrite <- !helper2_usable.
  destruct t as [b|u|u|u|u]; cbn [answer_of innermost];
    try (split; [auto|intros [(w & E & R)|A]; [discriminate E|exact A]]).
  destruct (is_reference (strip u)) eqn:R.
  - split; [intros _; left; now exists u|reflexivity].
  - destruct (helper2 (given (strip u))) eqn:E; split; auto.
    intros [(w & Ew & Rw)|C]; [|discriminate C]. injection Ew as <-. congruence.
Qed.

Theorem class_quiet : forall u, well_formed u = true -> usable (class (TOption u)) ->
  quiet (class (TOption u)) = if is_reference (strip u) then pq else quiet (given (strip u)).
Proof.
  intros u W. rewrite option_answer by exact W. rewrite <- helper2_usable. cbn [answer_of].
  destruct (is_reference (strip u)); [reflexivity|]. destruct (helper2 (given (strip u))); [reflexivity|discriminate].
Qed.

Lemma class_honest : honest given -> forall t, well_formed t = true -> default_constructible (class t) = true -> usable (class t).
Proof.
  intros H t W. rewrite class_answer by exact W. destruct t as [b|u|u|u|u]; cbn [answer_of]; try apply H.
  destruct (is_reference (strip u)); [intros _; now apply helper2_usable|].
  destruct (helper2 (given (strip u))); [intros _; now apply helper2_usable|discriminate].
Qed.

(** The documented condition. *)
Theorem class_documented : honest given -> forall u, well_formed u = true ->
  (usable (class (TOption u)) <-> is_reference u = true \/ default_constructible (class (remove_const u)) = true).
Proof.
  intros H u W. destruct (is_reference u) eqn:R.
  - rewrite class_reference by exact R. split; [auto|intros _; now apply helper2_usable].
  - rewrite class_layer by exact R.
    assert (Wr : well_formed (remove_const u) = true).
    { destruct u; cbn in *; try exact W. now destruct u. }
    destruct (helper2 (class (remove_const u))) eqn:E.
    + apply helper2_usable in E. split; [right; apply E|intros _; now apply helper2_usable].
    + split; [intros U; apply helper2_usable in U; discriminate|].
      intros [D|D]; [discriminate|]. apply (class_honest H _ Wr) in D. apply helper2_usable in D. congruence.
Qed.
End Facts.

Section Values.
Variable X : Type.
Variable object_hash : hty -> X -> N.
Variable pointer_hash : N -> N.
Notation hash := (hash_of object_hash pointer_hash).

Lemma hash_layer : forall u v, is_reference u = false ->
  hash (TOption u) (Yes v) = hash (remove_const u) v /\ hash (TOption u) No = Some 0.
Proof. intros [b|u|u|u|u] v H; cbn in *; try discriminate; auto. Qed.

(** The hash of what is inside all layers; 0 if a layer is empty. *)
Lemma hash_option : forall b u v, well_formed u = true -> strip u = TBase b -> fits (Opt (compared u)) v ->
  hash (TOption u) v = Some match leaf v with Some p => object_hash (TBase b) (content p) | None => 0 end.
Proof.
  intros b. induction u as [b'|u IH|u IH|u IH|u IH]; intros v W S F; try discriminate S.
  - injection S as ->. destruct v as [p| |[p| |v]]; cbn in *; try contradiction; reflexivity.
  - destruct (const_inside u W) as (Nr & Rc & Wu).
    rewrite <- (IH v Wu S F). destruct v as [p| |v]; [contradiction| |].
    + now rewrite (proj2 (hash_layer u No Nr)).
    + rewrite (proj1 (hash_layer u v Nr)), Rc. reflexivity.
  - destruct v as [p| |v]; [contradiction|reflexivity|].
    change (hash (TOption (TOption u)) (Yes v)) with (hash (TOption u) v). cbn [leaf]. apply IH; assumption.
Qed.

Theorem hash_value : forall t v b, well_formed t = true -> innermost t = TBase b -> fits (compared t) v ->
  hash t v = Some match leaf v with Some p => object_hash (TBase b) (content p) | None => 0 end.
Proof.
  intros [b'|u|u|u|u] v b W I F; try discriminate I.
  - injection I as ->. destruct v as [p| |v]; cbn in *; try contradiction. reflexivity.
  - apply hash_option; assumption.
Qed.

(** References: the hash of the address; an empty innermost option is a null pointer. *)
Theorem hash_reference : forall u v, well_formed u = true -> is_reference (strip u) = true ->
  (exists i, v = Nat.iter i Yes No /\ (i < depth (TOption u))%nat) \/ (exists p, v = Nat.iter (depth (TOption u)) Yes (Leaf p)) ->
  hash (TOption u) v =
    Some match leaf v, stop v with
         | Some p, _ => pointer_hash (address p)
         | None, Some i => if Nat.eqb (S i) (depth (TOption u)) then pointer_hash 0 else 0
         | None, None => 0
         end.
Proof.
  induction u as [b'|u IH|u IH|u IH|u IH]; intros v W S F; try discriminate S.
  - destruct (const_inside u W) as (Nr & Rc & Wu). cbn [depth] in *.
    rewrite <- (IH v Wu S F). destruct v as [p| |v].
    + destruct F as [(i & E & L)|(p' & E)]; [destruct i|]; discriminate.
    + now rewrite (proj2 (hash_layer u No Nr)).
    + rewrite (proj1 (hash_layer u v Nr)), Rc. reflexivity.
  - destruct F as [(i & E & L)|(p & E)]; subst v; cbn [depth] in *; [|reflexivity].
    destruct i; [reflexivity|lia].
  - destruct F as [(i & E & L)|(p & E)]; subst v; cbn [depth] in *; [|reflexivity].
    destruct i; [reflexivity|lia].
  - destruct v as [p| |v].
    + destruct F as [(i & E & L)|(p' & E)]; [destruct i|]; discriminate.
    + reflexivity.
    + change (hash (TOption (TOption u)) (Yes v)) with (hash (TOption u) v).
      rewrite (IH v W S).
      * cbn [leaf stop depth]. destruct (leaf v); [reflexivity|]. destruct (stop v); [|reflexivity]. reflexivity.
      * destruct F as [(i & E & L)|(p' & E)].
        -- left. destruct i as [|i]; [discriminate|]. injection E as ->. exists i. split; [reflexivity|]. cbn [depth] in *. lia.
        -- right. cbn [depth Nat.iter nat_rect] in E. injection E as ->. exists p'. reflexivity.
Qed.

(** Equal options hash equally, whatever their depths. *)
Lemma order_equal_leaf : forall (base : rel6 -> place X -> place X -> bool) v w, order base REq v w = Some true ->
  match leaf v, leaf w with
  | Some x, Some y => base REq x y = true
  | None, None => True
  | _, _ => False
  end.
Proof.
  assert (LS : forall v : value (place X), match stop v with Some _ => leaf v = None | None => leaf v <> None end).
  { induction v as [p| |v IH]; cbn; try easy. destruct (stop v); exact IH. }
  intros base v w. unfold order. pose proof (LS v) as Lv. pose proof (LS w) as Lw.
  destruct (stop v), (stop w); cbn; intros E.
  - now rewrite Lv, Lw.
  - discriminate.
  - discriminate.
  - destruct (leaf v), (leaf w); try contradiction. now injection E.
Qed.

Theorem hash_equal : forall (base : rel6 -> place X -> place X -> bool) t u b c v w,
  well_formed t = true -> well_formed u = true -> innermost t = TBase b -> innermost u = TBase c ->
  fits (compared t) v -> fits (compared u) w ->
  (forall x y, base REq x y = true -> object_hash (TBase b) (content x) = object_hash (TBase c) (content y)) ->
  order base REq v w = Some true -> hash t v = hash u w.
Proof.
  intros base t u b c v w Wt Wu It Iu Fv Fw H E.
  rewrite (hash_value t v b Wt It Fv), (hash_value u w c Wu Iu Fw). apply order_equal_leaf in E.
  destruct (leaf v), (leaf w); try contradiction; [|reflexivity]. f_equal. now apply H.
Qed.
End Values.

Lemma compared_core : forall t, core (compared t) <> NoneT.
Proof. induction t; cbn; try discriminate; assumption. Qed.

Lemma compared_not_none : forall t, compared t <> NoneT.
Proof. induction t; cbn; try discriminate; assumption. Qed.

Lemma compared_proper : forall t, proper (compared t) = true.
Proof.
  induction t as [b|t IH|t IH|t IH|t IH]; cbn [compared]; try exact IH; [reflexivity|].
  pose proof (compared_not_none t). cbn. now destruct (compared t).
Qed.

Lemma compared_operands : forall t u, operands (compared t) (compared u) = true.
Proof.
  intros t u. pose proof (compared_not_none t). pose proof (compared_not_none u).
  now destruct (compared t), (compared u).
Qed.

Lemma compared_comparable : forall own t u,
  comparable own (compared t) (compared u) = own (core (compared t)) (core (compared u)).
Proof.
  intros own t u. pose proof (compared_not_none t). pose proof (compared_not_none u).
  now destruct (compared t), (compared u).
Qed.

Theorem hash_compared : forall own cxx20 exchanged, own_law own cxx20 ->
  forall X (object_hash : hty -> X -> N) pointer_hash (eq : rel6 -> X -> X -> bool) t u b c v w,
  well_formed t = true -> well_formed u = true -> innermost t = TBase b -> innermost u = TBase c ->
  fits (compared t) v -> fits (compared u) w -> own REq (core (compared t)) (core (compared u)) = true ->
  (forall x y, eq REq x y = true -> object_hash (TBase b) x = object_hash (TBase c) y) ->
  compare_values own cxx20 exchanged (fun rel x y => eq rel (content x) (content y)) REq (compared t) (compared u) v w
    = Some true ->
  hash_of object_hash pointer_hash t v = hash_of object_hash pointer_hash u w.
Proof.
  intros own cxx20 exchanged OL X h ph eq t u b c v w Wt Wu It Iu Fv Fw O A E.
  rewrite compare_ok in E; try assumption; try apply compared_proper; try apply compared_operands.
  - apply (hash_equal X h ph _ t u b c v w Wt Wu It Iu Fv Fw (fun x y => A (content x) (content y)) E).
  - now rewrite compared_comparable.
Qed.

Lemma class_disabled given pq u : well_formed u = true -> ~ usable (hash_class given pq (TOption u)) ->
  hash_class given pq (TOption u) = mkanswers false false false false false false.
Proof.
  intros W N. assert (P : forall q, usable (provided q)) by (intros q; repeat split).
  destruct u; cbn [hash_class] in *;
    repeat match goal with
    | |- context [if ?b then _ else _] => destruct b
    | |- context [match ?x with _ => _ end] => destruct x
    end; try reflexivity; exfalso; apply N; apply P.
Qed.
