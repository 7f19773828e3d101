(** Proofs about programs that use an option as a range. *)
From Coq Require Import NArith ZArith Bool List Lia ZifyBool.
From Verif Require Import Outcome Lifetime LifetimeSpec Observe Iter IterFacts IterProg IterProgSpec.
Import ListNotations.
Open Scope Z_scope.

Lemma bind_eq : forall A B (r : res A) (f g : A -> res B), (forall a, r = Ok a -> f a = g a) ->
  rbind r f = rbind r g.
Proof. intros A B [a| |] f g H; cbn; auto. Qed.

(** Iterators of an engaged option and positions. *)
Definition at_pos (o : N) (x : Z) : iptr := IAt o x.
Definition valid (l : list Z) : Prop := Forall (fun x => 0 <= x <= 1) l.

Lemma reg_made : forall R o l i (f : iptr -> res R) (g : Z -> res R),
  (forall x, nth_error l i = Some x -> f (IAt o x) = g x) ->
  rbind (reg (map (IAt o) l) i) f = made l i g.
Proof.
  intros R o l i f g H. unfold reg, made. rewrite nth_error_map.
  destruct (nth_error l i) as [x|]; cbn; auto.
Qed.
Lemma valid_nth : forall l i x, valid l -> nth_error l i = Some x -> 0 <= x <= 1.
Proof. intros l i x Hv H. apply nth_error_In in H. exact (proj1 (Forall_forall _ _) Hv x H). Qed.
Lemma valid_app : forall l m, valid l -> valid m -> valid (l ++ m).
Proof. intros. apply Forall_app. split; assumption. Qed.

Ltac pieces := unfold do_move, do_compare, it_add, add_it, it_sub, it_inc, it_dec, it_inc_post, it_dec_post, it_star,
  it_index, it_lt, it_gt, it_le, it_ge, it_diff, it_eq, it_ne, it_arrow, checked, is_null, verify, p_add, p_diff, p_cmp, p_eqb; cbn.

Lemma move_engaged : forall R o m x (f : list iptr -> res R),
  rbind (do_move m (IAt o x)) f =
  position 1 (target m x) (fun y => f (map (IAt o) (if old_too m then [x; y] else [y]))).
Proof.
  intros R o m x f. unfold position. destruct m; pieces; unfold Z.sub; try change (- (1)) with (-1);
    match goal with |- context [if ?b then _ else _] => destruct b end; reflexivity.
Qed.

Lemma compare_engaged : forall o c x y, do_compare c (IAt o x) (IAt o y) = Ok (answer c x y).
Proof.
  intros o c x y. destruct c; pieces; rewrite ?N.eqb_refl; try reflexivity;
    f_equal; unfold Z.gtb, Z.geb, Z.ltb, Z.leb; rewrite ?(Z.compare_antisym y x); try reflexivity;
    destruct (y ?= x); reflexivity.
Qed.

Lemma star_engaged : forall R o x (f : N -> res R),
  0 <= x <= 1 -> rbind (p_deref (IAt o x)) f = element 1 (fun _ => o) x f.
Proof.
  intros R o x f H. unfold p_deref, element.
  assert (E : x = 0 \/ x = 1) by lia. destruct E; subst; reflexivity.
Qed.
Lemma index_engaged : forall R o x n (f : N -> res R),
  0 <= x <= 1 -> rbind (it_index (IAt o x) n) f = element 1 (fun _ => o) (x + n) f.
Proof.
  intros R o x n f H. pieces. unfold element.
  destruct ((0 <=? x + n) && (x + n <=? 1)) eqn:E.
  - cbn. apply (star_engaged R o (x + n) f). lia.
  - destruct ((0 <=? x + n) && (x + n <? 1)) eqn:E2; [ lia | reflexivity ].
Qed.

Theorem engaged_run : forall R o (p : prog R) its ps, valid its -> valid ps ->
  run p (map (IAt o) its) (map (IAt o) ps) = promised 1 (fun _ => o) p its ps.
Proof.
  induction p as [r|m i k IH|i j k IH|c i j k IH|i k IH|i n k IH|i k IH|i k IH|i j k IH]; intros its ps Hi Hp;
    cbn [run promised].
  - reflexivity.
  - apply reg_made. intros x Hx. rewrite move_engaged. unfold position.
    destruct ((0 <=? target m x) && (target m x <=? 1)) eqn:E; [|reflexivity].
    rewrite <- map_app. apply IH; [|assumption].
    apply valid_app; [assumption|].
    pose proof (valid_nth _ _ _ Hi Hx).
    destruct (old_too m); repeat constructor; lia.
  - apply reg_made. intros x Hx. apply reg_made. intros y Hy.
    unfold it_diff, p_diff. rewrite N.eqb_refl. cbn. apply IH; assumption.
  - apply reg_made. intros x Hx. apply reg_made. intros y Hy.
    rewrite compare_engaged. cbn. apply IH; assumption.
  - apply reg_made. intros x Hx. unfold it_star, checked, is_null, verify. cbn [negb].
    rewrite star_engaged by exact (valid_nth _ _ _ Hi Hx). unfold element.
    destruct ((0 <=? x) && (x <? 1)); [|reflexivity]. apply IH; assumption.
  - apply reg_made. intros x Hx. rewrite index_engaged by exact (valid_nth _ _ _ Hi Hx). unfold element.
    destruct ((0 <=? x + n) && (x + n <? 1)); [|reflexivity]. apply IH; assumption.
  - apply reg_made. intros x Hx. cbn.
    change [IAt o x] with (map (IAt o) [x]). rewrite <- map_app. apply IH; [assumption|].
    apply valid_app; [assumption|]. repeat constructor; apply (valid_nth _ _ _ Hi Hx).
  - apply reg_made. intros x Hx.
    rewrite star_engaged by exact (valid_nth _ _ _ Hp Hx). unfold element.
    destruct ((0 <=? x) && (x <? 1)); [|reflexivity]. apply IH; assumption.
  - apply reg_made. intros x Hx. apply reg_made. intros y Hy.
    unfold p_diff. rewrite N.eqb_refl. cbn. apply IH; assumption.
Qed.

(** Iterators of an empty option. *)
Definition nulls (l : list Z) : list iptr := map (fun _ => INull) l.
Definition zeros (l : list Z) : Prop := Forall (fun x => x = 0) l.
Lemma zeros_nth : forall l i x, zeros l -> nth_error l i = Some x -> x = 0.
Proof. intros l i x Hv H. apply nth_error_In in H. exact (proj1 (Forall_forall _ _) Hv x H). Qed.

Lemma reg_null : forall R l i (f : iptr -> res R) (g : Z -> res R), zeros l ->
  (nth_error l i = Some 0 -> f INull = g 0) -> rbind (reg (nulls l) i) f = made l i g.
Proof.
  intros R l i f g Hz H. unfold reg, made, nulls. rewrite nth_error_map.
  destruct (nth_error l i) as [x|] eqn:E; cbn; [|reflexivity].
  assert (x = 0) by (eapply zeros_nth; eauto). subst. auto.
Qed.

Theorem empty_looks : forall R object (p : prog R) its, zeros its -> only_looks p ->
  run p (nulls its) [] = promised 0 object p its [].
Proof.
  induction p as [r|m i k IH|i j k IH|c i j k IH|i k IH|i n k IH|i k IH|i k IH|i j k IH]; intros its Hi Hl;
    cbn [only_looks] in Hl; try contradiction; cbn [run promised].
  - reflexivity.
  - apply reg_null; [assumption|]. intros _. apply reg_null; [assumption|]. intros _. apply IH; assumption.
  - apply reg_null; [assumption|]. intros _. apply reg_null; [assumption|]. intros _.
    destruct c; try contradiction; apply IH; assumption.
Qed.

(** Anything else fails a check. *)
Theorem empty_fails : forall R object (p : prog R) its r, zeros its -> promised 0 object p its [] = Ok r ->
  ~ only_looks p -> run p (nulls its) [] = Verify.
Proof.
  induction p as [r|m i k IH|i j k IH|c i j k IH|i k IH|i n k IH|i k IH|i k IH|i j k IH]; intros its r' Hi Hr Hl;
    cbn [only_looks] in Hl; cbn [run promised] in *.
  - tauto.
  - clear IH. unfold made, reg, nulls in *. rewrite nth_error_map.
    destruct (nth_error its i); [|discriminate]. destruct m; reflexivity.
  - unfold made, reg, nulls in *. rewrite !nth_error_map.
    destruct (nth_error its i) as [x|] eqn:E1; [|discriminate].
    destruct (nth_error its j) as [y|] eqn:E2; [|discriminate].
    apply (zeros_nth its) in E1; [|assumption]. apply (zeros_nth its) in E2; [|assumption]. subst.
    cbn. eapply IH; eauto.
  - unfold made, reg, nulls in *. rewrite !nth_error_map.
    destruct (nth_error its i) as [x|] eqn:E1; [|discriminate].
    destruct (nth_error its j) as [y|] eqn:E2; [|discriminate].
    apply (zeros_nth its) in E1; [|assumption]. apply (zeros_nth its) in E2; [|assumption]. subst.
    destruct c; cbn; try reflexivity; eapply IH; eauto.
  - unfold made, reg, nulls in *. rewrite nth_error_map.
    destruct (nth_error its i); [|discriminate]. reflexivity.
  - unfold made, reg, nulls in *. rewrite nth_error_map.
    destruct (nth_error its i); [|discriminate]. reflexivity.
  - unfold made, reg, nulls in *. rewrite nth_error_map.
    destruct (nth_error its i); [|discriminate]. reflexivity.
  - unfold made in Hr. destruct i; discriminate.
  - unfold made in Hr. destruct i; discriminate.
Qed.

Section Options.
Context {W : Type} (C : cls W) (S : sem C).

Lemma begin_end : lawful C S -> forall o c, inv C S c ->
  begin_ o c = Ret (if c_alive c then IAt o 0 else INull) /\ end_ o c = Ret (if c_alive c then IAt o 1 else INull).
Proof.
  intros L o c I.
  destruct (range_ok W C S L o c I) as [H1 H2]. destruct (c_alive c); auto.
Qed.

Theorem range_engaged : lawful C S -> forall o c, inv C S c -> c_alive c = true ->
  exists b e, begin_ o c = Ret b /\ end_ o c = Ret e /\
    forall R (p : prog R), run p [b; e] [] = promised 1 (fun _ => o) p [0; 1] [].
Proof.
  intros L o c I A. destruct (begin_end L o c I) as [Hb He]. rewrite A in *.
  exists (IAt o 0), (IAt o 1). split; [assumption|]. split; [assumption|]. intros R p.
  apply (engaged_run R o p [0; 1] []); repeat constructor; lia.
Qed.

Theorem range_empty : lawful C S -> forall o c, inv C S c -> c_alive c = false ->
  exists b e, begin_ o c = Ret b /\ end_ o c = Ret e /\
    forall R (p : prog R) object,
      (only_looks p -> run p [b; e] [] = promised 0 object p [0; 0] []) /\
      (~ only_looks p -> forall r, promised 0 object p [0; 0] [] = Ok r -> run p [b; e] [] = Verify).
Proof.
  intros L o c I A. destruct (begin_end L o c I) as [Hb He]. rewrite A in *.
  exists INull, INull. split; [assumption|]. split; [assumption|]. intros R p object.
  assert (Z : zeros [0; 0]) by (repeat constructor). split.
  - intros H. exact (empty_looks R object p [0; 0] Z H).
  - intros H r Hr. exact (empty_fails R object p [0; 0] r Z Hr H).
Qed.

(** docs/reference.md 1086: end() is begin() + has_value(). *)
Theorem end_documented : lawful C S -> forall o c, inv C S c ->
  exists b e, begin_ o c = Ret b /\ end_ o c = Ret e /\
    (it_add b (if c_alive c then 1 else 0) = Ok e <-> c_alive c = true).
Proof.
  intros L o c I. destruct (begin_end L o c I) as [Hb He]. do 2 eexists. split; [eassumption|].
  split; [eassumption|]. destruct (c_alive c); cbn; split; try reflexivity; discriminate.
Qed.
End Options.

(** The programs of the standard library on an empty range. *)
Lemma empty_programs : forall object,
  (promised 0 object span [0; 0] [] = Ok 0 /\ run span [INull; INull] [] = Verify) /\
  (promised 0 object next [0; 0] [] = Ok true /\ run next [INull; INull] [] = Verify) /\
  (promised 0 object nonempty [0; 0] [] = Ok false /\ run nonempty [INull; INull] [] = Verify).
Proof. intros; repeat split. Qed.
