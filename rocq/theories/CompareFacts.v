(** Comparisons of nested options. *)
From Coq Require Import Bool List Arith Lia.
From Verif Require Import ObserveSpec Constraints ConstraintsSpec Convert ConvertFacts Compare CompareSpec.
Import ListNotations.

Section Facts.
Context (own : rel6 -> cty -> cty -> bool) (cxx20 : bool) (exchanged : shape -> bool).
Hypothesis law : own_law own cxx20.

Definition expected (rel : rel6) (l r : cty) : answer :=
  match l, r with
  | Opt _, NoneT => Chosen (mkcand ON rel false)
  | NoneT, Opt _ => Chosen (mkcand NO rel false)
  | Opt _, Opt _ => if own rel (core l) (core r) then Chosen (mkcand OO rel false) else Invalid
  | Opt _, _ => if own rel (core l) r then Chosen (mkcand OV rel false) else Invalid
  | _, Opt _ => if own rel l (core r) then Chosen (mkcand VO rel false) else Invalid
  | _, _ => if own rel l r then Own else Invalid
  end.

Lemma core_proper : forall t, proper (Opt t) = true -> core t <> NoneT /\ proper t = true.
Proof.
  induction t as [b| |t IH]; cbn; intros H; [now split|discriminate|].
  destruct (IH H) as [H1 H2]. split; auto.
Qed.

Lemma valid_expected : forall rel l r, proper l = true -> proper r = true ->
  valid (expected rel l r) = comparable (own rel) l r.
Proof.
  intros rel [b| |t] [b'| |t'] Hl Hr; cbn; try reflexivity;
    match goal with |- valid (if ?x then _ else _) = _ => destruct x; reflexivity end.
Qed.

Lemma own_ne : cxx20 = true -> forall l r, own RNe l r = false -> own REq l r = false.
Proof. intros E l r H. destruct (law E) as [_ H2]. destruct (own REq l r) eqn:Q; auto. rewrite (H2 l r Q) in H. discriminate. Qed.

Lemma own_sym : cxx20 = true -> forall l r, own REq l r = own REq r l.
Proof. intros E. exact (proj1 (law E)). Qed.

Lemma comparable_sym : cxx20 = true -> forall l r, comparable (own REq) l r = comparable (own REq) r l.
Proof. intros E [b| |t] [b'| |t']; cbn; auto using own_sym. Qed.

Lemma filter_ext : forall A (f g : A -> bool) l, (forall x, In x l -> f x = g x) -> filter f l = filter g l.
Proof. intros A f g l. induction l as [|x l IH]; cbn; intros H; auto. rewrite (H x), IH by auto. reflexivity. Qed.

Lemma accepts_ext : forall f g s l r, (forall a b, layers a + layers b < layers l + layers r -> proper a = true -> proper b = true ->
    f a b = g a b) -> proper l = true -> proper r = true ->
  accepts f s l r = accepts g s l r.
Proof.
  intros f g s l r H Hl Hr.
  destruct s, l as [x| |a], r as [y| |b]; cbn; auto; apply H; cbn; try lia;
    try (apply core_proper in Hl; now destruct Hl); try (apply core_proper in Hr; now destruct Hr); auto.
Qed.

Lemma comparable_core : forall rel l r, l <> NoneT -> r <> NoneT -> comparable (own rel) l r = own rel (core l) (core r).
Proof. intros rel [x| |l] [y| |r] H1 H2; try congruence; reflexivity. Qed.

Lemma not_none : forall t, core t <> NoneT -> t <> NoneT.
Proof. intros t H E. subst. auto. Qed.

Ltac finish :=
  repeat match goal with
  | H : proper (Opt _) = true |- _ => apply core_proper in H as [? H]
  end;
  pose proof (fun E => own_ne E) as N; pose proof (fun E => own_sym E) as S;
  unfold candidates, best_of; cbn [expected shapes filter map app];
  match goal with rel : rel6 |- _ => destruct rel end;
  destruct cxx20 eqn:?; try specialize (N eq_refl); try specialize (S eq_refl);
  repeat match goal with |- context [exchanged ?s] => destruct (exchanged s) end;
  cbn [filter map app viable exch oper tmpl accepts core];
  rewrite ?comparable_core by (try (apply not_none; assumption); discriminate);
  cbn [core];
  repeat match goal with |- context [own ?r ?x ?y] => destruct (own r x y) eqn:? end;
  repeat match goal with |- context [comparable ?o ?x ?y] => destruct (comparable o x y) eqn:? end;
  try reflexivity; exfalso;
  match goal with
  | H : own RNe ?x ?y = false, H' : own REq ?x ?y = true |- _ => rewrite (N _ _ H) in H'; discriminate
  | H : own RNe ?x ?y = false, H' : own REq ?y ?x = true |- _ => rewrite S, (N _ _ H) in H'; discriminate
  | H : own REq ?x ?y = true, H' : own REq ?y ?x = false |- _ => rewrite S, H' in H; discriminate
  end.

Lemma resolve_expected : forall n rel l r, layers l + layers r <= n -> proper l = true -> proper r = true ->
  resolve own cxx20 exchanged n rel l r = expected rel l r.
Proof.
  induction n as [|n IH]; intros rel l r Hn Hl Hr.
  - destruct l, r; cbn in Hn; try lia; reflexivity.
  - assert (E : forall l r, proper l = true -> proper r = true -> layers l + layers r <= S n ->
      best_of rel (filter (viable (fun rel' a b => valid (resolve own cxx20 exchanged n rel' a b)) l r) (candidates cxx20 exchanged rel)) =
      best_of rel (filter (viable (fun rel' a b => comparable (own rel') a b) l r) (candidates cxx20 exchanged rel))).
    { intros l0 r0 H1 H2 H3. f_equal. apply filter_ext. intros c _. unfold viable.
      destruct (exch c); apply accepts_ext; auto; intros a b Hab Ha Hb; rewrite IH by (auto; lia); apply valid_expected; auto. }
    destruct l as [x| |a], r as [y| |b]; try reflexivity; unfold resolve; fold resolve; rewrite E by auto; clear E IH.
    + finish.
    + finish.
    + finish.
    + finish.
    + finish.
Qed.

Lemma order_yes : forall X base rel (v w : value X), order base rel (Yes v) (Yes w) = order base rel v w.
Proof. intros X base rel v w. unfold order. cbn. destruct (stop v), (stop w); reflexivity. Qed.

Lemma order_yes_leaf : forall X base rel (v : value X) x, order base rel (Yes v) (Leaf x) = order base rel v (Leaf x).
Proof. intros X base rel v x. unfold order. cbn. destruct (stop v); reflexivity. Qed.

Lemma order_leaf_yes : forall X base rel (v : value X) x, order base rel (Leaf x) (Yes v) = order base rel (Leaf x) v.
Proof. intros X base rel v x. unfold order. cbn. destruct (stop v); reflexivity. Qed.

Lemma eval_order : forall X (base : rel6 -> X -> X -> bool) n rel l r v w,
  layers l + layers r <= n -> proper l = true -> proper r = true -> comparable (own rel) l r = true ->
  operands l r = true -> fits l v -> fits r w ->
  eval own cxx20 exchanged base n rel l r v w = order base rel v w.
Proof.
  intros X base. induction n as [|n IH]; intros rel l r v w Hn Hl Hr Hc Ho Hv Hw.
  - destruct l as [x| |a], r as [y| |b]; cbn in Hn, Ho; try lia; try discriminate.
    unfold eval. rewrite resolve_expected by auto. cbn in Hc |- *. rewrite Hc.
    destruct v, w; try contradiction. reflexivity.
  - unfold eval; fold eval. rewrite resolve_expected by auto.
    destruct l as [x| |a], r as [y| |b]; cbn in Ho; try discriminate.
    + cbn in Hc |- *. rewrite Hc. destruct v, w; try contradiction. reflexivity.
    + cbn [comparable core] in Hc. cbn [expected core]. rewrite Hc.
      cbn [turn exch tmpl oper inside body]. unfold conclude. cbn [oper].
      replace (same_rel rel rel) with true by (destruct rel; reflexivity).
      destruct v; try contradiction. cbn in Hw. apply core_proper in Hr as [Hr1 Hr2].
      destruct w as [?| |w]; try contradiction.
      * destruct rel; reflexivity.
      * rewrite order_leaf_yes. apply IH; auto; try (cbn in Hn |- *; lia); destruct b; try reflexivity; try (now destruct Hr1); auto.
    + cbn [expected turn exch tmpl oper inside body]. unfold conclude. cbn [oper].
      replace (same_rel rel rel) with true by (destruct rel; reflexivity).
      destruct v; try contradiction. destruct w as [?| |w]; try contradiction; unfold order; cbn; [destruct rel; reflexivity|].
      destruct (stop w); destruct rel; reflexivity.
    + cbn [comparable core] in Hc. cbn [expected core]. rewrite Hc.
      cbn [turn exch tmpl oper inside body]. unfold conclude. cbn [oper].
      replace (same_rel rel rel) with true by (destruct rel; reflexivity).
      destruct w; try contradiction. cbn in Hv. apply core_proper in Hl as [Hl1 Hl2].
      destruct v as [?| |v]; try contradiction.
      * destruct rel; reflexivity.
      * rewrite order_yes_leaf. apply IH; auto; try (cbn in Hn |- *; lia); destruct a; try reflexivity; try (now destruct Hl1); auto.
    + cbn [expected turn exch tmpl oper inside body]. unfold conclude. cbn [oper].
      replace (same_rel rel rel) with true by (destruct rel; reflexivity).
      destruct w; try contradiction. destruct v as [?| |v]; try contradiction; unfold order; cbn; [destruct rel; reflexivity|].
      destruct (stop v); destruct rel; reflexivity.
    + cbn [comparable core] in Hc. cbn [expected core]. rewrite Hc.
      cbn [turn exch tmpl oper inside body]. unfold conclude. cbn [oper].
      replace (same_rel rel rel) with true by (destruct rel; reflexivity).
      cbn in Hv, Hw. apply core_proper in Hl as [Hl1 Hl2]. apply core_proper in Hr as [Hr1 Hr2].
      destruct v as [?| |v], w as [?| |w]; try contradiction.
      * unfold order. cbn. destruct rel; reflexivity.
      * unfold order. cbn. destruct (stop w); destruct rel; reflexivity.
      * unfold order. cbn. destruct (stop v); destruct rel; reflexivity.
      * rewrite order_yes. apply IH; auto; try (cbn in Hn; lia);
          destruct a, b; try reflexivity; try (now destruct Hl1); try (now destruct Hr1); auto.
Qed.

Theorem chosen_ok : forall rel l r, proper l = true -> proper r = true -> operands l r = true ->
  chosen own cxx20 exchanged rel l r = (if comparable (own rel) l r then best_template rel l r else Invalid).
Proof.
  intros rel l r Hl Hr Ho. unfold chosen. rewrite resolve_expected by auto.
  destruct l as [x| |a], r as [y| |b]; cbn in Ho; try discriminate; reflexivity.
Qed.

Theorem compare_ok : forall X (base : rel6 -> X -> X -> bool) rel l r v w,
  proper l = true -> proper r = true -> operands l r = true -> comparable (own rel) l r = true ->
  fits l v -> fits r w ->
  compare_values own cxx20 exchanged base rel l r v w = order base rel v w.
Proof. intros. unfold compare_values. apply eval_order; auto. Qed.

End Facts.

(** The order is one order. *)
Lemma order_some : forall X base rel (v w : value X), exists b, order base rel v w = Some b.
Proof.
  intros X base rel v w. unfold order. destruct (stop v) eqn:Ev, (stop w) eqn:Ew; try now eexists.
  assert (L : forall u : value X, stop u = None -> exists x, leaf u = Some x).
  { induction u as [x| |u IH]; cbn; [eauto|discriminate|]. destruct (stop u); [discriminate|]. auto. }
  destruct (L v Ev) as [x ->], (L w Ew) as [y ->]. now eexists.
Qed.

Lemma order_total : forall X (base : rel6 -> X -> X -> bool), consistent base -> forall v w : value X,
  exists c, forall rel, order base rel v w = Some (of_comparison rel c).
Proof.
  intros X base H v w. unfold order. pose proof (order_some X base REq v w) as [b Hb]. unfold order in Hb.
  destruct (stop v), (stop w); try now eexists.
  destruct (leaf v) as [x|], (leaf w) as [y|]; try discriminate. destruct (H x y) as [c Hc]. exists c. intros rel. now rewrite Hc.
Qed.

Lemma order_mirror : forall X (base : rel6 -> X -> X -> bool), mirrored base base -> forall rel (v w : value X),
  order base (mirror rel) w v = order base rel v w.
Proof.
  intros X base H rel v w. unfold order. destruct (stop v) as [i|], (stop w) as [j|].
  - rewrite (Nat.compare_antisym i j). destruct (i ?= j), rel; reflexivity.
  - destruct rel; reflexivity.
  - destruct rel; reflexivity.
  - destruct (leaf v), (leaf w); auto. now rewrite H.
Qed.

Lemma order_trans : forall X (base : rel6 -> X -> X -> bool) rel,
  (forall x y z, base rel x y = true -> base rel y z = true -> base rel x z = true) -> rel <> RNe ->
  forall u v w : value X, order base rel u v = Some true -> order base rel v w = Some true -> order base rel u w = Some true.
Proof.
  intros X base rel H Hr u v w. unfold order.
  destruct (stop u) as [i|], (stop v) as [j|], (stop w) as [k|];
    try (destruct (leaf u) as [x|]; [|discriminate]); try (destruct (leaf v) as [y|]; [|discriminate]);
    try (destruct (leaf w) as [z|]; [|discriminate]); intros E1 E2; injection E1 as E1; injection E2 as E2; f_equal; auto;
    try (destruct rel; cbn in *; congruence).
  - destruct (Nat.compare_spec i j), (Nat.compare_spec j k), (Nat.compare_spec i k);
      destruct rel; cbn in *; try congruence; try lia.
  - eapply H; eauto.
Qed.

(** What a converted option is compared with its source. *)
Lemma stop_wrap : forall X j (v : value X), stop (Nat.iter j Yes v) = option_map (fun i => j + i) (stop v).
Proof.
  intros X j v. induction j as [|j IH]; [cbn; now destruct (stop v)|].
  change (Nat.iter (S j) Yes v) with (Yes (Nat.iter j Yes v)). cbn [stop]. rewrite IH. now destruct (stop v).
Qed.

Lemma leaf_wrap : forall X j (v : value X), leaf (Nat.iter j Yes v) = leaf v.
Proof. intros X j v. induction j as [|j IH]; cbn; auto. Qed.

Lemma map_leaf_id : forall X (f : X -> X) (v : value X), (forall x, f x = x) -> map_leaf f v = v.
Proof. intros X f v H. induction v as [x| |v IH]; cbn; congruence. Qed.

Theorem order_wrap : forall X (base : rel6 -> X -> X -> bool) j (v : value X),
  (forall x, base REq x x = true) ->
  (order base REq (Nat.iter j Yes v) v = Some true <-> j = 0 \/ stop v = None) /\
  (0 < j -> stop v <> None -> order base RGt (Nat.iter j Yes v) v = Some true).
Proof.
  intros X base j v H. pose proof (order_some X base REq v v) as [b Hb]. unfold order in *.
  rewrite stop_wrap, leaf_wrap. destruct (stop v) as [i|] eqn:E; cbn [option_map].
  - split; [split|].
    + intros Q. injection Q as Q. left. destruct (Nat.compare_spec (j + i) i); cbn in Q; try discriminate. lia.
    + intros [->|Q]; [|discriminate]. cbn [plus]. now rewrite Nat.compare_refl.
    + intros Hj _. destruct (Nat.compare_spec (j + i) i); try lia. reflexivity.
  - split; [split; auto|].
    + intros _. destruct (leaf v) as [x|]; [|discriminate]. now rewrite H.
    + congruence.
Qed.

Theorem order_converted : forall X (base : rel6 -> X -> X -> bool), (forall x, base REq x x = true) ->
  forall L, closed L -> forall x p, leaves_by L x x p ->
  forall (make : value X -> X), (forall z, make (Leaf z) = z) ->
  forall k m c v v', has_depth m v -> m <= k ->
  build L (plain x) (plain x) c make k m v = Some v' ->
  (order base REq v' v = Some true <-> k = m \/ stop v = None) /\
  (m < k -> stop v <> None -> order base RGt v' v = Some true).
Proof.
  intros X base H L Hc x p Hl make Hm k m c v v' Hd Hk E.
  rewrite (build_copy L Hc x p Hl) in E by auto. injection E as <-. rewrite map_leaf_id by auto.
  destruct (order_wrap X base (k - m) v H) as [H1 H2]. split.
  - rewrite H1. split; intros [Q|Q]; auto; left; lia.
  - intros Q. apply H2. lia.
Qed.

(** * Overload resolution is unambiguous *)

Lemma same_cand_eq a b : same_cand a b = true <-> a = b.
Proof.
  destruct a as [s o e], b as [s' o' e']. unfold same_cand. cbn [tmpl oper exch]. split.
  - intros H. apply andb_prop in H as [H E]. apply andb_prop in H as [S R]. apply eqb_prop in E as <-.
    assert (s = s') as <- by (destruct s, s'; first [reflexivity|discriminate]).
    assert (o = o') as <- by (destruct o, o'; first [reflexivity|discriminate]). reflexivity.
  - intros [= <- <- <-]. rewrite eqb_reflx. destruct s, o; reflexivity.
Qed.
Lemma better_once rel a b : better rel a b = true -> better rel b a = false.
Proof.
  unfold better. destruct (pattern a), (pattern b); cbn [more_special same_shape orb andb]; try congruence;
    rewrite Nat.ltb_lt, Nat.ltb_ge; lia.
Qed.
Lemma best_of_ok rel cs :
  (forall c, best_of rel cs = Chosen c -> In c cs /\ forall d, In d cs -> d <> c -> better rel c d = true /\ better rel d c = false) /\
  (best_of rel cs = Invalid -> forall c, In c cs -> exists d, In d cs /\ d <> c /\ better rel c d = false).
Proof.
  unfold best_of. destruct (find _ cs) as [c|] eqn:F; split; try discriminate.
  - intros c' [= <-]. apply find_some in F as (I & F). split; [exact I|]. intros d D N. rewrite forallb_forall in F. specialize (F d D).
    apply orb_prop in F as [F|F]; [|split; [exact F|exact (better_once _ _ _ F)]]. apply same_cand_eq in F. congruence.
  - intros _ c I. apply (find_none _ _ F) in I. clear F. induction cs as [|d cs IH]; [discriminate|]. cbn [forallb] in I.
    apply andb_false_iff in I as [I|I].
    + apply orb_false_iff in I as (S & B). exists d. split; [left; reflexivity|]. split; [|exact B]. intros ->.
      rewrite (proj2 (same_cand_eq c c) eq_refl) in S. discriminate.
    + destruct (IH I) as (d' & A & B). exists d'. split; [right; exact A|exact B].
Qed.
