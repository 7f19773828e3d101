(** Conversions between nested options match the layers from the inside. *)
From Coq Require Import Bool List Arith Lia ZifyBool.
From Verif Require Import Constraints ConstraintsSpec ConstraintsFacts Convert.
Import ListNotations.

Lemma same_name_true x y : same_name x y = true <-> x = y.
Proof.
  pose proof (same_true (plain x) (plain y)) as H. cbn in H. rewrite H. unfold plain. split; [now intros [=]|now intros ->].
Qed.

(** Expressions of type option<...<x>...> of depth m. *)
Definition of_depth (x : name) (m : nat) (u : ctype) : Prop :=
  is_volatile u = false /\ remove_cvref u = nested m (plain x).

(** The innermost types: x and y are not options; y can be made from an expression of depth m over x exactly
    when p m.  (What y says about an argument may depend on its depth, not on its value category.) *)
Definition leaves_by (L : lang) (x y : name) (p : nat -> bool) : Prop :=
  (forall t, x <> OptionOf t) /\ (forall t, y <> OptionOf t) /\ x <> InPlace /\ (x = y -> p 0 = true) /\
  forall m u, of_depth x m u ->
    initializable L (plain y) [u] = p m /\ constructible L (plain y) [u] = p m /\
    (convertible L u (plain y) = true -> p m = true).

(** y can be made from x and not from any option. *)
Definition leaves (L : lang) (x y : name) : Prop :=
  y <> Bool /\ leaves_by L x y (fun m => m =? 0).

(** j layers are converted one by one and y is made from what the rest of them hold. *)
Fixpoint convert {X Y} (make : value X -> Y) (j : nat) (v : value X) : value Y :=
  match j, v with
  | O, _ => Leaf (make v)
  | S j, Yes w => Yes (convert make j w)
  | S j, _ => No
  end.

(** Converting j layers of m to make one of k layers is possible: y can be made from m - j layers, except that
    an option<bool> is not made from an option as from a value. *)
Definition admits (y : name) (p : nat -> bool) (k m j : nat) : Prop :=
  j <= k /\ j <= m /\ p (m - j) = true /\ (y = Bool -> 0 < k -> 0 < m -> 0 < j).

Lemma convert_all {X Y : Type} (make : value X -> Y) : forall m v, has_depth m v ->
  convert make m v = map_leaf (fun x => make (Leaf x)) v.
Proof.
  induction m as [|m IH]; intros [z| |w] H; try destruct H; cbn [convert map_leaf]; try reflexivity.
  rewrite IH by exact H. reflexivity.
Qed.

Section Nested.
Context (L : lang) (C : closed L) (x y : name) (p : nat -> bool) (Hl : leaves_by L x y p).

Notation A m := (nested m (plain x)).
Notation B k := (nested k (plain y)).

Definition bool_leaf : bool := same (plain y) (plain Bool).

Lemma bool_leaf_true : bool_leaf = true <-> y = Bool.
Proof. unfold bool_leaf. rewrite same_true. unfold plain. split; [now intros [=]|now intros ->]. Qed.

(** Can option<...<y>...> of depth k be made from one of depth m? *)
Fixpoint reach (k m : nat) : bool :=
  match k with
  | O => p m
  | S k' => (negb (bool_leaf && (k' =? 0) && negb (m =? 0)) && reach k' m) ||
            match m with O => false | S m' => reach k' m' end
  end.

Lemma nested_object k n : is_reference (nested k (plain n)) = false.
Proof. destruct k; reflexivity. Qed.

Lemma nested_cvref k n : remove_cvref (nested k (plain n)) = nested k (plain n).
Proof. destruct k; reflexivity. Qed.

Lemma same_depth m k : A m = B k -> m = k /\ x = y.
Proof.
  destruct Hl as (H1 & H2 & _). revert k. induction m as [|m IH]; intros [|k] E; cbn in E.
  - injection E as E. auto.
  - injection E as E. destruct (H1 _ E).
  - injection E as E. symmetry in E. destruct (H2 _ E).
  - injection E as E. destruct (IH _ E). auto.
Qed.

Lemma is_bool k : same (remove_cvref (B k)) (plain Bool) = bool_leaf && (k =? 0).
Proof. rewrite nested_cvref. destruct k; cbn [nested Nat.eqb]; [rewrite andb_true_r; reflexivity|]. rewrite andb_false_r. reflexivity. Qed.

Lemma not_in_place m : same (A m) in_place_t = false.
Proof.
  destruct Hl as (_ & _ & H & _). apply not_true_iff_false. rewrite same_true.
  destruct m; cbn; unfold option_of, plain, in_place_t; [intros [= E]; contradiction|discriminate].
Qed.

Lemma option_depth m : is_option (A m) = negb (m =? 0).
Proof.
  destruct Hl as (H & _). destruct m as [|m]; [|reflexivity]. cbn. destruct x as [| | |t|]; try reflexivity.
  destruct (H t eq_refl).
Qed.

Lemma of_depth_argument m u : of_depth x m u -> Convert.argument u = true.
Proof.
  intros [H1 H2]. unfold Convert.argument. rewrite H1, H2, not_in_place. reflexivity.
Qed.

Lemma of_depth_lref m u : of_depth x m u -> of_depth x m (lref u) /\ of_depth x m (const_lref u) /\
  of_depth x m (rref u) /\ of_depth x m (const_rref u).
Proof. destruct u as [[] c v b]; unfold of_depth; cbn; auto. Qed.

Lemma of_depth_nested m : of_depth x m (A m).
Proof. split; [destruct m; reflexivity|apply nested_cvref]. Qed.

Lemma of_depth_deduced m c : of_depth x m (deduced c (A m)).
Proof. destruct m, c; split; reflexivity. Qed.

(** The constructors together, without regard to explicit. *)
Lemma either_value t u : value_ctor L true t u || value_ctor L false t u = doc_value_ctor L t u.
Proof.
  rewrite !value_ctor_ok. destruct (doc_value_ctor L t u), (doc_value_explicit L t u); reflexivity.
Qed.

Lemma either_option t u q : is_reference t = false ->
  option_ctor L true t u q || option_ctor L false t u q = doc_option_ctor L t u q.
Proof.
  intros H. rewrite !option_ctor_ok by exact H.
  destruct (doc_option_ctor L t u q), (doc_option_explicit L t q); reflexivity.
Qed.

Lemma initializable_option t u : is_reference t = false ->
  initializable L (option_of t) [u] = constructible L (option_of t) [u].
Proof. intros H. apply initializable_constructible. right. apply C. exact H. Qed.

(** Copying: equal types reach each other. *)
Lemma reach_same : x = y -> forall k, reach k k = true.
Proof.
  intros E. destruct Hl as (_ & _ & _ & H & _). induction k as [|k IH]; [exact (H E)|].
  cbn [reach]. rewrite IH. apply orb_true_r.
Qed.

(** Being constructible from an option of depth S m, when the answers for B k are known. *)
Lemma from_option_depth k m :
  (forall m u, of_depth x m u -> initializable L (B k) [u] = reach k m) ->
  constructible_from_option L (B k) (A m) = reach k (S m).
Proof.
  intros IH. unfold constructible_from_option. change (option_of (A m)) with (A (S m)).
  destruct (of_depth_lref (S m) (A (S m)) (of_depth_nested (S m))) as (D1 & D2 & D3 & D4).
  assert (H : forall u, of_depth x (S m) u ->
    constructible L (B k) [u] = reach k (S m) /\ (convertible L u (B k) = true -> reach k (S m) = true)).
  { intros u D. destruct k as [|k].
    - destruct Hl as (_ & _ & _ & _ & H). destruct (H _ u D) as (_ & H1 & H2). cbn [nested reach]. auto.
    - specialize (IH (S m) u D).
      change (B (S k)) with (option_of (B k)) in IH |- *. rewrite initializable_option in IH by apply nested_object.
      split; [exact IH|]. intros E. rewrite <- IH.
      destruct (C (B k) (nested_object k y)) as [_ C'].
      destruct (C' u (of_depth_argument _ _ D)) as [E1 E2]. rewrite E1, <- E2, E. apply orb_true_r. }
  destruct (H _ D1) as [-> I1], (H _ D2) as [-> I2], (H _ D3) as [-> I3], (H _ D4) as [-> I4].
  destruct (reach k (S m)); [reflexivity|].
  destruct (convertible L (lref (A (S m))) (B k)); [specialize (I1 eq_refl); discriminate|].
  destruct (convertible L (const_lref (A (S m))) (B k)); [specialize (I2 eq_refl); discriminate|].
  destruct (convertible L (rref (A (S m))) (B k)); [specialize (I3 eq_refl); discriminate|].
  destruct (convertible L (const_rref (A (S m))) (B k)); [specialize (I4 eq_refl); discriminate|].
  reflexivity.
Qed.

(** By value, except from an option of the same type. *)
Definition value_reach (k m : nat) : bool := negb (bool_leaf && (k =? 0) && negb (m =? 0)) && reach k m.
(** By conversion. *)
Definition option_reach (k m : nat) : bool := reach k m && ((bool_leaf && (k =? 0)) || negb (reach k (S m))).

Lemma doc_value_depth k m u :
  (forall m u, of_depth x m u -> initializable L (B k) [u] = reach k m) -> of_depth x m u ->
  doc_value_ctor L (B k) u = value_reach k m && negb (same (A m) (B (S k))).
Proof.
  intros IH D. rewrite doc_value_ctor_eq. unfold value_reach. rewrite nested_object, is_bool, (IH m u D).
  destruct D as [_ ->]. rewrite not_in_place, option_depth. change (option_of (B k)) with (B (S k)).
  destruct (reach k m), (bool_leaf && (k =? 0)), (m =? 0), (same (A m) (B (S k))); reflexivity.
Qed.

Lemma doc_option_depth k m q :
  (forall m u, of_depth x m u -> initializable L (B k) [u] = reach k m) -> of_depth x m q ->
  doc_option_ctor L (B k) (A m) q = option_reach k m && negb (same (A m) (B k)).
Proof.
  intros IH D. rewrite doc_option_ctor_eq. unfold option_reach.
  rewrite nested_object, is_bool, (IH m q D), (from_option_depth k m IH), (same_sym (B k) (A m)).
  destruct (reach k m), (same (A m) (B k)), (bool_leaf && (k =? 0)), (reach k (S m)); reflexivity.
Qed.

Lemma reach_step k m : reach (S k) (S m) = value_reach k (S m) || reach k m.
Proof. reflexivity. Qed.

Lemma option_step k m : value_reach k (S m) || option_reach k m = value_reach k (S m) || reach k m.
Proof.
  unfold value_reach, option_reach. cbn [Nat.eqb negb].
  destruct (bool_leaf && (k =? 0)), (reach k (S m)), (reach k m); reflexivity.
Qed.

Lemma same_step m k : same (A (S m)) (B (S k)) = same (A m) (B k).
Proof. reflexivity. Qed.

Lemma initializable_reach : forall k m u, of_depth x m u -> initializable L (B k) [u] = reach k m.
Proof.
  induction k as [|k IH]; intros m u D.
  - destruct Hl as (_ & _ & _ & _ & H). apply H. exact D.
  - change (B (S k)) with (option_of (B k)). rewrite initializable_option by apply nested_object.
    destruct (C (B k) (nested_object k y)) as [_ C']. destruct (C' u (of_depth_argument _ _ D)) as [-> _].
    unfold one_argument.
    pose proof (either_value (B k) u) as EV. rewrite (doc_value_depth k m u IH D) in EV.
    destruct D as [D1 D2]. rewrite D2. destruct m as [|m].
    + destruct Hl as (N & _). cbn [reach Nat.eqb negb]. rewrite andb_false_r, orb_false_r. cbn [negb andb].
      replace (same (A 0) (B (S k))) with false in EV.
      2:{ symmetry. apply not_true_iff_false. rewrite same_true. intros E. apply same_depth in E. lia. }
      unfold value_reach in EV. cbn [Nat.eqb negb] in EV. rewrite !andb_false_r in EV. cbn [negb andb] in EV.
      rewrite andb_true_r in EV.
      cbn [nested]. unfold plain. rewrite <- EV.
      destruct x as [| | |t|]; try (rewrite !orb_false_r; reflexivity). destruct (N t eq_refl).
    + change (A (S m)) with (ct NoRef false false (OptionOf (A m))). cbv iota.
      destruct (of_depth_lref m (A m) (of_depth_nested m)) as (_ & Q1 & Q2 & _).
      pose proof (either_option (B k) (A m) (const_lref (A m)) (nested_object k y)) as E1.
      pose proof (either_option (B k) (A m) (rref (A m)) (nested_object k y)) as E2.
      rewrite (doc_option_depth k m _ IH Q1) in E1. rewrite (doc_option_depth k m _ IH Q2) in E2.
      rewrite reach_step, <- option_step.
      destruct (same (A m) (B k)) eqn:Es.
      * apply same_true in Es. destruct (same_depth _ _ Es) as [-> Ey].
        rewrite option_step, (reach_same Ey), orb_true_r. cbn [negb andb]. rewrite !orb_true_r. reflexivity.
      * rewrite same_step, Es in EV. cbn [negb] in EV, E1, E2. rewrite andb_true_r in EV, E1, E2.
        rewrite <- EV, <- E1 at 1. rewrite <- E1 in E2. clear EV E1.
        destruct (moves u), (value_ctor L true (B k) u), (value_ctor L false (B k) u),
             (option_ctor L true (B k) (A m) (const_lref (A m))), (option_ctor L false (B k) (A m) (const_lref (A m))),
             (option_ctor L true (B k) (A m) (rref (A m))), (option_ctor L false (B k) (A m) (rref (A m)));
             cbn in *; congruence.
Qed.

(** Which constructor option<B k> takes for an option<A m>. *)
Lemma choice_reach k m c : same (A m) (B k) = false ->
  choose L (B k) (A m) c =
    if value_reach k (S m) then FromValue
    else if option_reach k m then match c with Rvalue => FromMove | _ => FromCopy end
    else NoCtor.
Proof.
  intros Hs. pose proof (initializable_reach k) as IH.
  assert (HV : by_value L (B k) (A m) c = value_reach k (S m)).
  { unfold by_value. rewrite either_value. change (option_of (A m)) with (A (S m)).
    rewrite (doc_value_depth k (S m)), same_step, Hs; [apply andb_true_r|exact IH|apply of_depth_deduced]. }
  destruct (of_depth_lref m (A m) (of_depth_nested m)) as (_ & Q1 & Q2 & _).
  assert (HC : by_copy L (B k) (A m) = option_reach k m).
  { unfold by_copy. rewrite either_option by apply nested_object. rewrite (doc_option_depth k m _ IH Q1), Hs.
    apply andb_true_r. }
  assert (HM : by_move L (B k) (A m) = option_reach k m).
  { unfold by_move. rewrite either_option by apply nested_object. rewrite (doc_option_depth k m _ IH Q2), Hs.
    apply andb_true_r. }
  unfold choose. rewrite HV, HC, HM.
  assert (HX : value_reach k (S m) = true -> option_reach k m = false).
  { unfold value_reach, option_reach. cbn [Nat.eqb negb].
    destruct (bool_leaf && (k =? 0)), (reach k (S m)), (reach k m); cbn; congruence. }
  destruct (value_reach k (S m)), (option_reach k m), c; try reflexivity; specialize (HX eq_refl); discriminate.
Qed.

(** Reaching is converting some number of layers. *)
Lemma admits_up k m j : (y = Bool -> k = 0 -> m = 0) -> admits y p k m j -> admits y p (S k) m j.
Proof.
  intros Hb (H1 & H2 & H3 & H4). split; [lia|]. split; [exact H2|]. split; [exact H3|]. intros Hy _ Hm. apply H4; auto.
  destruct k; [|lia]. specialize (Hb Hy eq_refl). lia.
Qed.

Lemma admits_in k m j : admits y p k m j -> admits y p (S k) (S m) (S j).
Proof. intros (H1 & H2 & H3 & H4). repeat split; [lia|lia|exact H3|lia]. Qed.

Lemma admits_split k m j : admits y p (S k) m j ->
  (j <= k /\ (y = Bool -> k = 0 -> m = 0) /\ admits y p k m j) \/
  (exists m', m = S m' /\ j = S k /\ admits y p k m' k).
Proof.
  intros (H1 & H2 & H3 & H4). destruct (Nat.le_gt_cases j k) as [Hj|Hj].
  - left. split; [exact Hj|]. split.
    + intros Hy Hk. destruct (Nat.eq_dec m 0) as [E|E]; [exact E|]. specialize (H4 Hy ltac:(lia) ltac:(lia)). lia.
    + split; [exact Hj|]. split; [exact H2|]. split; [exact H3|]. intros Hy Hk Hm. apply H4; auto with arith.
  - right. assert (j = S k) by lia. subst j. destruct m as [|m]; [lia|]. exists m. split; [reflexivity|].
    split; [reflexivity|]. repeat split; [lia|lia|exact H3|lia].
Qed.

Lemma reach_admits : forall k m, reach k m = true <-> exists j, admits y p k m j.
Proof.
  induction k as [|k IH]; intros m.
  - cbn [reach]. split.
    + intros H. exists 0. repeat split; try lia. rewrite Nat.sub_0_r. exact H.
    + intros (j & H1 & _ & H3 & _). replace j with 0 in H3 by lia. rewrite Nat.sub_0_r in H3. exact H3.
  - cbn [reach]. rewrite orb_true_iff, andb_true_iff, IH. split.
    + intros [[Hb (j & H)]|H].
      * exists j. apply admits_up; [|exact H]. intros Hy -> . apply bool_leaf_true in Hy. rewrite Hy in Hb.
        destruct m; [reflexivity|discriminate].
      * destruct m as [|m]; [discriminate|]. apply IH in H. destruct H as (j & H). exists (S j). apply admits_in, H.
    + intros (j & H). apply admits_split in H. destruct H as [(_ & Hb & H)|(m' & -> & -> & H)].
      * left. split; [|eauto]. destruct bool_leaf eqn:Eb; [|reflexivity]. apply bool_leaf_true in Eb.
        destruct (Nat.eqb_spec k 0) as [Ek|Ek]; [|reflexivity]. rewrite (Hb Eb Ek). reflexivity.
      * right. apply IH. eauto.
Qed.

Lemma value_reach_admits k m : value_reach k m = true <->
  (y = Bool -> k = 0 -> m = 0) /\ exists j, admits y p k m j.
Proof.
  unfold value_reach. rewrite andb_true_iff, reach_admits. split.
  - intros [H1 H2]. split; [|exact H2]. intros Hy ->. apply bool_leaf_true in Hy. rewrite Hy in H1.
    destruct m; [reflexivity|discriminate].
  - intros [H1 H2]. split; [|exact H2]. destruct bool_leaf eqn:Eb; [|reflexivity]. apply bool_leaf_true in Eb.
    destruct (Nat.eqb_spec k 0) as [Ek|Ek]; [|reflexivity]. rewrite (H1 Eb Ek). reflexivity.
Qed.

(** The constructor from a value of type A 0. *)
Lemma value_leaf k c : doc_value_ctor L (B k) (deduced c (plain x)) = reach k 0.
Proof.
  change (plain x) with (A 0). rewrite (doc_value_depth k 0); [|apply initializable_reach|apply of_depth_deduced].
  unfold value_reach. cbn [Nat.eqb negb]. rewrite andb_false_r. cbn [negb andb].
  replace (same (A 0) (B (S k))) with false; [apply andb_true_r|].
  symmetry. apply not_true_iff_false. rewrite same_true. intros E. apply same_depth in E. lia.
Qed.

Context {X Y : Type} (make : value X -> Y).

(** Nothing is built exactly when no number of layers can be converted. *)
Lemma build_none : forall k m c v, has_depth m v -> (forall j, ~ admits y p k m j) ->
  build L (plain x) (plain y) c make k m v = None.
Proof.
  intros k m c v Hv Hn.
  assert (Hr : reach k m = false).
  { apply not_true_iff_false. intros E. apply reach_admits in E. destruct E as (j & E). exact (Hn j E). }
  destruct k as [|k]; cbn [build].
  - change (plain y) with (B 0). rewrite (initializable_reach 0 m) by apply of_depth_deduced. rewrite Hr. reflexivity.
  - destruct m as [|m].
    + rewrite either_value, value_leaf.
      cbn [reach Nat.eqb negb] in Hr. rewrite andb_false_r, orb_false_r in Hr. cbn [negb andb] in Hr. rewrite Hr. reflexivity.
    + destruct (same (A m) (B k)) eqn:Es.
      * apply same_true in Es. destruct (same_depth _ _ Es) as [-> Ey]. rewrite (reach_same Ey) in Hr. discriminate.
      * rewrite choice_reach by exact Es. rewrite reach_step, <- option_step in Hr.
        apply orb_false_iff in Hr. destruct Hr as [-> ->]. reflexivity.
Qed.

(** As few layers as possible are converted. *)
Lemma build_least : forall k m c v j, has_depth m v -> ~ (x = y /\ m <= k) ->
  admits y p k m j -> (forall i, admits y p k m i -> j <= i) ->
  build L (plain x) (plain y) c make k m v = Some (Nat.iter (k - j) Yes (convert make j v)).
Proof.
  induction k as [|k IH]; intros m c v j Hv Hxy Ha Hmin.
  - cbn [build]. change (plain y) with (B 0). rewrite (initializable_reach 0 m) by apply of_depth_deduced.
    replace (reach 0 m) with true; [|symmetry; apply reach_admits; eauto].
    destruct Ha as (H1 & _). replace j with 0 by lia. reflexivity.
  - destruct (admits_split _ _ _ Ha) as [(Hj & Hb & Hk)|(m' & -> & -> & Hk)].
    + (* from a value *)
      assert (HV : value_reach k m = true) by (apply value_reach_admits; eauto).
      replace (S k - j) with (S (k - j)) by lia.
      change (Nat.iter (S (k - j)) Yes (convert make j v)) with (Yes (Nat.iter (k - j) Yes (convert make j v))).
      assert (HB : build L (plain x) (plain y) c make k m v = Some (Nat.iter (k - j) Yes (convert make j v))).
      { apply IH; auto; [intros [E1 E2]; apply Hxy; split; [exact E1|lia]|].
        intros i Hi. apply Hmin. apply admits_up; assumption. }
      cbn [build]. destruct m as [|m].
      * rewrite either_value, value_leaf.
        replace (reach k 0) with true; [rewrite HB; reflexivity|]. symmetry. apply reach_admits. eauto.
      * destruct (same (A m) (B k)) eqn:Es.
        -- apply same_true in Es. destruct (same_depth _ _ Es) as [-> Ey]. exfalso. apply Hxy. split; [exact Ey|lia].
        -- rewrite choice_reach by exact Es. rewrite HV, HB. reflexivity.
    + (* every layer *)
      assert (HV : value_reach k (S m') = false).
      { apply not_true_iff_false. intros E. apply value_reach_admits in E. destruct E as (Hb & i & Hi).
        pose proof (Hmin i (admits_up _ _ _ Hb Hi)) as H. destruct Hi as (Hi & _). lia. }
      assert (HO : option_reach k m' = true).
      { pose proof (option_step k m') as E. rewrite HV in E. cbn [orb] in E. rewrite E. apply reach_admits. eauto. }
      rewrite Nat.sub_diag. cbn [build].
      destruct (same (A m') (B k)) eqn:Es.
      * apply same_true in Es. destruct (same_depth _ _ Es) as [-> Ey]. exfalso. apply Hxy. split; [exact Ey|lia].
      * rewrite choice_reach by exact Es. rewrite HV, HO.
        assert (HF : forall c', follow v (build L (plain x) (plain y) c' make k m') = Some (convert make (S k) v)).
        { intros c'. destruct v as [z| |w]; [destruct Hv|reflexivity|]. cbn [follow convert].
          rewrite (IH m' c' w k); [rewrite Nat.sub_diag; reflexivity|exact Hv| |exact Hk|].
          - intros [E1 E2]. apply Hxy. split; [exact E1|lia].
          - intros i Hi. pose proof (Hmin (S i) (admits_in _ _ _ Hi)). lia. }
        destruct c; apply HF.
Qed.

(** When the innermost types are the same, options that are not deeper are copied. *)
Lemma build_same : x = y -> forall k m c v, has_depth m v -> m <= k ->
  build L (plain x) (plain y) c make k m v = Some (Nat.iter (k - m) Yes (map_leaf (fun z => make (Leaf z)) v)).
Proof.
  intros Ey. assert (H0 : p 0 = true) by (destruct Hl as (_ & _ & _ & H & _); exact (H Ey)).
  assert (HA : forall k m, m <= k -> admits y p k m m).
  { intros k m H. repeat split; [exact H|lia|rewrite Nat.sub_diag; exact H0|lia]. }
  induction k as [|k IH]; intros m c v Hv Hm.
  - replace m with 0 in * by lia. cbn [build]. change (plain y) with (B 0).
    rewrite (initializable_reach 0 0) by apply of_depth_deduced. cbn [reach]. rewrite H0.
    destruct v; try destruct Hv. reflexivity.
  - destruct m as [|m]; cbn [build].
    + rewrite either_value, value_leaf.
      replace (reach k 0) with true; [|symmetry; apply reach_admits; exists 0; apply HA; lia].
      rewrite IH by (exact Hv || lia). rewrite !Nat.sub_0_r. reflexivity.
    + destruct (same (A m) (B k)) eqn:Es.
      * apply same_true in Es. destruct (same_depth _ _ Es) as [-> _]. rewrite Nat.sub_diag. reflexivity.
      * assert (Hne : m <> k) by (intros ->; rewrite Ey, same_refl in Es; discriminate).
        rewrite choice_reach by exact Es.
        replace (value_reach k (S m)) with true.
        2:{ symmetry. apply value_reach_admits. split; [lia|]. exists (S m). apply HA. lia. }
        rewrite IH by (exact Hv || lia). replace (S k - S m) with (S (k - S m)) by lia. reflexivity.
Qed.
End Nested.

(** * Contents that can only be moved *)

(** y can be made from an x that may be moved from, and from nothing else that has to do with x. *)
Definition rvalue (u : ctype) : bool :=
  match u with ct LRef _ _ _ => false | ct _ c _ _ => negb c end.
Definition leaves_moved (L : lang) (x y : name) : Prop :=
  (forall t, x <> OptionOf t) /\ (forall t, y <> OptionOf t) /\ x <> InPlace /\ x <> y /\ y <> Bool /\
  forall m u, of_depth x m u ->
    initializable L (plain y) [u] = (m =? 0) && rvalue u /\ constructible L (plain y) [u] = (m =? 0) && rvalue u /\
    (convertible L u (plain y) = true -> (m =? 0) && rvalue u = true).

Section Moved.
Context (L : lang) (C : closed L) (x y : name) (Hl : leaves_moved L x y).
Local Notation A m := (nested m (plain x)).
Local Notation B k := (nested k (plain y)).

Lemma moved_differ m k : same (A m) (B k) = false.
Proof.
  destruct Hl as (H1 & H2 & _ & H3 & _). apply not_true_iff_false. rewrite same_true.
  revert k. induction m as [|m IH]; intros [|k] E; cbn in E.
  - injection E as E. contradiction.
  - injection E as E. destruct (H1 _ E).
  - injection E as E. symmetry in E. destruct (H2 _ E).
  - injection E as E. exact (IH _ E).
Qed.

Lemma moved_bool k : same (remove_cvref (B k)) (plain Bool) = false.
Proof.
  destruct Hl as (_ & _ & _ & _ & H & _). apply not_true_iff_false. rewrite same_true, nested_cvref.
  destruct k; cbn; unfold plain, option_of; [intros [= E]; contradiction|discriminate].
Qed.

Lemma moved_place m : same (A m) in_place_t = false.
Proof.
  destruct Hl as (_ & _ & H & _). apply not_true_iff_false. rewrite same_true.
  destruct m; cbn; unfold option_of, plain, in_place_t; [intros [= E]; contradiction|discriminate].
Qed.

Lemma moved_argument m u : of_depth x m u -> Convert.argument u = true.
Proof. intros [H1 H2]. unfold Convert.argument. rewrite H1, H2, moved_place. reflexivity. Qed.

(** From a value. *)
Lemma moved_value k m u : of_depth x m u -> doc_value_ctor L (B k) u = initializable L (B k) [u].
Proof.
  intros [_ D]. rewrite doc_value_ctor_eq. rewrite nested_object, moved_bool, D, moved_place.
  change (option_of (B k)) with (B (S k)). rewrite moved_differ. cbn [negb andb orb]. now rewrite !andb_true_r.
Qed.

Lemma moved_from_option k m :
  (forall m u, of_depth x m u -> initializable L (B k) [u] = (m <=? k) && rvalue u) ->
  constructible_from_option L (B k) (A m) = (S m <=? k).
Proof.
  intros IH. unfold constructible_from_option. change (option_of (A m)) with (A (S m)).
  assert (H : forall u, of_depth x (S m) u ->
    constructible L (B k) [u] = (S m <=? k) && rvalue u /\ (convertible L u (B k) = true -> (S m <=? k) && rvalue u = true)).
  { intros u D. destruct k as [|k].
    - destruct Hl as (_ & _ & _ & _ & _ & H). destruct (H _ u D) as (_ & H1 & H2). cbn [nested]. auto.
    - specialize (IH (S m) u D).
      change (B (S k)) with (option_of (B k)) in IH |- *.
      rewrite (initializable_option L C) in IH by apply nested_object.
      split; [exact IH|]. intros E. rewrite <- IH.
      destruct (C (B k) (nested_object k y)) as [_ C'].
      destruct (C' u (moved_argument _ _ D)) as [E1 E2]. rewrite E1, <- E2, E. apply orb_true_r. }
  assert (D0 : of_depth x (S m) (A (S m))) by (split; reflexivity).
  destruct (of_depth_lref x (S m) _ D0) as (D1 & D2 & D3 & D4).
  destruct (H _ D1) as [-> I1], (H _ D2) as [-> I2], (H _ D3) as [-> I3], (H _ D4) as [-> I4].
  cbn [rvalue lref const_lref rref const_rref add_const nested option_of plain negb] in *.
  rewrite !andb_false_r in *. rewrite andb_true_r in *. cbn [orb].
  destruct (S m <=? k) eqn:E; [reflexivity|]. cbn [orb].
  assert (F : forall b : bool, (b = true -> false = true) -> b = false) by (intros [] Q; [discriminate (Q eq_refl)|reflexivity]).
  rewrite (F _ I1), (F _ I2), (F _ I3), (F _ I4).
  reflexivity.
Qed.

Lemma moved_option k m q :
  (forall m u, of_depth x m u -> initializable L (B k) [u] = (m <=? k) && rvalue u) -> of_depth x m q ->
  doc_option_ctor L (B k) (A m) q = (m =? k) && rvalue q.
Proof.
  intros IH D. rewrite doc_option_ctor_eq.
  rewrite nested_object, moved_bool, (IH m q D), (moved_from_option k m IH), (same_sym (B k) (A m)), moved_differ.
  destruct (rvalue q); cbn [negb andb orb]; rewrite ?andb_false_r, ?andb_true_r; cbn [andb]; lia.
Qed.

Lemma moved_initializable : forall k m u, of_depth x m u -> initializable L (B k) [u] = (m <=? k) && rvalue u.
Proof.
  induction k as [|k IH]; intros m u D.
  - destruct Hl as (_ & _ & _ & _ & _ & H). destruct (H _ u D) as (E & _). cbn [nested]. rewrite E.
    destruct m; reflexivity.
  - change (B (S k)) with (option_of (B k)). rewrite (initializable_option L C) by apply nested_object.
    destruct (C (B k) (nested_object k y)) as [_ C']. destruct (C' u (moved_argument _ _ D)) as [-> _].
    unfold one_argument.
    pose proof (either_value L (B k) u) as EV. rewrite (moved_value k m u D), (IH m u D) in EV.
    destruct D as [D1 D2]. rewrite D2. destruct m as [|m].
    + destruct Hl as (N & _). cbn [nested]. unfold plain.
      replace ((0 <=? S k) && rvalue u) with ((0 <=? k) && rvalue u) by reflexivity. rewrite <- EV.
      destruct x as [| | |t|]; try (rewrite !orb_false_r; reflexivity). destruct (N t eq_refl).
    + change (A (S m)) with (ct NoRef false false (OptionOf (A m))). cbv iota.
      assert (D0 : of_depth x m (A m)) by (split; [destruct m; reflexivity|apply nested_cvref]).
      destruct (of_depth_lref x m (A m) D0) as (_ & Q1 & Q2 & _).
      pose proof (either_option L (B k) (A m) (const_lref (A m)) (nested_object k y)) as E1.
      pose proof (either_option L (B k) (A m) (rref (A m)) (nested_object k y)) as E2.
      rewrite (moved_option k m _ IH Q1) in E1. rewrite (moved_option k m _ IH Q2) in E2.
      assert (R1 : rvalue (const_lref (A m)) = false) by (destruct m; reflexivity).
      assert (R2 : rvalue (rref (A m)) = true) by (destruct m; reflexivity).
      rewrite R1, andb_false_r in E1. rewrite R2, andb_true_r in E2.
      apply orb_false_iff in E1. destruct E1 as [-> ->]. rewrite moved_differ.
      assert (Hm : moves u = rvalue u) by (destruct u as [[] [] v b]; reflexivity). rewrite Hm.
      replace ((S m <=? S k) && rvalue u) with (((S m <=? k) && rvalue u) || (rvalue u && (m =? k))) by (destruct (rvalue u); lia).
      rewrite <- EV, <- E2. destruct (rvalue u), (value_ctor L true (B k) u), (value_ctor L false (B k) u),
        (option_ctor L true (B k) (A m) (rref (A m))), (option_ctor L false (B k) (A m) (rref (A m))); reflexivity.
Qed.

Definition by_moving (c : category) : bool := match c with Rvalue => true | _ => false end.

Lemma moved_deduced m c : of_depth x m (deduced c (A m)) /\ rvalue (deduced c (A m)) = by_moving c.
Proof. destruct m, c; repeat split. Qed.

Context {X Y : Type} (make : value X -> Y).
Lemma moved_build : forall k m c v, has_depth m v ->
  build L (plain x) (plain y) c make k m v =
    if (m <=? k) && by_moving c then Some (Nat.iter (k - m) Yes (map_leaf (fun z => make (Leaf z)) v)) else None.
Proof.
  induction k as [|k IH]; intros m c v Hv.
  - destruct (moved_deduced m c) as [D R]. cbn [build]. change (plain y) with (B 0).
    rewrite (moved_initializable 0 m _ D), R. destruct m as [|m]; [|reflexivity].
    destruct (by_moving c); [|reflexivity]. destruct v; try contradiction. reflexivity.
  - destruct m as [|m]; cbn [build].
    + destruct (moved_deduced 0 c) as [D R]. change (plain x) with (A 0) at 1 2.
      rewrite (either_value L), (moved_value k 0 _ D), (moved_initializable k 0 _ D), R, (IH 0 c v Hv).
      cbn [Nat.leb andb]. rewrite !Nat.sub_0_r. destruct (by_moving c); reflexivity.
    + rewrite moved_differ.
      assert (D0 : of_depth x m (A m)) by (split; [destruct m; reflexivity|apply nested_cvref]).
      destruct (of_depth_lref x m (A m) D0) as (_ & Q1 & Q2 & _).
      assert (R1 : rvalue (const_lref (A m)) = false) by (destruct m; reflexivity).
      assert (R2 : rvalue (rref (A m)) = true) by (destruct m; reflexivity).
      destruct (moved_deduced (S m) c) as [D R].
      unfold choose, by_value, by_copy, by_move. change (option_of (A m)) with (A (S m)).
      rewrite (either_value L), !(either_option L) by apply nested_object.
      rewrite (moved_value k (S m) _ D), (moved_initializable k (S m) _ D), R.
      rewrite (moved_option k m _ (moved_initializable k) Q1), (moved_option k m _ (moved_initializable k) Q2), R1, R2.
      rewrite andb_false_r, andb_true_r.
      destruct c; cbn [by_moving]; rewrite ?andb_false_r, ?andb_true_r; try reflexivity.
      destruct (Nat.eqb_spec m k) as [->|Hne].
      * replace (S k <=? S k) with true by lia. rewrite Nat.sub_diag. cbn [Nat.iter].
        destruct v as [z| |w]; [destruct Hv|reflexivity|]. cbn [follow map_leaf].
        rewrite (IH k Rvalue w Hv), Nat.leb_refl, Nat.sub_diag. reflexivity.
      * destruct (Nat.leb_spec (S m) k) as [Hk|Hk].
        -- rewrite (IH (S m) Rvalue v Hv). replace (S m <=? k) with true by lia. replace (S m <=? S k) with true by lia.
           cbn [by_moving andb option_map]. replace (S k - S m) with (S (k - S m)) by lia. reflexivity.
        -- replace (S m <=? S k) with false by lia. reflexivity.
Qed.
End Moved.

(** When y can be made from x and from no option, the layers correspond from the inside and missing outer layers
    are engaged. *)
Lemma initializable_depth L : closed L -> forall x y, leaves L x y ->
  forall k m u, of_depth x m u -> initializable L (nested k (plain y)) [u] = (m <=? k).
Proof.
  intros C x y [Hb Hl] k m u D. rewrite (initializable_reach L C x y _ Hl k m u D).
  apply eq_true_iff_eq. rewrite (reach_admits L x y _ Hl), Nat.leb_le. split.
  - intros (j & H1 & H2 & H3 & _). apply Nat.eqb_eq in H3. lia.
  - intros H. exists m. repeat split; [exact H|lia|apply Nat.eqb_eq; lia|intros E; contradiction].
Qed.

Lemma build_depth L : closed L -> forall x y, leaves L x y ->
  forall X Y (make : value X -> Y) k m c v, has_depth m v ->
  build L (plain x) (plain y) c make k m v =
    if m <=? k then Some (Nat.iter (k - m) Yes (map_leaf (fun z => make (Leaf z)) v)) else None.
Proof.
  intros C x y [Hb Hl] X Y make k m c v Hv. destruct (Nat.leb_spec m k) as [H|H].
  - destruct (same_name x y) eqn:E.
    + apply (build_same L C x y _ Hl make); [|exact Hv|exact H]. apply same_name_true. exact E.
    + rewrite (build_least L C x y _ Hl make k m c v m Hv).
      * rewrite convert_all by exact Hv. reflexivity.
      * intros [F _]. apply same_name_true in F. congruence.
      * repeat split; [exact H|lia|apply Nat.eqb_eq; lia|intros F; contradiction].
      * intros i (_ & _ & Hi & _). apply Nat.eqb_eq in Hi. lia.
  - apply (build_none L C x y _ Hl make); [exact Hv|]. intros j (H1 & H2 & H3 & _). apply Nat.eqb_eq in H3. lia.
Qed.

(** The conversion is implicit if that of the innermost types is; copies of options always are. *)
Lemma convertible_depth L : closed L -> forall x y, leaves L x y ->
  forall i, (forall u, of_depth x 0 u -> convertible L u (plain y) = i) ->
  forall k m u, of_depth x m u ->
  convertible L u (nested k (plain y)) = (m <=? k) && (i || same_name x y && (0 <? m)).
Proof.
  intros C x y Hy i Hi. pose proof (initializable_depth L C x y Hy) as HI. destruct Hy as [Hb Hl].
  induction k as [|k IH]; intros m u D.
  - cbn [nested]. destruct m as [|m]; [rewrite (Hi u D); cbn; rewrite andb_false_r, orb_false_r; reflexivity|].
    destruct Hl as (_ & _ & _ & _ & H). destruct (H _ u D) as (_ & _ & Q). cbn. apply not_true_iff_false. intros E. discriminate (Q E).
  - destruct (C (nested k (plain y)) (nested_object k y)) as [_ C'].
    change (nested (S k) (plain y)) with (option_of (nested k (plain y))).
    destruct (C' u (of_depth_argument L x y _ Hl _ _ D)) as [_ ->]. unfold one_argument. cbn [negb andb].
    pose proof (initializable_reach L C x y _ Hl k) as R.
    assert (RK : forall m, reach y (fun m => m =? 0) k m = (m <=? k)).
    { intros n. rewrite <- (R n (nested n (plain x)) (of_depth_nested x n)). apply HI. apply of_depth_nested. }
    assert (BF : bool_leaf y = false) by (apply not_true_iff_false; intros E; apply (bool_leaf_true L x y _ Hl) in E; contradiction).
    assert (EV : value_ctor L false (nested k (plain y)) u = (m <=? k) && (i || same_name x y && (0 <? m))).
    { rewrite value_ctor_ok, (doc_value_depth L x y _ Hl k m u R D). unfold doc_value_explicit. rewrite nested_object, (IH m u D).
      unfold value_reach. rewrite BF, RK. cbn [andb negb].
      destruct (Nat.leb_spec m k) as [G|G]; [|reflexivity]. replace (same (nested m (plain x)) (nested (S k) (plain y))) with false.
      2:{ symmetry. apply not_true_iff_false. rewrite same_true. intros E. apply (same_depth L x y _ Hl) in E. lia. }
      cbn [andb negb]. destruct (i || same_name x y && (0 <? m)); reflexivity. }
    rewrite EV. destruct D as [D1 D2]. rewrite D2. destruct m as [|m].
    + destruct Hl as (N & _). cbn [nested]. unfold plain. cbn [Nat.leb andb]. destruct x as [| | |t|]; try (rewrite !orb_false_r; reflexivity). destruct (N t eq_refl).
    + change (nested (S m) (plain x)) with (ct NoRef false false (OptionOf (nested m (plain x)))). cbv iota.
      destruct (of_depth_lref x m (nested m (plain x)) (of_depth_nested x m)) as (_ & Q1 & Q2 & _).
      assert (EO : forall q, of_depth x m q -> option_ctor L false (nested k (plain y)) (nested m (plain x)) q =
        (m =? k) && negb (same_name x y) && i).
      { intros q Q. rewrite option_ctor_ok by apply nested_object. rewrite (doc_option_depth L C x y _ Hl k m q R Q).
        unfold doc_option_explicit. rewrite nested_object, (IH m q Q). unfold option_reach. rewrite BF, !RK. cbn [andb orb negb].
        destruct (Nat.eqb_spec m k) as [->|G].
        - replace (k <=? k) with true by lia. replace (S k <=? k) with false by lia. cbn [andb negb].
          destruct (same_name x y) eqn:E.
          + apply same_name_true in E. subst y. replace (same (nested k (plain x)) (nested k (plain x))) with true; [reflexivity|].
            symmetry. apply same_true. reflexivity.
          + replace (same (nested k (plain x)) (nested k (plain y))) with false; [cbn; destruct i; reflexivity|].
            symmetry. apply not_true_iff_false. rewrite same_true. intros F. apply (same_depth L x y _ Hl) in F as [_ F].
            apply same_name_true in F. congruence.
        - replace ((m <=? k) && negb (S m <=? k)) with false by lia. reflexivity. }
      rewrite (EO _ Q1), (EO _ Q2).
      assert (ES : same (nested m (plain x)) (nested k (plain y)) = (m =? k) && same_name x y).
      { apply eq_true_iff_eq. rewrite same_true, andb_true_iff, Nat.eqb_eq, same_name_true. split.
        - intros E. exact (same_depth L x y _ Hl _ _ E).
        - intros [-> ->]. reflexivity. }
      rewrite ES. replace (0 <? S m) with true by reflexivity. rewrite andb_true_r.
      destruct (Nat.eqb_spec m k) as [->|G].
      * replace (S k <=? k) with false by lia. replace (S k <=? S k) with true by lia. destruct (same_name x y), i, (moves u); reflexivity.
      * replace (S m <=? S k) with (S m <=? k) by lia. destruct (S m <=? k), (same_name x y), i, (moves u); reflexivity.
Qed.

Lemma build_any L : closed L -> forall x y p, leaves_by L x y p ->
  forall X Y (make : value X -> Y) k m c v, has_depth m v -> ~ (x = y /\ m <= k) ->
  (forall j, admits y p k m j -> (forall i, admits y p k m i -> j <= i) ->
     build L (plain x) (plain y) c make k m v = Some (Nat.iter (k - j) Yes (convert make j v))) /\
  ((forall j, ~ admits y p k m j) -> build L (plain x) (plain y) c make k m v = None).
Proof.
  intros C x y p Hl X Y make k m c v Hv Hn. split.
  - intros j. apply (build_least L C x y p Hl make); assumption.
  - apply (build_none L C x y p Hl make). exact Hv.
Qed.

Lemma build_copy L : closed L -> forall x p, leaves_by L x x p ->
  forall X Y (make : value X -> Y) k m c v, has_depth m v -> m <= k ->
  build L (plain x) (plain x) c make k m v = Some (Nat.iter (k - m) Yes (map_leaf (fun z => make (Leaf z)) v)).
Proof. intros C x p Hl X Y make k m c v. apply (build_same L C x x p Hl make eq_refl). Qed.

(** bool can be made from every option, by its explicit operator bool. *)
Lemma build_bool L : closed L -> forall x, x <> Bool -> leaves_by L x Bool (fun _ => true) ->
  forall X (make : value X -> bool) k m c v, has_depth (S m) v ->
  build L (plain x) (plain Bool) c make (S k) (S m) v = Some (Nat.iter k Yes (convert make 1 v)).
Proof.
  intros C x Hx Hl X make k m c v Hv. rewrite (build_least L C x Bool _ Hl make (S k) (S m) c v 1 Hv).
  - rewrite Nat.sub_1_r. reflexivity.
  - intros [E _]. contradiction.
  - repeat split; lia.
  - intros i (_ & _ & _ & H). apply H; [reflexivity|lia|lia].
Qed.


(** An option<bool> is never made from another option as a value: its contents are converted. *)
Lemma choice_bool L u k : choose L (plain Bool) u k <> FromValue.
Proof.
  assert (H : by_value L (plain Bool) u k = false).
  { unfold by_value. rewrite !value_ctor_ok, !doc_value_ctor_eq.
    cbn [is_reference plain remove_cvref]. rewrite same_refl.
    replace (is_option (remove_cvref (deduced k (option_of u)))) with true by (destruct k; reflexivity).
    cbn [negb orb]. rewrite !andb_false_r. reflexivity. }
  unfold choose. rewrite H. destruct k, (by_copy L (plain Bool) u), (by_move L (plain Bool) u); discriminate.
Qed.

(** An option<T> can be constructed from an option<U> exactly when overload resolution finds a constructor, or
    it is copied or moved. *)
Lemma one_argument_choice L t u k :
  one_argument L true t (deduced k (option_of u)) || one_argument L false t (deduced k (option_of u)) =
  match choose L t u k with NoCtor => same u t | _ => true end.
Proof.
  unfold one_argument, choose, by_value, by_copy, by_move. destruct k;
    cbn [deduced lref const_lref add_const option_of plain remove_cvref remove_reference remove_cv moves negb andb];
    repeat match goal with
      | |- context [value_ctor L ?e ?a ?b] => destruct (value_ctor L e a b)
      | |- context [option_ctor L ?e ?a ?b ?q] => destruct (option_ctor L e a b q)
      end; destruct (same u t); reflexivity.
Qed.

(** * A compiler that meets the assumptions *)

Fixpoint depth (t : ctype) : nat := match t with ct _ _ _ (OptionOf u) => S (depth u) | _ => 0 end.

(** Given answers for types that are not options, and for options by their constructors. *)
Definition answers (base : lang) (inner : lang) : lang :=
  mklang (cxx20 base)
    (fun t args =>
       match t, args with
       | ct NoRef false false (OptionOf x), [u] => one_argument inner true x u || one_argument inner false x u
       | _, _ => constructible base t args
       end)
    (braces base)
    (fun t => match t with ct NoRef false false (OptionOf _) => false | _ => aggregate base t end)
    (fun u t =>
       match t with
       | ct NoRef false false (OptionOf x) => one_argument inner false x u
       | _ => convertible base u t
       end)
    (assignable base) (ptr_convertible base).

Fixpoint layer (base : lang) (n : nat) : lang :=
  match n with
  | O => answers base base
  | S n => answers base (layer base n)
  end.

Definition completed (base : lang) : lang :=
  mklang (cxx20 base)
    (fun t args => constructible (layer base (depth t)) t args)
    (braces base)
    (fun t => aggregate (layer base (depth t)) t)
    (fun u t => convertible (layer base (depth t)) u t)
    (assignable base) (ptr_convertible base).

(** Two compilers agree about t. *)
Definition agree (L L' : lang) (t : ctype) : Prop :=
  cxx20 L = cxx20 L' /\ (forall args, constructible L t args = constructible L' t args) /\
  (forall args, braces L t args = braces L' t args) /\ aggregate L t = aggregate L' t /\
  (forall u, convertible L u t = convertible L' u t) /\
  (forall t u, ptr_convertible L t u = ptr_convertible L' t u).

Lemma agree_initializable L L' t args : agree L L' t -> initializable L t args = initializable L' t args.
Proof. intros (H1 & H2 & H3 & H4 & _). unfold initializable. rewrite H1, H2, H3, H4. reflexivity. Qed.

Lemma agree_from_option L L' t u : agree L L' t ->
  constructible_from_option L t u = constructible_from_option L' t u.
Proof.
  intros (_ & H2 & _ & _ & H5 & _). unfold constructible_from_option. rewrite !H2, !H5. reflexivity.
Qed.

Lemma agree_one_argument L L' ex t u : agree L L' t -> one_argument L ex t u = one_argument L' ex t u.
Proof.
  intros H. unfold one_argument.
  assert (V : value_ctor L ex t u = value_ctor L' ex t u).
  { rewrite !value_ctor_ok, !doc_value_ctor_eq. unfold doc_value_explicit, can_bind.
    rewrite (agree_initializable L L' t [u] H). destruct H as (_ & _ & _ & _ & H5 & H6). rewrite H5, !H6. reflexivity. }
  assert (O : forall x q, option_ctor L ex t x q = option_ctor L' ex t x q).
  { intros x q. destruct (is_reference t) eqn:Ht; [rewrite !option_ctor_reference by exact Ht; reflexivity|].
    rewrite !option_ctor_ok by exact Ht. rewrite !doc_option_ctor_eq. unfold doc_option_explicit. rewrite Ht.
    rewrite (agree_initializable L L' t [q] H), (agree_from_option L L' t x H).
    destruct H as (_ & _ & _ & _ & H5 & _). rewrite H5. reflexivity. }
  rewrite V. destruct (remove_cvref u) as [r c v [| | |x|]]; try reflexivity. rewrite !O. reflexivity.
Qed.

Lemma answers_agree base L L' t :
  (forall x, t = option_of x -> agree L L' x) -> agree (answers base L) (answers base L') t.
Proof.
  intros H. destruct t as [r c v b].
  destruct (same (ct r c v b) (ct NoRef false false b)) eqn:E.
  - apply same_true in E. injection E as -> -> ->. destruct b as [| | |x|]; try (repeat split; reflexivity).
    specialize (H x eq_refl). repeat split; cbn.
    + intros [|u [|]]; try reflexivity. rewrite !(agree_one_argument L L') by exact H. reflexivity.
    + intros u. apply agree_one_argument. exact H.
  - repeat split; intros; destruct r, c, v, b; try reflexivity; cbn [same] in E; rewrite ?same_refl in E;
      cbn in E; rewrite ?Nat.eqb_refl, ?same_refl in E; discriminate E.
Qed.

Lemma layer_agree base : forall n m t, depth t <= n -> depth t <= m -> agree (layer base n) (layer base m) t.
Proof.
  induction n as [|n IH]; intros m t Hn Hm.
  - destruct m as [|m]; cbn [layer]; apply answers_agree; intros x ->; cbn in Hn; lia.
  - destruct m as [|m]; cbn [layer]; apply answers_agree; intros x ->; cbn in Hn, Hm; [lia|]. apply IH; lia.
Qed.

Lemma completed_agree base t : agree (completed base) (layer base (depth t)) t.
Proof.
  repeat split; try reflexivity; cbn.
  - destruct (depth t); reflexivity.
  - intros args. destruct (depth t); reflexivity.
  - intros u v. destruct (depth t); reflexivity.
Qed.

(** Every compiler can be completed in this way. *)
Lemma completed_closed base : closed (completed base).
Proof.
  intros t Ht. split; [reflexivity|]. intros u _. cbn.
  pose proof (completed_agree base t) as G.
  assert (E : forall ex, one_argument (layer base (depth t)) ex t u = one_argument (completed base) ex t u).
  { intros ex. symmetry. apply agree_one_argument. exact G. }
  rewrite !E. auto.
Qed.

(** int, short and bool as the compiler sees them: each can be made from the others, and bool from an option by its
    explicit operator bool (3022). *)
Definition numeric (t u : ctype) : bool :=
  match t, u with
  | ct NoRef false false (Named _ | Bool), ct _ _ false (Named _ | Bool) => true
  | _, _ => false
  end.
Definition tests (t u : ctype) : bool :=
  match t, u with
  | ct NoRef false false Bool, ct _ _ false (OptionOf _) => true
  | _, _ => false
  end.
Definition arithmetic : lang :=
  mklang false (fun t args => match args with [u] => numeric t u || tests t u | _ => false end) (fun _ _ => false)
    (fun _ => false) (fun u t => numeric t u) (fun t u => numeric (remove_reference t) u) same.

Lemma arithmetic_leaves n m : leaves (completed arithmetic) (Named n) (Named m).
Proof.
  split; [discriminate|]. split; [discriminate|]. split; [discriminate|]. split; [discriminate|]. split; [reflexivity|].
  intros d [r c v b] [Hv E]. cbn in Hv, E. subst v. destruct d; injection E as ->; repeat split; discriminate.
Qed.

Lemma arithmetic_bool n : leaves_by (completed arithmetic) (Named n) Bool (fun _ => true).
Proof.
  split; [discriminate|]. split; [discriminate|]. split; [discriminate|]. split; [reflexivity|].
  intros d [r c v b] [Hv E]. cbn in Hv, E. subst v. destruct d; injection E as ->; repeat split.
Qed.

(** A compiler for which a type like std::any can be made from everything. *)
Definition everything : lang :=
  mklang true (fun t args => match args with [u] => true | _ => false end) (fun _ _ => false)
    (fun _ => false) (fun u t => true) (fun t u => true) same.

Lemma everything_leaves n m : leaves_by (completed everything) (Named n) (Named m) (fun _ => true).
Proof.
  split; [discriminate|]. split; [discriminate|]. split; [discriminate|]. split; [reflexivity|].
  intros d [r c v b] [Hv E]. repeat split.
Qed.

(** Pointers that own what they point to: one class converts into another, from rvalues only. *)
Definition owners (t u : ctype) : bool :=
  match t, u with
  | ct NoRef false _ (Named _), ct NoRef false _ (Named _) | ct NoRef false _ (Named _), ct RRef false _ (Named _) => true
  | _, _ => false
  end.
Definition owning : lang :=
  mklang true (fun t args => match args with [u] => owners t u | _ => false end) (fun _ _ => false)
    (fun _ => false) (fun u t => owners t u) (fun t u => owners (remove_reference t) u) same.

Lemma owning_leaves n m : n <> m -> leaves_moved (completed owning) (Named n) (Named m).
Proof.
  intros H. split; [discriminate|]. split; [discriminate|]. split; [discriminate|]. split; [congruence|]. split; [discriminate|].
  intros d [r c v b] [Hv E]. cbn in Hv, E. subst v. destruct d; injection E as ->; destruct r, c; repeat split; try discriminate.
Qed.
