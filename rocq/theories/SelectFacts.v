(** Facts about compile-time selection. *)
From Coq Require Import NArith Bool List Lia ZifyBool ZifyN.
From Verif Require Import Words Types TypesFacts Lifetime Select SelectSpec.
Import ListNotations.
Open Scope N_scope.
Open Scope bool_scope.

(** * All combinations of traits *)
Definition allb (P : bool -> bool) : bool := P true && P false.
Lemma allb_ok : forall P, allb P = true -> forall b, P b = true.
Proof. intros P H b. apply andb_prop in H. destruct b; apply H. Qed.

Definition all_flags (P : flags -> bool) : bool :=
  allb (fun a => allb (fun b => allb (fun c => allb (fun d => allb (fun e => allb (fun f => allb (fun g =>
  allb (fun h => allb (fun i => allb (fun j => allb (fun k => allb (fun l => allb (fun m => allb (fun n =>
    P (mkflags a b c d e f g h i j k l m n))))))))))))))).
Lemma all_flags_ok : forall P, all_flags P = true -> forall f, P f = true.
Proof.
  intros P H [a b c d e f g h i j k l m n]. unfold all_flags in H.
  apply (allb_ok _) with (b := a) in H. cbv beta in H. apply (allb_ok _) with (b := b) in H. cbv beta in H.
  apply (allb_ok _) with (b := c) in H. cbv beta in H. apply (allb_ok _) with (b := d) in H. cbv beta in H.
  apply (allb_ok _) with (b := e) in H. cbv beta in H. apply (allb_ok _) with (b := f) in H. cbv beta in H.
  apply (allb_ok _) with (b := g) in H. cbv beta in H. apply (allb_ok _) with (b := h) in H. cbv beta in H.
  apply (allb_ok _) with (b := i) in H. cbv beta in H. apply (allb_ok _) with (b := j) in H. cbv beta in H.
  apply (allb_ok _) with (b := k) in H. cbv beta in H. apply (allb_ok _) with (b := l) in H. cbv beta in H.
  apply (allb_ok _) with (b := m) in H. cbv beta in H. apply (allb_ok _) with (b := n) in H. exact H.
Qed.
Definition all_kinds (P : kind -> bool) : bool := P CopyCtor && P CopyAssign && P MoveCtor && P MoveAssign.
Lemma all_kinds_ok : forall P, all_kinds P = true -> forall k, P k = true.
Proof. intros P H k. unfold all_kinds in H. repeat (apply andb_prop in H; destruct H as [H ?]). destruct k; assumption. Qed.

(** * Specialisations *)
Theorem specs_disjoint : forall a b c d e,
  length (filter (fun s => matches (fst s) [a; b; c; d; e]) base_specs) = (if a && b && c && d && negb e then 0 else 1)%nat /\
  length (filter (fun s => matches (fst s) [a; b; c; d; e]) enable_specs) = (if e || (a && b && c && d) then 0 else 1)%nat.
Proof. intros [|] [|] [|] [|] [|]; split; reflexivity. Qed.

Definition special_check (f : flags) (k : kind) : bool :=
  if negb (coherent f) then true else
    match option_member f k with
    | Ambiguous => false
    | Chosen m =>
        eqb (is_deleted m) (doc_deleted f k) && eqb (is_trivial m) (doc_trivial f k) &&
        implb (negb (is_deleted m)) (implb (doc_noexcept f k) (is_noexcept m) && implb (negb (f_ref f)) (eqb (is_noexcept m) (doc_noexcept f k)))
    end.
Lemma special_checked : all_flags (fun f => all_kinds (special_check f)) = true.
Proof. vm_compute. reflexivity. Qed.

Theorem special_ok : forall f k, coherent f = true ->
  exists m, option_member f k = Chosen m /\
    is_deleted m = doc_deleted f k /\ is_trivial m = doc_trivial f k /\
    (is_deleted m = false -> (doc_noexcept f k = true -> is_noexcept m = true) /\
                             (f_ref f = false -> is_noexcept m = doc_noexcept f k)).
Proof.
  intros f k Hc. pose proof (all_kinds_ok _ (all_flags_ok _ special_checked f) k) as H. unfold special_check in H.
  rewrite Hc in H. cbn [negb] in H. destruct (option_member f k) as [m|]; [|discriminate]. exists m. split; [reflexivity|].
  apply andb_prop in H. destruct H as [H H3]. apply andb_prop in H. destruct H as [H1 H2].
  apply eqb_prop in H1. apply eqb_prop in H2. split; [exact H1|]. split; [exact H2|]. intros Hd.
  rewrite Hd in H3. cbn in H3. apply andb_prop in H3. destruct H3 as [H3 H4]. split.
  - intros E. rewrite E in H3. exact H3.
  - intros E. rewrite E in H4. cbn in H4. apply eqb_prop in H4. exact H4.
Qed.

(** * Nested options *)
Definition nested_check (f : flags) : bool :=
  if negb (coherent f) then true else coherent (option_flags f) &&
    (if negb (regular f) then true else
      regular (option_flags f) && eqb (f_td (option_flags f)) (f_td f) && eqb (f_tcc (option_flags f)) (f_tcc f) &&
       eqb (f_tca (option_flags f)) (f_tcc f && (f_tca f && f_td f)) && eqb (f_tmc (option_flags f)) (f_tmc f) &&
       eqb (f_tma (option_flags f)) (f_tmc f && (f_tma f && f_td f))).
Lemma nested_checked : all_flags nested_check = true.
Proof. vm_compute. reflexivity. Qed.

Lemma option_coherent : forall f, coherent f = true -> coherent (option_flags f) = true.
Proof.
  intros f H. pose proof (all_flags_ok _ nested_checked f) as K. unfold nested_check in K. rewrite H in K.
  cbn [negb] in K. now apply andb_prop in K.
Qed.
Theorem nest_coherent : forall n f, coherent f = true -> coherent (nest_flags n f) = true.
Proof. induction n; intros f H; [exact H|]. apply option_coherent. now apply IHn. Qed.

Lemma option_describes : forall W (C : cls W) f, coherent f = true -> regular f = true -> describes f C ->
  regular (option_flags f) = true /\ describes (option_flags f) (opt_cls C).
Proof.
  intros W C f H R (D1 & D2 & D3 & D4 & D5). pose proof (all_flags_ok _ nested_checked f) as K. unfold nested_check in K.
  rewrite H, R in K. cbn [negb] in K. apply andb_prop in K. destruct K as [_ K].
  repeat (apply andb_prop in K; destruct K as [K ?]).
  repeat match goal with E : eqb _ _ = true |- _ => apply eqb_prop in E end.
  split; [unfold regular; repeat (apply andb_true_intro; split); assumption|]. unfold describes. cbn [td tcc tca tmc tma opt_cls]. rewrite D1, D2, D3, D4, D5. repeat split; congruence.
Qed.
Theorem nest_describes : forall W n (C : cls W) f, coherent f = true -> regular f = true -> describes f C ->
  regular (nest_flags n f) = true /\ describes (nest_flags n f) (nest_cls n C).
Proof.
  intros W n C f H R D. induction n as [|n IH]; [split; assumption|].
  apply option_describes; [now apply nest_coherent|apply IH|apply IH].
Qed.

(** * Strategies *)
Lemma loop_bound : forall rest idx mx i levels m,
  (forall x, In x rest -> x <= m) -> mx <= m ->
  nth idx levels 0 = mx -> (forall j x, nth_error rest j = Some x -> nth (i + j)%nat levels 0 = x) ->
  nth (index_of_max_loop idx mx i rest) levels 0 <= m.
Proof.
  induction rest as [|x rest IH]; intros idx mx i levels m Hr Hm Hn Hj; cbn [index_of_max_loop]; [lia|].
  assert (Hx : nth i levels 0 = x) by (specialize (Hj 0%nat x eq_refl); now rewrite PeanoNat.Nat.add_0_r in Hj).
  assert (Hj' : forall j y, nth_error rest j = Some y -> nth (S i + j)%nat levels 0 = y).
  { intros j y Hy. specialize (Hj (S j) y Hy). now replace (S i + j)%nat with (i + S j)%nat by lia. }
  destruct (mx <? x); apply IH; auto; intros; try (apply Hr; now right). apply Hr. now left.
Qed.
Lemma find_max_bound : forall l m, (forall x, In x l -> x <= m) -> find_max_level l <= m.
Proof.
  intros [|x l] m H; [cbn; lia|]. unfold find_max_level, index_of_max. apply loop_bound.
  - intros y Hy. apply H. now right.
  - apply H. now left.
  - reflexivity.
  - intros j y Hy. cbn. now apply nth_error_nth.
Qed.
Lemma loop_ge : forall rest idx mx i levels,
  nth idx levels 0 = mx -> (forall j x, nth_error rest j = Some x -> nth (i + j)%nat levels 0 = x) ->
  mx <= nth (index_of_max_loop idx mx i rest) levels 0 /\
  forall x, In x rest -> x <= nth (index_of_max_loop idx mx i rest) levels 0.
Proof.
  induction rest as [|x rest IH]; intros idx mx i levels Hn Hj; cbn [index_of_max_loop]; [split; [lia|intros ? []]|].
  assert (Hx : nth i levels 0 = x) by (specialize (Hj 0%nat x eq_refl); now rewrite PeanoNat.Nat.add_0_r in Hj).
  assert (Hj' : forall j y, nth_error rest j = Some y -> nth (S i + j)%nat levels 0 = y).
  { intros j y Hy. specialize (Hj (S j) y Hy). now replace (S i + j)%nat with (i + S j)%nat by lia. }
  destruct (mx <? x) eqn:E.
  - destruct (IH i x (S i) levels Hx Hj') as [A B]. split; [lia|]. intros y [<-|Hy]; auto.
  - destruct (IH idx mx (S i) levels Hn Hj') as [A B]. split; [lia|]. intros y [<-|Hy]; [lia|auto].
Qed.
Lemma find_max_ge : forall l x, In x l -> x <= find_max_level l.
Proof.
  intros [|y l] x H; [destruct H|]. unfold find_max_level, index_of_max.
  destruct (loop_ge l 0 y 1 (y :: l) eq_refl) as [A B].
  - intros j z Hz. cbn. now apply nth_error_nth.
  - destruct H as [<-|H]; auto.
Qed.

Theorem const_le : forall t, const_max_level t <= max_level t.
Proof.
  induction t using ty_ind'; cbn [const_max_level]; try apply N.le_0_l; try reflexivity.
  - apply find_max_bound. cbn [max_level]. intros x [<-|[<-|[]]]; destruct (max_level t2 <? max_level t1) eqn:E; lia.
  - apply find_max_bound. cbn [max_level]. intros x Hx. apply in_map_iff in Hx. destruct Hx as ([o t] & <- & Hi). cbn [snd].
    rewrite Forall_forall in H. specialize (H _ Hi). cbn [snd] in H. etransitivity; [exact H|].
    apply find_max_ge. apply in_map_iff. now exists (o, t).
  - apply find_max_bound. cbn [max_level]. intros x Hx. destruct n; [destruct Hx|]. apply repeat_spec in Hx. subst x. exact IHt.
Qed.

Theorem plain_fits : forall t, fits false t = true /\ compiles false t = true.
Proof. intros t. unfold compiles, fits, outer_strategy, cv_max_level, inner_has_flag. destruct (1 <=? max_level t) eqn:E; lia. Qed.

Theorem const_fits : forall t, fits true t = true <-> (const_max_level t = 0 <-> max_level t = 0).
Proof.
  intros t. pose proof (const_le t). unfold fits, outer_strategy, cv_max_level, inner_has_flag.
  destruct (1 <=? const_max_level t) eqn:E; lia.
Qed.

Theorem never_missing_levels : forall c t, outer_strategy c t = InValue -> max_level t <> 0.
Proof.
  intros c t. unfold outer_strategy, cv_max_level. pose proof (const_le t).
  destruct c; match goal with |- context [1 <=? ?x] => destruct (1 <=? x) eqn:E end; intros; try discriminate; lia.
Qed.

Theorem const_compiles : forall t, compiles true t = true <-> max_level t = 0.
Proof.
  intros t. pose proof (const_le t). unfold compiles, fits, outer_strategy, cv_max_level, inner_has_flag.
  destruct (1 <=? const_max_level t) eqn:E; lia.
Qed.
