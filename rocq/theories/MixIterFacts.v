(** Proofs about programs with iterators and const iterators. *)
From Coq Require Import NArith ZArith Bool List Lia ZifyBool.
From Verif Require Import Outcome Lifetime LifetimeSpec Observe Iter IterFacts IterProg IterProgSpec IterProgFacts MixIter MixIterSpec.
Import ListNotations.
Open Scope Z_scope.

Lemma same_elem_eq : forall a b, same_elem a b = true <-> a = b.
Proof. intros [[]|[]] [[]|[]]; cbn; split; congruence. Qed.

Lemma convert_id : forall a b p, convert a b p = p.
Proof. intros a b p. unfold convert, it_const. destruct (same_elem a b); reflexivity. Qed.

Lemma set_nth_split : forall A (l : list A) i x, (i < length l)%nat -> set_nth l i x = firstn i l ++ x :: skipn (S i) l.
Proof.
  induction l as [|y l IH]; intros i x H; cbn in H; [lia|].
  destruct i as [|i]; cbn; [reflexivity|]. f_equal. apply IH. lia.
Qed.
Lemma set_nth_map : forall A B (f : A -> B) l i x, set_nth (map f l) i (f x) = map f (set_nth l i x).
Proof. induction l as [|y l IH]; intros [|i] x; cbn; try reflexivity. f_equal. apply IH. Qed.
Lemma set_nth_length : forall A (l : list A) i x, length (set_nth l i x) = length l.
Proof. induction l as [|y l IH]; intros [|i] x; cbn; auto. Qed.
Lemma set_nth_all : forall A (P : A -> Prop) l i x, Forall P l -> P x -> Forall P (set_nth l i x).
Proof.
  induction l as [|y l IH]; intros [|i] x H Hx; cbn; inversion H; subst; constructor; auto.
Qed.

Lemma reg_some : forall A (l : list A) i a, nth_error l i = Some a -> reg l i = Ok a.
Proof. intros A l i a H. unfold reg. rewrite H. reflexivity. Qed.
Lemma nth_both : forall A B (l : list A) (m : list B) i a, length l = length m -> nth_error l i = Some a ->
  exists b, nth_error m i = Some b.
Proof.
  intros A B l m i a H Ha.
  assert (i < length m)%nat by (rewrite <- H; apply nth_error_Some; congruence).
  destruct (nth_error m i) eqn:E; [eauto|]. apply nth_error_None in E. lia.
Qed.
Lemma nth_map : forall A B (f : A -> B) l i x, nth_error l i = Some x -> nth_error (map f l) i = Some (f x).
Proof. intros. rewrite nth_error_map, H. reflexivity. Qed.

Lemma compared_direct : forall g c a b p q x, resolve g c a b <> None ->
  (do_compare c p q = x) -> (do_compare CEq q p = Ok (it_eq p q)) -> compared g c a b p q = x.
Proof.
  intros g c a b p q x H Hx He. unfold compared. rewrite !convert_id.
  assert (D : resolve g c a b = Some Exchanged -> c = CEq \/ c = CNe).
  { unfold resolve. destruct (converts b a); [discriminate|]. destruct c, g; auto; discriminate. }
  destruct (resolve g c a b) as [[]|]; [assumption| |congruence].
  rewrite He. cbn. destruct (D eq_refl) as [-> | ->]; subst x; reflexivity.
Qed.

Lemma eq_swap : forall p q, do_compare CEq q p = Ok (it_eq p q).
Proof.
  intros p q. cbn. f_equal. unfold it_eq, p_eqb. destruct p, q; try reflexivity.
  rewrite N.eqb_sym, Z.eqb_sym. reflexivity.
Qed.

Lemma compared_eq : forall g c a b p q, resolve g c a b <> None -> compared g c a b p q = do_compare c p q.
Proof. intros. eapply compared_direct; auto. apply eq_swap. Qed.

Lemma matches_after : forall R o h h' (g : res (R * memory)) w, (forall x, x <> o -> h' x = h x) ->
  matches o h' g w -> matches o h g w.
Proof.
  intros R o h h' g w H M. unfold matches in *.
  destruct g as [[r k]| |]; destruct w as [[r' l]| |]; try assumption.
  destruct M as [M1 [M2 M3]]. split; [assumption|]. split; [assumption|].
  intros x Hx. rewrite (M3 x Hx). auto.
Qed.

Lemma made_by_old : forall m (x y : Z), length (if old_too m then [x; y] else [y]) = made_by m.
Proof. intros [] x y; reflexivity. Qed.

Theorem mixed_engaged : forall R g o (p : mprog R) ts its h, length ts = length its -> valid its -> accepted g p ts ->
  matches o h (mrun g p ts (map (IAt o) its) h) (expected p its [h o]).
Proof.
  induction p as [r|m i k IH|i k IH|i j k IH|i j k IH|c i j k IH|i k IH|i v k IH]; intros ts its h Hl Hv Ha;
    cbn [mrun expected accepted] in *.
  - cbn. auto.
  - destruct Ha as [a [Ha Hk]]. destruct (nth_both _ _ _ _ _ _ Hl Ha) as [x Hx].
    rewrite (reg_some _ _ _ _ Ha), (reg_some _ _ _ _ (nth_map _ _ _ _ _ _ Hx)). cbn [rbind].
    rewrite move_engaged. unfold made. rewrite Hx. cbn [length].
    change (Z.of_nat 1) with 1. unfold position.
    destruct ((0 <=? target m x) && (target m x <=? 1)) eqn:E; [|exact I].
    rewrite <- map_app. apply IH; [| |exact Hk].
    + rewrite !app_length, repeat_length, made_by_old. lia.
    + apply valid_app; [assumption|]. pose proof (valid_nth _ _ _ Hv Hx).
      destruct (old_too m); repeat constructor; lia.
  - destruct Ha as [a [Ha Hk]]. destruct (nth_both _ _ _ _ _ _ Hl Ha) as [x Hx].
    rewrite (reg_some _ _ _ _ Ha), (reg_some _ _ _ _ (nth_map _ _ _ _ _ _ Hx)). cbn [rbind].
    unfold made. rewrite Hx, convert_id. change [IAt o x] with (map (IAt o) [x]). rewrite <- map_app.
    apply IH; [rewrite !app_length; cbn; lia| |exact Hk].
    apply valid_app; [assumption|]. repeat constructor; apply (valid_nth _ _ _ Hv Hx).
  - destruct Ha as [a [b [Ha [Hb [_ Hk]]]]]. destruct (nth_both _ _ _ _ _ _ Hl Hb) as [y Hy].
    rewrite (reg_some _ _ _ _ Ha), (reg_some _ _ _ _ Hb), (reg_some _ _ _ _ (nth_map _ _ _ _ _ _ Hy)). cbn [rbind].
    unfold made. rewrite Hy, convert_id, set_nth_map.
    rewrite <- set_nth_split by (rewrite <- Hl; apply nth_error_Some; congruence).
    apply IH; [rewrite set_nth_length; assumption| |exact Hk].
    apply set_nth_all; [assumption|]. exact (valid_nth _ _ _ Hv Hy).
  - destruct Ha as [a [b [Ha [Hb [_ Hk]]]]].
    destruct (nth_both _ _ _ _ _ _ Hl Ha) as [x Hx]. destruct (nth_both _ _ _ _ _ _ Hl Hb) as [y Hy].
    rewrite (reg_some _ _ _ _ Ha), (reg_some _ _ _ _ Hb), (reg_some _ _ _ _ (nth_map _ _ _ _ _ _ Hx)),
      (reg_some _ _ _ _ (nth_map _ _ _ _ _ _ Hy)). cbn [rbind].
    unfold made. rewrite Hx, Hy, convert_id. unfold it_diff, p_diff. rewrite N.eqb_refl. cbn [rbind].
    apply IH; auto.
  - destruct Ha as [a [b [Ha [Hb [Hr Hk]]]]].
    destruct (nth_both _ _ _ _ _ _ Hl Ha) as [x Hx]. destruct (nth_both _ _ _ _ _ _ Hl Hb) as [y Hy].
    rewrite (reg_some _ _ _ _ Ha), (reg_some _ _ _ _ Hb), (reg_some _ _ _ _ (nth_map _ _ _ _ _ _ Hx)),
      (reg_some _ _ _ _ (nth_map _ _ _ _ _ _ Hy)). cbn [rbind].
    unfold made. rewrite Hx, Hy, (compared_eq g c a b (IAt o x) (IAt o y) Hr), compare_engaged. cbn [rbind].
    apply IH; auto.
  - destruct Ha as [a [Ha Hk]]. destruct (nth_both _ _ _ _ _ _ Hl Ha) as [x Hx].
    rewrite (reg_some _ _ _ _ (nth_map _ _ _ _ _ _ Hx)). cbn [rbind].
    unfold made. rewrite Hx. unfold it_star, checked, is_null, verify. cbn [negb].
    pose proof (valid_nth _ _ _ Hv Hx). assert (D : x = 0 \/ x = 1) by lia.
    destruct D; subst; cbn; [|exact I]. apply IH; auto.
  - destruct Ha as [a [Ha [_ Hk]]]. destruct (nth_both _ _ _ _ _ _ Hl Ha) as [x Hx].
    rewrite (reg_some _ _ _ _ (nth_map _ _ _ _ _ _ Hx)). cbn [rbind].
    unfold made. rewrite Hx. unfold it_star, checked, is_null, verify. cbn [negb].
    pose proof (valid_nth _ _ _ Hv Hx). assert (D : x = 0 \/ x = 1) by lia.
    destruct D; subst; cbn [p_deref rbind value_at Z.ltb Z.compare]; [|cbn; exact I].
    change (value_at [h o] 0) with (Some (h o)). cbn beta iota.
    change (with_value [h o] 0 v) with [v].
    apply (matches_after R o h (store h o v)).
    + intros x Hx'. unfold store. destruct (N.eqb_spec x o); congruence.
    + replace [v] with [store h o v o] by (unfold store; rewrite N.eqb_refl; reflexivity).
      apply IH; auto.
Qed.

(** An empty option. *)
Theorem mixed_empty : forall R g (p : mprog R) ts its h, length ts = length its -> zeros its -> accepted g p ts ->
  only_compares p -> exists r, mrun g p ts (nulls its) h = Ok (r, h) /\ expected p its [] = Ok (r, []).
Proof.
  induction p as [r|m i k IH|i k IH|i j k IH|i j k IH|c i j k IH|i k IH|i v k IH]; intros ts its h Hl Hv Ha Ho;
    cbn [only_compares] in Ho; try contradiction; cbn [mrun expected accepted] in *.
  - eauto.
  - destruct Ha as [a [Ha Hk]]. destruct (nth_both _ _ _ _ _ _ Hl Ha) as [x Hx].
    pose proof (zeros_nth _ _ _ Hv Hx); subst. unfold nulls at 1.
    rewrite (reg_some _ _ _ _ Ha), (reg_some _ _ _ _ (nth_map _ _ _ _ _ _ Hx)). cbn [rbind].
    unfold made. rewrite Hx, convert_id. change [INull] with (nulls [0]). unfold nulls. rewrite <- map_app.
    apply IH; [rewrite !app_length; cbn; lia| |exact Hk|exact Ho].
    apply Forall_app. split; [assumption|]. repeat constructor.
  - destruct Ha as [a [b [Ha [Hb [_ Hk]]]]]. destruct (nth_both _ _ _ _ _ _ Hl Hb) as [y Hy].
    pose proof (zeros_nth _ _ _ Hv Hy); subst. unfold nulls at 1.
    rewrite (reg_some _ _ _ _ Ha), (reg_some _ _ _ _ Hb), (reg_some _ _ _ _ (nth_map _ _ _ _ _ _ Hy)). cbn [rbind].
    unfold made. rewrite Hy, convert_id.
    unfold nulls. replace (set_nth (map (fun _ : Z => INull) its) i INull) with (map (fun _ : Z => INull) (set_nth its i 0))
      by (symmetry; exact (set_nth_map _ _ (fun _ : Z => INull) its i 0)).
    rewrite <- set_nth_split by (rewrite <- Hl; apply nth_error_Some; congruence).
    apply IH; [rewrite set_nth_length; assumption| |exact Hk|exact Ho].
    apply set_nth_all; [assumption|reflexivity].
  - destruct Ha as [a [b [Ha [Hb [_ Hk]]]]].
    destruct (nth_both _ _ _ _ _ _ Hl Ha) as [x Hx]. destruct (nth_both _ _ _ _ _ _ Hl Hb) as [y Hy].
    pose proof (zeros_nth _ _ _ Hv Hy); subst. pose proof (zeros_nth _ _ _ Hv Hx); subst. unfold nulls at 1 2.
    rewrite (reg_some _ _ _ _ Ha), (reg_some _ _ _ _ Hb), (reg_some _ _ _ _ (nth_map _ _ _ _ _ _ Hx)),
      (reg_some _ _ _ _ (nth_map _ _ _ _ _ _ Hy)). cbn [rbind].
    unfold made. rewrite Hx, Hy, convert_id. cbn [it_diff p_diff rbind].
    apply IH; auto.
  - destruct Ha as [a [b [Ha [Hb [Hr Hk]]]]].
    destruct (nth_both _ _ _ _ _ _ Hl Ha) as [x Hx]. destruct (nth_both _ _ _ _ _ _ Hl Hb) as [y Hy].
    pose proof (zeros_nth _ _ _ Hv Hy); subst. pose proof (zeros_nth _ _ _ Hv Hx); subst. unfold nulls at 1 2.
    rewrite (reg_some _ _ _ _ Ha), (reg_some _ _ _ _ Hb), (reg_some _ _ _ _ (nth_map _ _ _ _ _ _ Hx)),
      (reg_some _ _ _ _ (nth_map _ _ _ _ _ _ Hy)). cbn [rbind].
    unfold made. rewrite Hx, Hy, (compared_eq g c a b INull INull Hr).
    destruct c; try contradiction; cbn [do_compare it_eq it_ne it_le it_ge p_eqb p_cmp negb rbind answer Z.eqb Z.leb Z.geb Z.compare];
      apply IH; auto.
Qed.

Section Options.
Context {W : Type} (C : cls W) (S : sem C).

Theorem option_mixed : lawful C S -> forall o c, inv C S c ->
  exists b e, begin_ o c = Ret b /\ end_ o c = Ret e /\
    forall R g t (p : mprog R) h, accepted g p (start_types t) ->
      (c_alive c = true -> matches o h (mrun g p (start_types t) [b; e; b; e] h) (expected p [0; 1; 0; 1] [h o])) /\
      (c_alive c = false -> only_compares p -> exists r, mrun g p (start_types t) [b; e; b; e] h = Ok (r, h) /\
         expected p [0; 0; 0; 0] [] = Ok (r, [])).
Proof.
  intros L o c I. destruct (begin_end C S L o c I) as [Hb He]. do 2 eexists. split; [eassumption|].
  split; [eassumption|]. intros R g t p h Ha. split; intros A; rewrite A.
  - apply (mixed_engaged R g o p (start_types t) [0; 1; 0; 1] h); [reflexivity| |assumption].
    repeat constructor; lia.
  - intros Ho. apply (mixed_empty R g p (start_types t) [0; 0; 0; 0] h); [reflexivity| |assumption|assumption].
    repeat constructor.
Qed.
End Options.

(** Which operators compile. *)
Lemma direct_iff : forall a b, converts b a = true <-> a = b \/ a = add_const b.
Proof.
  intros a b. unfold converts. rewrite orb_true_iff, !same_elem_eq. intuition congruence.
Qed.

Theorem compares_iff : forall g c l r, resolve g c l r <> None <->
  (l = r \/ l = add_const r \/ (g = Cxx20 /\ (c = CEq \/ c = CNe) /\ r = add_const l)).
Proof.
  intros g c l r. unfold resolve. destruct (converts r l) eqn:D.
  - apply direct_iff in D. split; [intros _; tauto|discriminate].
  - assert (N : l <> r /\ l <> add_const r).
    { split; intros H; (assert (converts r l = true) by (apply direct_iff; auto)); congruence. }
    destruct c, g; try (split; [congruence|intros [H|[H|[H1 [[H2|H2] H3]]]]; try tauto; discriminate]);
      (destruct (converts l r) eqn:E;
        [ apply direct_iff in E; split; [intros _|discriminate]; destruct E as [E|E]; [subst; tauto|auto 6]
        | split; [congruence|]; intros [H|[H|[H1 [H2 H3]]]]; try tauto;
          assert (converts l r = true) by (apply direct_iff; auto); congruence ]).
Qed.

Theorem subtracts_iff : forall l r, subtracts l r = true <-> l = r \/ l = add_const r.
Proof. intros. apply direct_iff. Qed.

Theorem mixes_iff : forall g t, mixes g t <-> iterator t = const_iterator t.
Proof.
  intros g t. split.
  - intros H. destruct (H (iterator t) (const_iterator t)) as [_ D]; [left; reflexivity|right; left; reflexivity|].
    apply subtracts_iff in D. destruct D as [D|D]; [assumption|].
    rewrite D at 1. unfold const_iterator, add_const. destruct t; reflexivity.
  - intros E l r Hl Hr. rewrite <- E in *.
    assert (l = iterator t) by (cbn in Hl; intuition congruence).
    assert (r = iterator t) by (cbn in Hr; intuition congruence). subst. split.
    + intros c. apply compares_iff. auto.
    + apply subtracts_iff. auto.
Qed.

(** From const iterators of objects one never gets to write. *)
Lemma const_never_writes : forall R g (p : mprog R) ts, Forall (fun a => writable a = false) ts -> accepted g p ts ->
  never_writes p.
Proof.
  assert (N : forall ts i a, Forall (fun a => writable a = false) ts -> nth_error ts i = Some a -> writable a = false).
  { intros ts i a H E. apply nth_error_In in E. exact (proj1 (Forall_forall _ _) H a E). }
  induction p as [r|m i k IH|i k IH|i j k IH|i j k IH|c i j k IH|i k IH|i v k IH]; intros ts Hw Ha;
    cbn [accepted never_writes] in *.
  - exact I.
  - destruct Ha as [a [Ha Hk]]. apply (IH _ ) in Hk; [assumption|]. apply Forall_app. split; [assumption|].
    apply Forall_forall. intros x Hx. apply repeat_spec in Hx. subst. eauto.
  - destruct Ha as [a [Ha Hk]]. apply (IH _ ) in Hk; [assumption|]. apply Forall_app. split; [assumption|].
    constructor; [|constructor]. specialize (N _ _ _ Hw Ha). destruct a as [[]|[]]; auto.
  - destruct Ha as [a [b [_ [_ [_ Hk]]]]]. eauto.
  - destruct Ha as [a [b [_ [_ [_ Hk]]]]]. eauto.
  - destruct Ha as [a [b [_ [_ [_ Hk]]]]]. eauto.
  - destruct Ha as [a [_ Hk]]. eauto.
  - destruct Ha as [a [Ha [Hk _]]]. rewrite (N _ _ _ Hw Ha) in Hk. discriminate.
Qed.

Lemma read_only_memory : forall R g (p : mprog R) ts ps h r h', never_writes p -> mrun g p ts ps h = Ok (r, h') -> h' = h.
Proof.
  induction p as [r|m i k IH|i k IH|i j k IH|i j k IH|c i j k IH|i k IH|i v k IH]; intros ts ps h r' h' Hn H;
    cbn [never_writes mrun] in *;
    repeat match type of H with
           | rbind ?x _ = _ => destruct x as [?| |]; cbn [rbind] in H; try discriminate
           end; eauto; try contradiction.
  congruence.
Qed.

Theorem const_iterators_read : forall R g c (p : mprog R) its h r h',
  accepted g p [const_iterator (Object c); const_iterator (Object c)] ->
  mrun g p [const_iterator (Object c); const_iterator (Object c)] its h = Ok (r, h') -> h' = h.
Proof.
  intros R g c p its h r h' Ha H. eapply read_only_memory; [|exact H].
  eapply const_never_writes; [|exact Ha]. repeat constructor.
Qed.

Theorem mixes_which : forall g t, mixes g t <-> (t = Object true \/ exists c, t = Reference c).
Proof.
  intros g t. rewrite mixes_iff. unfold iterator, const_iterator. destruct t as [[]|c]; cbn.
  - intuition.
  - split; [discriminate|]. intros [H|[c H]]; discriminate.
  - split; [eauto|reflexivity].
Qed.

Lemma one_order :
  resolve Cxx17 CEq (iterator (Object false)) (const_iterator (Object false)) = None /\
  resolve P2468 CNe (iterator (Object false)) (const_iterator (Object false)) = None /\
  (forall g, resolve g CLt (iterator (Object false)) (const_iterator (Object false)) = None) /\
  subtracts (iterator (Object false)) (const_iterator (Object false)) = false /\
  (forall g c, resolve g c (const_iterator (Object false)) (iterator (Object false)) = Some Direct) /\
  subtracts (const_iterator (Object false)) (iterator (Object false)) = true.
Proof. repeat split; intros []; reflexivity. Qed.

Lemma reference_writes : exists (p : mprog unit) h',
  accepted Cxx17 p [const_iterator (Reference false); const_iterator (Reference false)] /\
  mrun Cxx17 p [const_iterator (Reference false); const_iterator (Reference false)] [IAt 64 0; IAt 64 1] (fun _ => 3) =
    Ok (tt, h') /\ h' 64%N = 7.
Proof.
  exists (MWrite 0 7 (MDone tt)). eexists. split; [|split; [reflexivity|reflexivity]].
  cbn. eexists. repeat split.
Qed.

Theorem assigns_iff : forall R g ts i j (k : mprog R), accepted g (MAssign i j k) ts <->
  exists a b, nth_error ts i = Some a /\ nth_error ts j = Some b /\ (a = b \/ a = add_const b) /\ accepted g k ts.
Proof.
  intros R g ts i j k. cbn [accepted]. split; intros (a & b & Ha & Hb & E & K); exists a, b; repeat split; auto;
    now apply direct_iff.
Qed.
Theorem writes_iff : forall R g ts i v (k : mprog R), accepted g (MWrite i v k) ts <->
  exists a, nth_error ts i = Some a /\ (a = Object false \/ a = Reference false) /\ accepted g k ts.
Proof.
  intros R g ts i v k. cbn [accepted]. split; intros (a & Ha & E & K); exists a; repeat split; auto.
  - destruct a as [[]|[]]; cbn in E; try discriminate; auto.
  - destruct E as [-> | ->]; reflexivity.
Qed.
