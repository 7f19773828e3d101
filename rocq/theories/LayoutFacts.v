(** Computed layouts meet every condition that the byte layer puts on layouts. *)
From Coq Require Import ZArith NArith List Bool Lia.
From Verif Require Import Outcome Words WordsFacts Ints Types OptBytes OptBytesFacts TypesSpec TypesFacts Lifetime History ByteClass ByteProg ByteProgSpec
  ByteProgFacts Alias AliasSpec AliasFacts Layout LayoutSpec.
Import ListNotations.
Open Scope nat_scope.

(** Powers of two. *)
Lemma pow2_pos a : pow2 a -> 0 < a.
Proof. intros (k & ->). pose proof (Nat.pow_nonzero 2 k). lia. Qed.
Lemma pow2_divide a b : pow2 a -> pow2 b -> a <= b -> Nat.divide a b.
Proof.
  intros (i & ->) (j & ->) H. destruct (Nat.le_gt_cases i j) as [L|G].
  - exists (2 ^ (j - i)). rewrite <- Nat.pow_add_r. f_equal. lia.
  - pose proof (Nat.pow_lt_mono_r 2 j i ltac:(lia) G). lia.
Qed.
Lemma pow2_max a b : pow2 a -> pow2 b -> pow2 (Nat.max a b).
Proof. intros Ha Hb. destruct (Nat.max_spec a b) as [(_ & ->)|(_ & ->)]; assumption. Qed.

Lemma round_up_divide n a : Nat.divide a (round_up n a).
Proof. unfold round_up. exists ((n + a - 1) / a). reflexivity. Qed.

(** Members laid out one after the other. *)
Lemma lay_snd ts : forall off, map snd (fst (lay off ts)) = ts.
Proof.
  induction ts as [|t ts IH]; intros off; cbn [lay]; [reflexivity|]. specialize (IH (round_up off (alignof t) + sizeof t)).
  destruct (lay _ ts) as [fs e]. cbn in *. now rewrite IH.
Qed.
Lemma lay_length ts off : length (fst (lay off ts)) = length ts.
Proof. rewrite <- (map_length snd), lay_snd. reflexivity. Qed.

Lemma lay_bounds ts : forall off, Forall (fun t => 0 < alignof t) ts ->
  off <= snd (lay off ts) /\
  forall i o t, nth_error (fst (lay off ts)) i = Some (o, t) ->
    off <= o /\ o + sizeof t <= snd (lay off ts) /\ Nat.divide (alignof t) o /\ nth_error ts i = Some t.
Proof.
  induction ts as [|t ts IH]; intros off Ha; cbn [lay].
  - split; [cbn; lia|]. intros [|i] o t H; discriminate.
  - inversion Ha as [|? ? H1 H2]; subst. pose proof (round_up_ge off (alignof t) H1) as Hr.
    destruct (IH (round_up off (alignof t) + sizeof t) H2) as (A & B). destruct (lay _ ts) as [fs e]. cbn [fst snd] in *.
    split; [lia|]. intros [|i] o u H; cbn in H.
    + injection H as <- <-. split; [lia|]. split; [lia|]. split; [apply round_up_divide|reflexivity].
    + destruct (B i o u H) as (B1 & B2 & B3 & B4). split; [lia|]. auto.
Qed.

Lemma lay_apart ts : forall off, Forall (fun t => 0 < alignof t) ts -> forall i j oi ti oj tj, i < j ->
  nth_error (fst (lay off ts)) i = Some (oi, ti) -> nth_error (fst (lay off ts)) j = Some (oj, tj) -> oi + sizeof ti <= oj.
Proof.
  induction ts as [|t ts IH]; intros off Ha i j oi ti oj tj L Hi Hj; cbn [lay] in *; [destruct i; discriminate|].
  inversion Ha as [|? ? H1 H2]; subst. pose proof (lay_bounds ts (round_up off (alignof t) + sizeof t) H2) as (_ & B).
  specialize (IH (round_up off (alignof t) + sizeof t) H2).
  destruct (lay _ ts) as [fs e]. cbn [fst snd] in *. destruct j as [|j]; [lia|]. destruct i as [|i]; cbn in Hi, Hj.
  - injection Hi as <- <-. apply (B j oj tj Hj).
  - apply (IH i j oi ti oj tj); [lia|exact Hi|exact Hj].
Qed.

Lemma lay_differ ts off : Forall (fun t => 0 < alignof t) ts -> forall i j oi ti oj tj, i <> j ->
  nth_error (fst (lay off ts)) i = Some (oi, ti) -> nth_error (fst (lay off ts)) j = Some (oj, tj) ->
  oi + sizeof ti <= oj \/ oj + sizeof tj <= oi.
Proof.
  intros Ha i j oi ti oj tj N Hi Hj. destruct (Nat.lt_ge_cases i j) as [L|G].
  - left. exact (lay_apart ts off Ha i j _ _ _ _ L Hi Hj).
  - right. apply (lay_apart ts off Ha j i _ _ _ _ ltac:(lia) Hj Hi).
Qed.

(** Alignment and size of a struct. *)
Lemma struct_align_pow2 ts : Forall (fun t => pow2 (alignof t)) ts -> pow2 (struct_align ts).
Proof.
  induction 1 as [|t ts H _ IH]; cbn [struct_align fold_right]; [exists 0; reflexivity|]. now apply pow2_max.
Qed.
Lemma struct_align_in ts t : Forall (fun t => pow2 (alignof t)) ts -> In t ts -> Nat.divide (alignof t) (struct_align ts).
Proof.
  intros H Hin. apply pow2_divide; [rewrite Forall_forall in H; auto|now apply struct_align_pow2|].
  clear H. induction ts as [|u ts IH]; [contradiction|]. cbn [struct_align fold_right].
  destruct Hin as [->|Hin]; [lia|]. specialize (IH Hin). unfold struct_align in IH. lia.
Qed.
Lemma struct_layout ts : Forall (fun t => pow2 (alignof t)) ts -> wf_layout (struct_size ts) (struct_align ts).
Proof.
  intros H. pose proof (pow2_pos _ (struct_align_pow2 ts H)) as Hp. unfold struct_size.
  pose proof (round_up_ge (Nat.max 1 (snd (lay 0 ts))) (struct_align ts) Hp).
  split; [lia|]. split; [exact Hp|]. apply round_up_divide.
Qed.
Lemma pow2_aligned ts : Forall (fun t => pow2 (alignof t)) ts -> Forall (fun t => 0 < alignof t) ts.
Proof. apply Forall_impl. intros t. apply pow2_pos. Qed.
Lemma struct_bounds ts : Forall (fun t => pow2 (alignof t)) ts ->
  forall i o t, nth_error (fst (lay 0 ts)) i = Some (o, t) -> o + sizeof t <= struct_size ts.
Proof.
  intros H i o t E. destruct (proj2 (lay_bounds ts 0 (pow2_aligned ts H)) i o t E) as (_ & B & _).
  pose proof (round_up_ge (Nat.max 1 (snd (lay 0 ts))) (struct_align ts) (pow2_pos _ (struct_align_pow2 ts H))).
  unfold struct_size. lia.
Qed.

(** Induction over declarations. *)
Section Ind.
Context (P : decl -> Prop) (H1 : forall t, P (DType t)) (H2 : forall d, P d -> P (DComplex d))
  (H3 : forall a b, P a -> P b -> P (DPair a b)) (H4 : forall r ds, Forall P ds -> P (DTuple r ds))
  (H5 : forall n d, P d -> P (DArray n d)) (H6 : forall x d y, Forall P x -> P d -> Forall P y -> P (DMember x d y))
  (H7 : forall d, P d -> P (DEnforce d)) (H8 : forall d, P d -> P (DOption d)).
Fixpoint decl_induct (d : decl) : P d :=
  let all := fix all (l : list decl) : Forall P l :=
    match l with [] => Forall_nil P | d :: l => Forall_cons d (decl_induct d) (all l) end in
  match d with
  | DType t => H1 t
  | DComplex d => H2 d (decl_induct d)
  | DPair a b => H3 a b (decl_induct a) (decl_induct b)
  | DTuple r ds => H4 r ds (all ds)
  | DArray n d => H5 n d (decl_induct d)
  | DMember x d y => H6 x d y (all x) (decl_induct d) (all y)
  | DEnforce d => H7 d (decl_induct d)
  | DOption d => H8 d (decl_induct d)
  end.
End Ind.

Lemma declared_all l : (fix all l := match l with [] => True | d :: l => declared d /\ all l end) l -> Forall declared l.
Proof. induction l as [|d l IH]; intros H; [constructor|]. destruct H as (H1 & H2). constructor; auto. Qed.

(** The list form of the member conditions of [wf]. *)
Lemma wf_members fs n : (forall i o t, nth_error fs i = Some (o, t) -> wf t /\ o + sizeof t <= n) ->
  (fix all (l : list (nat * ty)) : Prop := match l with [] => True | (o, ft) :: l' => (wf ft /\ (o + sizeof ft <= n)%nat) /\ all l' end) fs.
Proof.
  induction fs as [|[o t] fs IH]; intros H; [exact I|]. split; [exact (H 0 o t eq_refl)|]. apply IH. intros i. exact (H (S i)).
Qed.

Lemma nth_error_rev {A} (l : list A) i x : nth_error (rev l) i = Some x -> i < length l /\ nth_error l (length l - S i) = Some x.
Proof.
  intros H. assert (L : i < length (rev l)) by (apply nth_error_Some; congruence). rewrite rev_length in L. split; [exact L|].
  revert i H L. induction l as [|a l IH]; intros i H L; [cbn in L; lia|]. cbn [rev length] in *.
  destruct (Nat.lt_ge_cases i (length l)) as [G|G].
  - rewrite nth_error_app1 in H by (rewrite rev_length; exact G). replace (S (length l) - S i) with (S (length l - S i)) by lia.
    cbn. apply IH; [exact H|lia].
  - rewrite nth_error_app2 in H by (rewrite rev_length; exact G). rewrite rev_length in H.
    replace (S (length l) - S i) with 0 by lia. replace (i - length l) with 0 in H by lia. exact H.
Qed.

Definition good (t : ty) : Prop := wf t /\ pow2 (alignof t).
Lemma good_pow2 ts : Forall good ts -> Forall (fun t => pow2 (alignof t)) ts.
Proof. apply Forall_impl. intros t (_ & H). exact H. Qed.

Lemma pair_shape t1 t2 : exists o2, pair_of t1 t2 = TPair 0 t1 o2 t2 (struct_size [t1; t2]) (struct_align [t1; t2]) /\
  fst (lay 0 [t1; t2]) = [(0, t1); (o2, t2)].
Proof.
  unfold pair_of. cbn [lay]. assert (round_up 0 (alignof t1) = 0) as ->.
  { unfold round_up. destruct (alignof t1) as [|a] eqn:E; [reflexivity|]. rewrite Nat.div_small; lia. }
  cbn [fst]. eauto.
Qed.

Lemma pair_good t1 t2 : good t1 -> good t2 -> good (pair_of t1 t2).
Proof.
  intros G1 G2. destruct (pair_shape t1 t2) as (o2 & -> & E).
  assert (Hp : Forall (fun t => pow2 (alignof t)) [t1; t2]) by (apply good_pow2; apply Forall_cons; [exact G1|apply Forall_cons; [exact G2|apply Forall_nil]]).
  pose proof (struct_bounds _ Hp 0 0 t1) as B1. pose proof (struct_bounds _ Hp 1 o2 t2) as B2. rewrite E in B1, B2.
  split; [|exact (struct_align_pow2 _ Hp)]. split; [exact (struct_layout _ Hp)|].
  split; split; [apply G1|now apply B1|apply G2|now apply B2].
Qed.

Lemma tuple_fields r ts : Forall good ts -> exists fs, tuple_of r ts = TTuple fs (sizeof (tuple_of r ts)) (alignof (tuple_of r ts)) /\
  wf_layout (sizeof (tuple_of r ts)) (alignof (tuple_of r ts)) /\ pow2 (alignof (tuple_of r ts)) /\
  (forall i o t, nth_error fs i = Some (o, t) -> o + sizeof t <= sizeof (tuple_of r ts) /\ Nat.divide (alignof t) o /\ nth_error ts i = Some t /\
     Nat.divide (alignof t) (alignof (tuple_of r ts))) /\
  (forall i j oi ti oj tj, i <> j -> nth_error fs i = Some (oi, ti) -> nth_error fs j = Some (oj, tj) ->
     oi + sizeof ti <= oj \/ oj + sizeof tj <= oi).
Proof.
  intros G. pose proof (good_pow2 ts G) as Hp. destruct r; unfold tuple_of; cbn [sizeof alignof].
  - assert (Hr : Forall (fun t => pow2 (alignof t)) (rev ts)) by (apply Forall_rev; exact Hp).
    exists (rev (fst (lay 0 (rev ts)))). split; [reflexivity|]. split; [exact (struct_layout _ Hr)|].
    split; [exact (struct_align_pow2 _ Hr)|]. split.
    + intros i o t H. apply nth_error_rev in H as (L & H). rewrite lay_length, rev_length in *.
      destruct (proj2 (lay_bounds _ 0 (pow2_aligned _ Hr)) _ o t H) as (_ & _ & B3 & B4).
      split; [exact (struct_bounds _ Hr _ o t H)|]. split; [exact B3|]. split.
      * apply nth_error_rev in B4 as (_ & B4). replace (length ts - S (length ts - S i)) with i in B4 by lia. exact B4.
      * apply struct_align_in; [exact Hr|]. exact (nth_error_In _ _ B4).
    + intros i j oi ti oj tj N Hi Hj. apply nth_error_rev in Hi as (Li & Hi). apply nth_error_rev in Hj as (Lj & Hj).
      eapply (lay_differ (rev ts) 0 (pow2_aligned _ Hr)); [|exact Hi|exact Hj]. lia.
  - exists (fst (lay 0 ts)). split; [reflexivity|]. split; [exact (struct_layout _ Hp)|]. split; [exact (struct_align_pow2 _ Hp)|]. split.
    + intros i o t H. destruct (proj2 (lay_bounds _ 0 (pow2_aligned _ Hp)) _ o t H) as (_ & _ & B3 & B4).
      split; [exact (struct_bounds _ Hp _ o t H)|]. split; [exact B3|]. split; [exact B4|].
      apply struct_align_in; [exact Hp|]. exact (nth_error_In _ _ B4).
    + intros i j oi ti oj tj N Hi Hj. exact (lay_differ ts 0 (pow2_aligned _ Hp) _ _ _ _ _ _ N Hi Hj).
Qed.

Lemma tuple_good r ts : Forall good ts -> good (tuple_of r ts).
Proof.
  intros G. destruct (tuple_fields r ts G) as (fs & E & W & P & F & _). split; [|exact P]. rewrite E. cbn [wf sizeof alignof].
  split; [exact W|]. apply wf_members. intros i o t H. destruct (F i o t H) as (F1 & _ & F3 & _). split; [|exact F1].
  rewrite Forall_forall in G. apply G. exact (nth_error_In _ _ F3).
Qed.

Lemma member_good x t y : Forall good x -> good t -> Forall good y -> good (member_of x t y).
Proof.
  intros Gx Gt Gy. assert (G : Forall good (x ++ t :: y)) by (apply Forall_app; split; [exact Gx|constructor; assumption]).
  pose proof (good_pow2 _ G) as Hp. unfold member_of.
  destruct (nth_error (fst (lay 0 (x ++ t :: y))) (length x)) as [[o u]|] eqn:E.
  - destruct (proj2 (lay_bounds _ 0 (pow2_aligned _ Hp)) _ o u E) as (_ & _ & _ & B).
    rewrite nth_error_app2, Nat.sub_diag in B by lia. cbn in B. injection B as <-.
    split; [|exact (struct_align_pow2 _ Hp)]. split; [exact (struct_layout _ Hp)|]. split; [apply Gt|]. exact (struct_bounds _ Hp _ o _ E).
  - exfalso. apply nth_error_None in E. rewrite lay_length, app_length in E. cbn in E. lia.
Qed.

Lemma layout_good d : declared d -> good (layout d).
Proof.
  induction d as [t|d IH|a b IHa IHb|r ds IH|n d IH|x d y IHx IHd IHy|d IH|d IH] using decl_induct; cbn [declared layout]; intros H.
  - split; apply H.
  - exact (IH H).
  - apply pair_good; tauto.
  - apply tuple_good. apply declared_all in H. apply Forall_map. rewrite Forall_forall in *. auto.
  - exact (IH H).
  - destruct H as (Hx & Hd & Hy). apply declared_all in Hx, Hy.
    apply member_good; [|auto|]; apply Forall_map; rewrite Forall_forall in *; auto.
  - destruct H as (H & M). destruct (IH H) as (W & P). split; [split; [exact W|exact M]|exact P].
  - destruct H as (H & M). destruct (IH H) as (W & P). split; [split; [exact W|exact M]|exact P].
Qed.

(** A member of a declared type is declared, aligned, and apart from the others. *)
Lemma field_declared d i o t : declared d -> field (layout d) i = Some (o, t) ->
  apart (layout d) /\ Nat.divide (alignof t) o /\ Nat.divide (alignof t) (alignof (layout d)) /\ exists d', declared d' /\ t = layout d'.
Proof.
  intros D H. destruct d as [u|d|a b|r ds|n d|x d y|d|d]; cbn [layout declared] in *.
  - exfalso. destruct D as (D & _). destruct u; cbn in *; try discriminate; contradiction.
  - destruct (layout_good d D) as (W & P). pose proof (align_divides _ W) as Dv. unfold field in *. cbn [fields] in *. split; [|].
    + intros i' j oi ti oj tj N Hi Hj. unfold field in *. cbn [fields] in *.
      destruct i' as [|[|i']], j as [|[|j]]; cbn in Hi, Hj; try (destruct i'; discriminate); try (destruct j; discriminate); try lia;
        injection Hi as <- <-; injection Hj as <- <-; lia.
    + destruct i as [|[|i]]; cbn in H; try (destruct i; discriminate); injection H as <- <-; cbn [alignof]; (split; [|split; [apply Nat.divide_refl|eauto]]).
      * exists 0. reflexivity.
      * exact Dv.
  - destruct D as (Da & Db). destruct (pair_shape (layout a) (layout b)) as (o2 & E & F). rewrite E in *. unfold field in H. cbn [fields] in H.
    assert (Hp : Forall (fun t => pow2 (alignof t)) [layout a; layout b]) by (apply good_pow2; apply Forall_cons; [now apply layout_good|apply Forall_cons; [now apply layout_good|apply Forall_nil]]).
    pose proof (lay_bounds _ 0 (pow2_aligned _ Hp)) as (_ & B). pose proof (lay_differ _ 0 (pow2_aligned _ Hp)) as A. rewrite F in B, A. split.
    + intros i' j oi ti oj tj N Hi Hj. unfold field in Hi, Hj. cbn [fields] in Hi, Hj. exact (A _ _ _ _ _ _ N Hi Hj).
    + destruct (B i o t H) as (_ & _ & B3 & B4). split; [exact B3|]. cbn [alignof]. split.
      * apply struct_align_in; [exact Hp|exact (nth_error_In _ _ B4)].
      * destruct i as [|[|i]]; cbn in B4; [injection B4 as <-; eauto|injection B4 as <-; eauto|destruct i; discriminate].
  - apply declared_all in D. assert (G : Forall good (map layout ds)).
    { apply Forall_map. revert D. apply Forall_impl. exact layout_good. }
    destruct (tuple_fields r (map layout ds) G) as (fs & E & _ & _ & F & A). rewrite E in *. unfold field in H. cbn [fields] in H. split.
    + intros i' j oi ti oj tj N Hi Hj. unfold field in Hi, Hj. cbn [fields] in Hi, Hj. exact (A _ _ _ _ _ _ N Hi Hj).
    + destruct (F i o t H) as (_ & F2 & F3 & F4). split; [exact F2|]. cbn [alignof] in *. split; [exact F4|].
      rewrite nth_error_map in F3. destruct (nth_error ds i) as [d'|] eqn:N; [|discriminate]. injection F3 as <-.
      exists d'. split; [|reflexivity]. rewrite Forall_forall in D. apply D. exact (nth_error_In _ _ N).
  - destruct (layout_good d D) as (W & P). pose proof (align_divides _ W) as Dv. unfold field in H. cbn [fields] in H. split.
    + intros i' j oi ti oj tj N Hi Hj. unfold field in Hi, Hj. cbn [fields] in Hi, Hj. rewrite nth_error_map in Hi, Hj.
      assert (X : forall k z, option_map (fun i => (i * sizeof (layout d), layout d)) (nth_error (seq 0 n) k) = Some z -> z = (k * sizeof (layout d), layout d)).
      { intros k z Hk. destruct (nth_error (seq 0 n) k) as [q|] eqn:Q; [|discriminate]. pose proof (nth_error_nth _ _ 0 Q) as Z.
        assert (L : k < n). { rewrite <- (seq_length n 0). apply nth_error_Some. congruence. }
        rewrite seq_nth in Z by exact L. cbn in Z. subst q. injection Hk as <-. reflexivity. }
      apply X in Hi, Hj. injection Hi as -> ->. injection Hj as -> ->. nia.
    + rewrite nth_error_map in H. destruct (nth_error (seq 0 n) i) as [q|]; [|discriminate]. injection H as <- <-. cbn [alignof].
      split; [|split; [apply Nat.divide_refl|eauto]]. now apply Nat.divide_mul_r.
  - exfalso. unfold member_of in H. destruct (nth_error _ _) as [[? ?]|]; discriminate.
  - discriminate.
  - discriminate.
Qed.

Lemma deref_declared d t : declared d -> layout d = TOption t -> exists d', declared d' /\ t = layout d'.
Proof.
  intros D E. destruct d as [u|d|a b|r ds|n d|x d y|d|d]; cbn [layout declared] in *; try discriminate.
  - destruct D as (D & _). subst u. contradiction.
  - unfold tuple_of in E. destruct r; discriminate.
  - unfold member_of in E. destruct (nth_error _ _) as [[? ?]|]; discriminate.
  - injection E as <-. exists d. split; [apply D|reflexivity].
Qed.

(** Paths. *)
Lemma path_declared p : forall d t, declared d -> ty_at p (layout d) = Some t ->
  clear_path p (layout d) /\ Nat.divide (alignof t) (offset p (layout d)) /\ Nat.divide (alignof t) (alignof (layout d)).
Proof.
  induction p as [|[|i] p IH]; intros d t D H; cbn [ty_at clear_path offset] in *.
  - injection H as <-. split; [exact I|]. split; [exists 0; reflexivity|apply Nat.divide_refl].
  - destruct (layout d) as [] eqn:E; try discriminate. destruct (deref_declared d _ D E) as (d' & D' & ->). cbn [alignof]. now apply IH.
  - destruct (field (layout d) i) as [[o u]|] eqn:F; [|discriminate].
    destruct (field_declared d i o u D F) as (A & B & C & d' & D' & ->). destruct (IH d' t D' H) as (I1 & I2 & I3).
    split; [split; assumption|]. split.
    + apply Nat.divide_add_r; [|exact I2]. exact (Nat.divide_trans _ _ _ I3 B).
    + exact (Nat.divide_trans _ _ _ I3 C).
Qed.

(** Variables. *)
Section Vars.
Context (ds : list decl) (Hd : Forall declared ds).
Let env := variables ds.

Lemma variables_pow2 : Forall (fun t => pow2 (alignof t)) (map layout ds).
Proof. apply Forall_map. revert Hd. apply Forall_impl. intros d H. exact (proj2 (layout_good d H)). Qed.

Lemma variable_declared x o u : nth_error env x = Some (o, u) ->
  exists d, nth_error ds x = Some d /\ declared d /\ u = layout d /\ Nat.divide (alignof u) o.
Proof.
  intros H. destruct (proj2 (lay_bounds _ 0 (pow2_aligned _ variables_pow2)) x o u H) as (_ & _ & B3 & B4).
  rewrite nth_error_map in B4. destruct (nth_error ds x) as [d|] eqn:E; [|discriminate]. injection B4 as <-.
  exists d. split; [reflexivity|]. split; [|auto]. rewrite Forall_forall in Hd. apply Hd. exact (nth_error_In _ _ E).
Qed.

Lemma variables_laid_out : laid_out env (extent ds).
Proof.
  split.
  - intros x o u H. split.
    + destruct (variable_declared x o u H) as (d & _ & D & -> & _). apply (layout_good d D).
    + apply (proj2 (lay_bounds _ 0 (pow2_aligned _ variables_pow2)) x o u H).
  - intros x y o u o' u' N H H'. exact (lay_differ _ 0 (pow2_aligned _ variables_pow2) x y _ _ _ _ N H H').
Qed.

Lemma every_place_clear p t : place_ty env p = Some t -> clear_place env p /\ Nat.divide (alignof t) (base env p).
Proof.
  unfold place_ty, clear_place, base. destruct (nth_error env (fst p)) as [[o u]|] eqn:E; [|discriminate]. intros H.
  destruct (variable_declared _ _ _ E) as (d & _ & D & -> & A). destruct (path_declared (snd p) d t D H) as (C & B1 & B2).
  split; [exact C|]. apply Nat.divide_add_r; [|exact B1]. exact (Nat.divide_trans _ _ _ B2 A).
Qed.

Lemma well_typed_rtyped r : well_typed env r -> rtyped env r.
Proof.
  assert (O : forall p t, has_ty env p (TOption t) -> is_option env p t).
  { intros p t H. split; [apply (every_place_clear p _ H)|exact H]. }
  assert (C : forall p t, has_ty env p t -> clear_place env p) by (intros p t H; apply (every_place_clear p t H)).
  destruct r as [[]| | | |]; cbn [well_typed rtyped typed]; unfold has_ty in *; intros H; auto; destruct H as (t & H);
    exists t; try (destruct H as (H & H')); repeat split; eauto.
Qed.

Lemma declared_run k rs m a : sized (extent ds) m -> represents env m a -> Forall (well_typed env) rs ->
  match rsrun env rs a with
  | (tr, SDone a' _) => exists m', rrun k env rs m = (tr, Ok m') /\ sized (extent ds) m' /\ represents env m' a' /\
      forall i, elsewhere env i -> nth_error m' i = nth_error m i
  | (tr, SStop) => rrun k env rs m = (tr, Verify)
  | (_, SWrong) => True
  end.
Proof.
  intros Hm Hr Ht. apply rrun_ok; [exact variables_laid_out|exact Hm|exact Hr|].
  revert Ht. apply Forall_impl. exact well_typed_rtyped.
Qed.
End Vars.
