(** Proofs for PureCallsSpec.v. *)
From Coq Require Import List Bool Arith Lia.
From Verif Require Import PureCalls PureCallsSpec.
Import ListNotations.

Section Memory.
Context {M : Type}.
Variable c : bool.
Variable h : hooks M.

Lemma level_eq o m m' b : level_reads h -> level h o m = (m', b) -> m' = m.
Proof. intros H E. specialize (H o m). rewrite E in H. exact H. Qed.

Lemma verified_silent o m m' : level_reads h -> verified c h o m = Some m' -> m' = m.
Proof.
  intros H. unfold verified. destruct c; [|congruence].
  destruct (level h o m) as (n, b) eqn:E. apply (level_eq _ _ _ _ H) in E. subst. destruct b; congruence.
Qed.

Lemma get_silent o m m' a : level_reads h -> get_ c h o m = Some (m', a) -> m' = m.
Proof.
  intros H. unfold get_. destruct (verified c h o m) eqn:V; [|discriminate].
  apply (verified_silent _ _ _ H) in V. congruence.
Qed.

Lemma option_silent f o m m' a :
  on_option f = true -> level_reads h -> ask c h f o m = Some (m', a) -> m' = m.
Proof.
  intros O H. destruct f; try discriminate O; cbn [ask].
  - destruct (level h o m) eqn:E. apply (level_eq _ _ _ _ H) in E. congruence.
  - destruct (level h o m) eqn:E. apply (level_eq _ _ _ _ H) in E. congruence.
  - now apply get_silent.
  - unfold star_. destruct (verified c h o m) eqn:V; [|discriminate].
    apply (verified_silent _ _ _ H) in V. subst. now apply get_silent.
  - unfold star_. destruct (verified c h o m) eqn:V; [|discriminate].
    apply (verified_silent _ _ _ H) in V. subst. now apply get_silent.
  - congruence.
  - destruct (level h o m) as (n, b) eqn:E. apply (level_eq _ _ _ _ H) in E. subst.
    destruct b; [now apply get_silent | congruence].
  - congruence.
  - congruence.
  - destruct (none_ r s) as [[[]|]|]; [..|congruence];
      destruct (level h o m) eqn:E; apply (level_eq _ _ _ _ H) in E; congruence.
Qed.

Lemma container_silent f o m m' a :
  on_option f = false -> container_reads h -> ask c h f o m = Some (m', a) -> m' = m.
Proof.
  intros O H. destruct f; try discriminate O; cbn [ask];
    destruct (size h o m) as (m1, n) eqn:E;
    assert (m1 = m) as -> by (destruct (H o m) as (S & _); now rewrite E in S);
    destruct (H o m) as (_ & I & F & B).
  - destruct (n <=? i); [congruence|]. destruct (index h o i m) as (m2, x) eqn:X.
    specialize (I i). rewrite X in I. cbn in I. congruence.
  - destruct (n =? 0); [congruence|]. destruct (front h o m) as (m2, x) eqn:X. cbn in F. congruence.
  - destruct (n =? 0); [congruence|]. destruct (back h o m) as (m2, x) eqn:X. cbn in B. congruence.
Qed.

Lemma ask_silent f o m m' a :
  level_reads h -> container_reads h -> ask c h f o m = Some (m', a) -> m' = m.
Proof.
  intros L C E. destruct (on_option f) eqn:O; [now apply (option_silent f o m m' a) | now apply (container_silent f o m m' a)].
Qed.

Lemma none_answers r s o m :
  level_reads h -> ask c h (None_ r s) o m = Some (m, Bool (in_order r s (snd (level h o m)))).
Proof.
  intros H. cbn [ask]. destruct (level h o m) as (n, b) eqn:E. apply (level_eq _ _ _ _ H) in E. subst n.
  destruct r, s; cbn [none_]; destruct b; reflexivity.
Qed.

(** Known facts. *)
Definition valid (A : list fact) (s : state M) : Prop :=
  forall x f o, In (x, f, o) A -> ask c h f o (mem s) = Some (mem s, regs s x).

Lemma set_same x a r : set x a r x = a.
Proof. unfold set. now rewrite Nat.eqb_refl. Qed.

Lemma set_other x y a r : y <> x -> set x a r y = r y.
Proof. unfold set. intros H. apply Nat.eqb_neq in H. now rewrite H. Qed.

Lemma kill_in x y f o A : In (y, f, o) (kill x A) -> In (y, f, o) A /\ y <> x.
Proof.
  unfold kill. rewrite filter_In. cbn. intros (I & N). split; [exact I|].
  apply negb_true_iff, Nat.eqb_neq in N. exact N.
Qed.

Lemma valid_kill A s x a n : valid A s -> valid (kill x A) {| regs := set x a (regs s); mem := mem s; out := n |}.
Proof.
  intros V y f o I. apply kill_in in I as (I & N). cbn [mem regs]. rewrite set_other by exact N. now apply V.
Qed.

Lemma valid_ask A s x f o a n :
  valid A s -> ask c h f o (mem s) = Some (mem s, a) ->
  valid ((x, f, o) :: kill x A) {| regs := set x a (regs s); mem := mem s; out := n |}.
Proof.
  intros V E y g u [I|I].
  - injection I as <- <- <-. cbn [mem regs]. now rewrite set_same.
  - now apply (valid_kill A s x a n V).
Qed.

Lemma valid_nil s : valid [] s.
Proof. intros x f o []. Qed.

Lemma alike_set D (s t : state M) x a b n :
  alike D s t -> (D x = false -> a = b) ->
  alike D {| regs := set x a (regs s); mem := mem s; out := n |}
          {| regs := set x b (regs t); mem := mem t; out := n |}.
Proof.
  intros (A & B & R) E. repeat split; [exact A|]. cbn [regs]. intros y Dy. unfold set.
  destruct (y =? x) eqn:Q; [apply Nat.eqb_eq in Q; subst; auto | auto].
Qed.

Definition kept (D : nat -> bool) (q : list (stmt M)) (t : state M) (r : result M) : Prop :=
  match r with
  | Finished s' => exists t', exec c h q t (Finished t') /\ alike D s' t'
  | Failed => (forall x, D x = false) -> exec c h q t Failed
  end.

Lemma kept_by D q q' t t' r :
  (forall u, exec c h q t u -> exec c h q' t' u) -> kept D q t r -> kept D q' t' r.
Proof.
  intros H. destruct r; cbn; [|auto]. intros (u & E & A). eauto.
Qed.

Hypothesis L : level_reads h.
Hypothesis C : container_reads h.

Lemma better_kept D p s r : exec c h p s r -> forall A q t,
  better D A p q -> valid A s -> alike D s t -> kept D q t r.
Proof.
  intros E. induction E; intros A q t B V S.
  - (* nil *) inversion B; subst. cbn. exists t. split; [constructor|exact S].
  - (* ask *)
    pose proof (ask_silent _ _ _ _ _ L C H) as Q. subst m.
    assert (T : ask c h f o (mem t) = Some (mem t, a)) by (destruct S as (<- & _); exact H).
    assert (O : out s = out t) by (destruct S as (_ & O & _); exact O).
    inversion B; subst.
    + eapply kept_by; [intros u Hu; eapply E_ask; [exact T|exact Hu]|].
      eapply IHE; [eassumption | now apply valid_ask |]. rewrite O. apply alike_set; [|auto].
      destruct S as (S1 & S2 & S3). now repeat split.
    + eapply IHE; [eassumption | now apply valid_kill |].
      destruct S as (S1 & S2 & S3). repeat split; auto. cbn [regs]. intros y Dy.
      rewrite set_other; [auto|]. intros ->. congruence.
    + eapply kept_by; [intros u Hu; apply E_copy; exact Hu|].
      eapply IHE; [eassumption | now apply valid_kill |]. rewrite O. apply alike_set.
      * destruct S as (S1 & S2 & S3). now repeat split.
      * intros _. destruct S as (S1 & S2 & S3). rewrite <- S3 by assumption.
        match goal with I : In (_, f, o) A |- _ => apply V in I; rewrite H in I end. congruence.
  - (* ask fails *)
    assert (T : ask c h f o (mem t) = None) by (destruct S as (<- & _); exact H).
    cbn. intros N. inversion B; subst.
    + now apply E_ask_fail.
    + rewrite N in *. discriminate.
    + match goal with I : In (_, f, o) A |- _ => apply V in I; rewrite H in I end. discriminate.
  - (* copy *)
    inversion B; subst. eapply kept_by; [intros u Hu; apply E_copy; exact Hu|].
    assert (O : out s = out t) by (destruct S as (_ & O & _); exact O).
    eapply IHE; [eassumption | now apply valid_kill |]. rewrite O. apply alike_set.
    + exact S.
    + intros Dy. destruct S as (S1 & S2 & S3). apply S3.
      match goal with K : D x = false \/ D y = true |- _ => destruct K as [K|K]; [exact K|congruence] end.
  - (* change *)
    inversion B; subst. destruct S as (S1 & S2 & S3).
    assert (R : map (regs t) xs = map (regs s) xs).
    { apply map_ext_in. intros x I. symmetry. apply S3. auto. }
    eapply kept_by; [intros u Hu; eapply E_change; [rewrite R, <- S1; exact H|exact Hu]|].
    eapply IHE; [eassumption | apply valid_nil |]. now repeat split.
  - (* change fails *)
    inversion B; subst. destruct S as (S1 & S2 & S3). cbn. intros _. apply E_change_fail.
    assert (R : map (regs t) xs = map (regs s) xs).
    { apply map_ext_in. intros x I. symmetry. apply S3. auto. }
    now rewrite R, <- S1.
  - (* emit *)
    inversion B; subst. eapply kept_by; [intros u Hu; apply E_emit; exact Hu|].
    eapply IHE; [eassumption | exact V |]. destruct S as (S1 & S2 & S3). repeat split; auto. cbn [out].
    now rewrite S2, S3 by assumption.
  - (* if *)
    inversion B; subst. assert (R : regs s x = regs t x) by (destruct S as (_ & _ & S3); auto).
    assert (K : kept D (if truth (regs t x) then a' else b') t (Finished s')).
    { rewrite <- R. eapply IHE1; [|exact V|exact S]. now destruct (truth (regs s x)). }
    destruct K as (t' & Et & At).
    eapply kept_by; [intros u Hu; eapply E_if; [exact Et|exact Hu]|].
    eapply IHE2; [eassumption | apply valid_nil | exact At].
  - (* if fails *)
    inversion B; subst. assert (R : regs s x = regs t x) by (destruct S as (_ & _ & S3); auto).
    cbn. intros N. apply E_if_fail. rewrite <- R.
    refine (IHE A (if truth (regs s x) then a' else b') t _ V S N). now destruct (truth (regs s x)).
  - (* loop ends *)
    inversion B; subst. assert (R : regs s x = regs t x) by (destruct S as (_ & _ & S3); auto).
    eapply kept_by; [intros u Hu; apply E_loop_end; [now rewrite <- R|exact Hu]|].
    eapply IHE; [eassumption | apply valid_nil | exact S].
  - (* loop *)
    inversion B; subst. assert (R : regs s x = regs t x) by (destruct S as (_ & _ & S3); auto).
    match goal with K : better D [] a a' |- _ => destruct (IHE1 _ _ _ K (valid_nil _) S) as (t' & Et & At) end.
    eapply kept_by; [intros u Hu; eapply E_loop; [now rewrite <- R|exact Et|exact Hu]|].
    eapply (IHE2 []); [now constructor | apply valid_nil | exact At].
  - (* loop fails *)
    inversion B; subst. assert (R : regs s x = regs t x) by (destruct S as (_ & _ & S3); auto).
    cbn. intros N. apply E_loop_fail; [now rewrite <- R|].
    match goal with K : better D [] a a' |- _ => exact (IHE _ _ _ K (valid_nil _) S N) end.
Qed.

Lemma better_finishes D p q s s' t :
  better D [] p q -> finishes h c p s s' -> alike D s t -> exists t', finishes h c q t t' /\ alike D s' t'.
Proof. intros B E S. exact (better_kept D p s _ E [] q t B (valid_nil _) S). Qed.

Lemma merged_fails p q s :
  better (fun _ => false) [] p q -> exec c h p s Failed -> exec c h q s Failed.
Proof.
  intros B E. refine (better_kept _ p s _ E [] q s B (valid_nil _) _ (fun _ => eq_refl)).
  now repeat split.
Qed.

End Memory.
