(** Whole programs do what the documentation says. *)
From Coq Require Import NArith List Bool Lia.
From Verif Require Import Outcome Lifetime LifetimeSpec LifetimeFacts Api DocLang DocSnippets DocSpec DocFacts DocMembers DocProg.
Import ListNotations.

Lemma forall2_nth : forall X Y (R : X -> Y -> Prop) l m, Forall2 R l m -> forall i,
  match nth_error l i, nth_error m i with
  | Some x, Some y => R x y
  | None, None => True
  | _, _ => False
  end.
Proof. intros X Y R l m H. induction H as [ | x y l m Hx _ IH ]; intros [ | i ]; cbn; auto. apply IH. Qed.

Lemma forall2_set : forall X Y (R : X -> Y -> Prop) l m x y, Forall2 R l m -> R x y -> forall i, Forall2 R (set_nth i x l) (set_nth i y m).
Proof.
  intros X Y R l m x y H Hx. induction H as [ | x0 y0 l m H0 H IH ]; intros [ | i ]; cbn; constructor; auto.
Qed.

Section Machine.
Context {X Y W : Type} (R : X -> Y -> Prop).

Lemma one_same : forall (f : X -> W -> after (X * W)) (g : Y -> W -> after (Y * W)) i s t,
  (forall x y w, R x y -> after_same (fun p q => R (fst p) (fst q) /\ snd p = snd q) (f x w) (g y w)) ->
  related R s t -> after_same (related R) (one f i s) (one g i t).
Proof.
  intros f g i [l w] [m w'] H [H1 H2]. cbn in *. subst w'. unfold one. cbn. pose proof (forall2_nth _ _ _ _ _ H1 i) as Hn.
  destruct (nth_error l i) as [x | ], (nth_error m i) as [y | ]; try contradiction; cbn; [ | now split ].
  specialize (H x y w Hn). destruct (f x w) as [t [x' wx] | | ], (g y w) as [u [y' wy] | | ]; cbn in *; auto; try contradiction.
  destruct H as (-> & H & ->). split; [ reflexivity | ]. split; [ now apply forall2_set | reflexivity ].
Qed.

Lemma two_same : forall (f : X -> X -> W -> after (X * (X * W))) (g : Y -> Y -> W -> after (Y * (Y * W))) i j s t,
  (forall x x' y y' w, R x y -> R x' y' ->
    after_same (fun p q => R (fst p) (fst q) /\ R (fst (snd p)) (fst (snd q)) /\ snd (snd p) = snd (snd q)) (f x x' w) (g y y' w)) ->
  related R s t -> after_same (related R) (two f i j s) (two g i j t).
Proof.
  intros f g i j [l w] [m w'] H [H1 H2]. cbn in *. subst w'. unfold two. cbn. destruct (Nat.eqb i j); [ now split | ].
  pose proof (forall2_nth _ _ _ _ _ H1 i) as Hi. pose proof (forall2_nth _ _ _ _ _ H1 j) as Hj.
  destruct (nth_error l i) as [x | ], (nth_error m i) as [y | ]; try contradiction; cbn; [ | now split ].
  destruct (nth_error l j) as [x' | ], (nth_error m j) as [y' | ]; try contradiction; cbn; [ | now split ].
  specialize (H x x' y y' w Hi Hj).
  destruct (f x x' w) as [t [a [b wx]] | | ], (g y y' w) as [u [a' [b' wy]] | | ]; cbn in *; auto; try contradiction.
  destruct H as (-> & Ha & Hb & ->). split; [ reflexivity | ]. split; [ | reflexivity ]. cbn. apply forall2_set; [ | exact Hb ].
  now apply forall2_set.
Qed.

Lemma run_same : forall O P (Q : O -> P -> Prop) (f : O -> list X * W -> _) (g : P -> list Y * W -> _),
  (forall o p s t, Q o p -> related R s t -> after_same (related R) (f o s) (g p t)) ->
  forall os ps, Forall2 Q os ps -> forall s t, related R s t ->
  fst (run_all f os s) = fst (run_all g ps t) /\ after_same (related R) (snd (run_all f os s)) (snd (run_all g ps t)).
Proof.
  intros O P Q f g H os ps Hp. induction Hp as [ | o p os ps Ho _ IH ]; intros s t Hs; cbn.
  - split; [ reflexivity | now split ].
  - specialize (H o p s t Ho Hs). destruct (f o s) as [a s' | | ], (g p t) as [b t' | | ]; cbn in *; auto; try contradiction.
    destruct H as [-> H]. specialize (IH s' t' H). destruct (run_all f os s') as [l r], (run_all g ps t') as [l' r']. cbn in *.
    destruct IH as [-> IH]. now split.
Qed.
End Machine.

Lemma of_agree : forall P Q R (r e k : P -> Q -> Prop) (m : out P) (n : step Q R),
  agree (fun p _ q => r p q) e m n -> (forall p q, r p q -> k p q) -> (forall p q, e p q -> k p q) ->
  after_same k (of_out m) (of_step n).
Proof. intros P Q R r e k [p | p | | ] [a q | q | | ] H Hr He; cbn in *; auto; contradiction. Qed.

Lemma returns : forall S R (a : stmt S R) e s, match exec (seq a (return_ e)) s with Got None _ => False | _ => True end.
Proof. intros S R a e s. cbn. destruct (exec a s) as [[r | ] s' | s' | | ]; cbn; auto. destruct (eval e s'); cbn; auto. Qed.

Section One.
Context {W : Type} (C : cls W) (S : sem C) (A : dcls W) (R : raw C -> obj A -> Prop) (I : init C -> darg A -> Prop).
Hypothesis L : lawful C S.
Hypothesis Q : quiet C S.
Hypothesis M : same C S A R I.
Notation orel := (orel S R).
Notation srel := (srel C S A R).

Lemma step_same : forall o p s t, same_op I o p -> related orel s t ->
  after_same (related orel) (model_step C o s) (doc_step A p t).
Proof.
  intros o p s t Ho Hs. destruct Ho; cbn [model_step doc_step].
  - apply one_same; [ | exact Hs ]. intros x y w Hx. eapply of_agree; [ exact (value_assignment_rel C S A R I L Q M _ _ _ _ w H Hx) | auto | auto ].
  - apply one_same; [ | exact Hs ]. intros x y w Hx. eapply of_agree; [ exact (emplace_rel C S A R I L Q M _ _ _ _ w H Hx) | auto | auto ].
  - apply one_same; [ | exact Hs ]. intros x y w Hx. eapply of_agree; [ exact (try_emplace_rel C S A R I L Q M _ _ _ _ w H Hx) | auto | auto ].
  - apply one_same; [ | exact Hs ]. intros x y w Hx. pose proof (or_assign_value_rel C S A R I L Q M _ _ _ _ w H Hx) as K.
    assert (N : match exec (or_assign_value A b) (y, w) with Got None _ => False | _ => True end).
    { apply returns. }
    destruct (a_or_assign C (IVal a) x w) as [u | u | | ], (exec (or_assign_value A b) (y, w)) as [[r | ] v | v | | ]; cbn in *; auto; try contradiction.
  - apply one_same; [ | exact Hs ]. intros x y w Hx. pose proof (reset_rel C S A R I L M x y w Hx) as K.
    destruct (o_reset C x w) as [u | u | | ], (destroy_in A world1 here (y, w)) as [r v | v | | ]; cbn in *; auto; try contradiction.
    destruct K as (K1 & K2 & K3). auto.
  - apply two_same; [ | exact Hs ]. intros x x' y y' w Hx Hy. unfold with_source.
    pose proof (copy_assignment_rel C S A R I L Q M _ _ _ _ w Hy Hx) as K.
    destruct (o_cassign C x' x w) as [[u wu] | [u wu] | | ], (exec (copy_assignment A) (y, (y', w))) as [r [v [v' wv]] | [v [v' wv]] | | ]; cbn in *; auto; try contradiction;
      destruct K as (K1 & -> & K3); auto.
  - apply two_same; [ | exact Hs ]. intros x x' y y' w Hx Hy. eapply of_agree; [ exact (move_assignment_rel C S A R I L Q M _ _ _ _ w Hy Hx) | | ];
      intros p q (K1 & K2 & K3); auto.
  - apply two_same; [ | exact Hs ]. intros x x' y y' w Hx Hy. unfold with_source.
    pose proof (or_assign_copy_rel C S A R I L Q M _ _ _ _ w Hy Hx) as K.
    assert (N : match exec (or_assign A Lvalue) (y, (y', w)) with Got None _ => False | _ => True end).
    { apply returns. }
    destruct (a_or_assign_copy C x' x w) as [[u wu] | [u wu] | | ], (exec (or_assign A Lvalue) (y, (y', w))) as [[r | ] [v [v' wv]] | [v [v' wv]] | | ];
      cbn in *; auto; try contradiction; destruct K as (K1 & -> & K3); auto.
  - apply two_same; [ | exact Hs ]. intros x x' y y' w Hx Hy.
    pose proof (or_assign_move_rel C S A R I L Q M _ _ _ _ w Hy Hx) as K.
    assert (N : match exec (or_assign A Rvalue) (y, (y', w)) with Got None _ => False | _ => True end).
    { apply returns. }
    destruct (a_or_assign_move C x (x', w)) as [u | u | | ], (exec (or_assign A Rvalue) (y, (y', w))) as [[r | ] v | v | | ];
      cbn in *; auto; try contradiction; destruct K as (K1 & K2 & K3); auto.
  - apply two_same; [ | exact Hs ]. intros x x' y y' w Hx Hy. eapply of_agree; [ exact (swap_rel C S A R I L Q M _ _ _ _ w Hx Hy) | | ];
      intros p q (K1 & K2 & K3); auto.
Qed.

Theorem programs_same : forall os ps, Forall2 (same_op I) os ps -> forall s t, related orel s t ->
  fst (run_all (model_step C) os s) = fst (run_all (doc_step A) ps t) /\
  after_same (related orel) (snd (run_all (model_step C) os s)) (snd (run_all (doc_step A) ps t)).
Proof. exact (run_same orel _ _ (same_op I) _ _ step_same). Qed.
End One.

Lemma run_all_records : forall W X O (step : O -> list X * W -> after (list X * W)) p s,
  (forall o t s', step o s = Next t s' ->
     run_all step (o :: p) s = (t :: fst (run_all step p s'), snd (run_all step p s'))) /\
  (forall o, step o s = Ended -> run_all step (o :: p) s = ([], Ended)) /\
  (forall o, step o s = Broken -> run_all step (o :: p) s = ([], Broken)) /\
  run_all step [] s = ([], Next false s).
Proof.
  intros W X O step p s. split; [|split; [|split; [|reflexivity]]]; intros o; intros; cbn; rewrite H; [|reflexivity|reflexivity].
  now destruct (run_all step p s').
Qed.
