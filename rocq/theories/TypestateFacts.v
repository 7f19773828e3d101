(** Proofs about the typestate annotations. *)
From Coq Require Import NArith ZArith Bool Arith List Lia.
From Verif Require Import Outcome Lifetime LifetimeSpec LifetimeFacts History HistorySpec HistoryFacts
  LifetimeLemmas Typestate TypestateSpec.
Import ListNotations.

Definition has {V} (o : option V) : bool := match o with Some _ => true | None => false end.

Lemma put_nth : forall A (l : list A) x v y b, nth_error (put l x v) y = Some b ->
  (x = y /\ b = v) \/ (x <> y /\ nth_error l y = Some b).
Proof.
  intros A l x v y b H. destruct (Nat.eq_dec x y) as [<-|N].
  - left. split; [reflexivity|]. destruct (nth_error l x) as [a|] eqn:E.
    + rewrite (put_same _ _ _ _ _ E) in H. congruence.
    + assert (L : (length l <= x)%nat) by now apply nth_error_None.
      rewrite <- (length_put _ l x v) in L. apply nth_error_None in L. congruence.
  - right. rewrite put_other in H by congruence. auto.
Qed.

Section Facts.
Context {W : Type} {C : cls W} {Sm : sem C} (L : lawful C Sm).
Notation V := (V Sm).

(** What the states promise: [G]. *)
Section Promise.
Variable G : tstate -> bool -> Prop.
Hypothesis G_unknown : forall h, G Unknown h.
Hypothesis G_consumed : G Consumed true.
Hypothesis G_unconsumed : G Unconsumed false.

Definition rep (e : knowledge) (a : avars C Sm) : Prop := forall x o, at_ C Sm a x o -> G (e x) (has o).

Lemma rep_know : forall e a x s (o : option V), rep e a -> G s (has o) -> rep (know e x s) (set_ C Sm a x o).
Proof.
  intros e a x s o R Ho y o' Hy. unfold at_, set_ in Hy. unfold know.
  apply put_nth in Hy as [[<- E]|[N E]].
  - rewrite Nat.eqb_refl. now injection E as ->.
  - apply Nat.eqb_neq in N. rewrite N. now apply R.
Qed.
Lemma rep_forget : forall e a x, rep e a -> rep (know e x Unknown) a.
Proof.
  intros e a x R y o Hy. unfold know. destruct (Nat.eqb x y); [apply G_unknown|now apply R].
Qed.
Lemma rep_drop : forall e a x s, rep e a -> rep (know e x s) (put a x None).
Proof.
  intros e a x s R y o Hy. unfold at_ in Hy. unfold know.
  apply put_nth in Hy as [[_ E]|[N E]]; [discriminate E|].
  apply Nat.eqb_neq in N. rewrite N. now apply R.
Qed.
Lemma rep_here : forall e a x s o, rep e a -> at_ C Sm a x o -> G s (has o) -> rep (know e x s) a.
Proof. intros e a x s o R H Ho. rewrite <- (at_id C Sm a x o H). now apply rep_know. Qed.

Lemma same_has : forall v v' : option V, same_state C Sm v v' -> has v = has v'.
Proof. intros [v|] [v'|] [H1 H2]; cbn; auto; [specialize (H2 eq_refl)|specialize (H1 eq_refl)]; discriminate. Qed.
Lemma rel_has : forall R (v v' : option V), opt_rel R v v' -> has v = has v'.
Proof. intros R [v|] [v'|] H; cbn in *; auto; contradiction. Qed.
Lemma at_fun : forall a x (o o' : option V), at_ C Sm a x o -> at_ C Sm a x o' -> o = o'.
Proof. unfold at_. intros. congruence. Qed.
Lemma at_other : forall a x y (o v : option V), x <> y -> at_ C Sm a y o -> at_ C Sm (set_ C Sm a x v) y o.
Proof. unfold at_, set_. intros. rewrite put_other; auto. Qed.
Lemma free_ne : forall a x y (o : option V), free_ C Sm a x -> at_ C Sm a y o -> x <> y.
Proof. unfold free_, at_. intros a x y o H1 H2 ->. congruence. Qed.

(** An exception. *)
Lemma throws_rep : forall cl o a a' e, throws C Sm o a a' -> rep e a -> rep (after cl o true e) a'.
Proof.
  assert (U : forall e a x (o : option V), rep e a -> rep (know e x Unknown) (set_ C Sm a x o))
    by (intros; apply rep_know; auto).
  intros cl o a a' e T R.
  destruct o as [x i g|x y g|x y g|nrvo x y g|nrvo p pr x y g|x|x i|x y|x y|x|x i|x i|x y|x y|x y|x f fr];
    cbn [throws after] in *; try contradiction.
  - destruct T as [_ ->]. exact R.
  - destruct T as [_ ->]. exact R.
  - destruct T as (_ & v & v' & _ & ->). auto.
  - destruct nrvo; destruct T as (_ & v & v' & _ & ->); auto.
  - destruct T as (_ & v & v' & _ & _ & ->). auto.
  - destruct T as (v & v' & _ & _ & ->). auto.
  - destruct T as (v & v' & s & _ & _ & _ & ->). auto.
  - destruct T as (v & v' & s & s' & _ & _ & _ & _ & ->). auto.
  - destruct T as (v & _ & ->). auto.
  - destruct T as (_ & ->). now apply rep_forget.
  - destruct T as (v & s & _ & _ & ->). auto.
  - destruct T as (v & v' & s & _ & _ & _ & ->). auto.
  - destruct T as (v & v' & s & s' & _ & _ & _ & _ & _ & ->). auto.
  - destruct T as (v & v' & H & ->). intros y o Hy. unfold at_, set_ in Hy.
    apply put_nth in Hy as [[<- E]|[N E]]; [|now apply R].
    injection E as ->. exact (R x (Some v) H).
Qed.

(** Calls whose rules are the same for both analyses, or safe under the condition. *)
Variable cl : bool.
Definition allowed (e : knowledge) (o : call C Sm) : Prop :=
  match o with
  | Reset x | Swap x _ => cl = true -> G (e x) true /\ G (e x) false
  | NewTakeIf _ _ _ x y _ => cl = true -> G (e y) true /\ G (e y) false
  | NewMove _ y _ => cl = true -> e y = Consumed
  | MoveAssign x y => cl = true -> x = y \/ e y = Consumed
  | _ => True
  end.

Hypothesis G_default : forall h, cl = true -> G consumable h.
Hypothesis G_keeps : forall h, G Consumed h -> h = true.

Lemma any : forall s h, G s true /\ G s false -> G s h.
Proof. intros s [|] [H1 H2]; assumption. Qed.

Lemma result_any : forall f h, return_typestate f = None -> G (result cl f) h.
Proof. intros f h E. unfold result. rewrite E. destruct cl; [now apply G_default|apply G_unknown]. Qed.

Lemma returns_rep : forall o a a' e, allowed e o -> returns C Sm o a a' -> rep e a ->
  rep (after cl o false e) a'.
Proof.
  intros o a a' e A T R.
  destruct o as [x i g|x y g|x y g|nrvo x y g|nrvo p pr x y g|x|x i|x y|x y|x|x i|x i|x y|x y|x y|x f fr];
    cbn [returns after allowed] in *.
  - destruct T as (_ & v & D & ->). apply rep_know; [exact R|].
    destruct i as [|i|[i|]]; cbn [ctor_fn odenotes] in *.
    + subst v. exact G_unconsumed.
    + destruct D as (v' & -> & _). exact G_consumed.
    + now apply result_any.
    + now apply result_any.
  - destruct T as (_ & v & H & ->). apply rep_know; [exact R|now apply R].
  - destruct T as (_ & v & v' & H & M & ->).
    apply rep_know; [apply rep_know; [exact R|]|now apply R].
    rewrite <- (rel_has _ _ _ M). unfold moved. destruct cl; [|now apply R].
    pose proof (R y v H) as Gv. rewrite (A eq_refl) in Gv. now rewrite (G_keeps _ Gv).
  - destruct T as (_ & v & H & ->).
    apply rep_know; [apply rep_know; [exact R|exact G_unconsumed]|]. apply G_unknown.
  - destruct T as (_ & T).
    assert (Ho : forall h v, at_ C Sm a y v -> has v = true -> G (object cl DoTakeIf (e y)) h).
    { intros h v Hy Hv. unfold object. cbn. destruct cl; [apply any, A; reflexivity|apply G_unknown]. }
    destruct T as [(H & ->)|[(v & v' & H & _ & ->)|(v & v' & H & _ & ->)]].
    + apply rep_know; [|now apply result_any].
      apply (rep_here e a y _ None R H). unfold object. cbn. destruct cl; [apply (R y None H)|apply G_unknown].
    + apply rep_know; [|now apply result_any]. apply rep_know; [exact R|]. exact (Ho _ _ H eq_refl).
    + apply rep_know; [|now apply result_any]. apply rep_know; [exact R|]. exact (Ho _ _ H eq_refl).
  - destruct T as (v & _ & ->). now apply rep_drop.
  - destruct T as (v & v' & _ & D & ->).
    destruct i as [|i|[i|]]; cbn [odenotes] in *; apply rep_know; auto.
    + subst v'. exact G_unconsumed.
    + destruct D as (v1 & -> & _). exact G_consumed.
  - destruct T as (v & v' & _ & H & ->). apply rep_know; [exact R|now apply R].
  - destruct T as [(<- & v & v' & H & M & ->)|(N & v0 & v & v' & H0 & H & M & ->)].
    + assert (E : forall z, know (know e x (moved cl (e x))) x (e x) z = know e x (e x) z)
        by (intros z; unfold know; now destruct (Nat.eqb x z)).
      intros z o Hz. rewrite E. revert z o Hz. apply rep_know; [exact R|].
      rewrite <- (rel_has _ _ _ M). now apply R.
    + apply rep_know; [apply rep_know; [exact R|]|now apply R].
      rewrite <- (rel_has _ _ _ M). unfold moved. destruct cl; [|now apply R].
      pose proof (R y v H) as Gv. destruct (A eq_refl) as [E|E]; [contradiction|].
      rewrite E in Gv. now rewrite (G_keeps _ Gv).
  - destruct T as (v & H & ->). apply rep_know; [exact R|]. unfold object. cbn.
    destruct cl; [apply any, A; reflexivity|apply G_unknown].
  - destruct T as (v & v' & _ & _ & ->). apply rep_know; [exact R|exact G_consumed].
  - destruct T as [(v & H & ->)|(H & v' & _ & ->)].
    + apply (rep_here e a x _ (Some v) R H). exact G_consumed.
    + apply rep_know; [exact R|exact G_consumed].
  - destruct T as (v & v' & _ & _ & ->). apply rep_know; [exact R|exact G_consumed].
  - destruct T as (v & v' & _ & _ & ->). apply rep_know; [exact R|exact G_consumed].
  - destruct T as (v & v' & H & H' & ->). destruct (Nat.eqb x y) eqn:Exy.
    + apply Nat.eqb_eq in Exy. subst y.
      unfold set_. rewrite put_put. apply (rep_know e a x Unknown v' R). apply G_unknown.
    + apply rep_know; [apply rep_know; [exact R|apply G_unknown]|]. unfold object. cbn.
      destruct cl; [apply any, A; reflexivity|apply G_unknown].
  - destruct T as (v & v' & H & _ & ->). intros y o Hy. unfold at_, set_ in Hy.
    apply put_nth in Hy as [[<- E]|[N E]]; [|now apply R].
    injection E as ->. exact (R x (Some v) H).
Qed.
End Promise.

(** Concrete states. *)
Lemma rep_slot : forall (G : tstate -> bool -> Prop) e l, healthy C Sm l -> rep G e (values C Sm l) ->
  forall x c, slot l x = Some c -> o_has C c = Ok (c_alive c) /\ G (e x) (c_alive c).
Proof.
  intros G e l H R x c Hx. destruct (healthy_observed _ C Sm l L H x c Hx) as (H1 & _ & H3).
  split; [exact H1|]. specialize (R x _ H3). unfold oval in R. destruct (c_alive c); exact R.
Qed.
Lemma slot_rep : forall (G : tstate -> bool -> Prop) e l, healthy C Sm l ->
  (forall x c, slot l x = Some c -> forall h, o_has C c = Ok h -> G (e x) h) -> rep G e (values C Sm l).
Proof.
  intros G e l H R x o Hx. unfold at_, values in Hx. rewrite nth_error_map in Hx.
  destruct (nth_error l x) as [[c|]|] eqn:E; cbn in Hx; try discriminate. injection Hx as <-.
  pose proof (nth_slot C l x c E) as Hs. destruct (healthy_observed _ C Sm l L H x c Hs) as (H1 & _ & _).
  specialize (R x c Hs _ H1). unfold oval. destruct (c_alive c); exact R.
Qed.

Lemma path_rep : forall (G : tstate -> bool -> Prop) cl,
  (forall h, G Unknown h) -> G Consumed true -> G Unconsumed false ->
  (forall h, cl = true -> G consumable h) -> (forall h, G Consumed h -> h = true) ->
  forall p l w l' w' e, healthy C Sm l -> calls p (fair C Sm) -> calls p (gentle C Sm) ->
  (fix ok p e := match p with
   | [] => True
   | Do o k :: p => (k = false -> allowed G cl e o) /\ ok p (after cl o k e)
   | Saw x b :: p => ok p (know e x (tested b))
   end) p e ->
  takes C Sm p l w l' w' -> rep G e (values C Sm l) ->
  healthy C Sm l' /\ rep G (analysed cl p e) (values C Sm l').
Proof.
  intros G cl G1 G2 G3 G4 G5. induction p as [|[o k|x b] p IH]; intros l w l' w' e H F Q A T R; cbn in T.
  - destruct T as [-> ->]. cbn. auto.
  - destruct T as (l1 & w1 & E & T). inversion F as [|? ? Fo Fp]; inversion Q as [|? ? Qo Qp]; subst.
    destruct A as [A1 A2]. pose proof (step_ok C Sm L o l w H Fo Qo) as S. rewrite E in S.
    assert (S' : healthy C Sm l1 /\
      if k then throws C Sm o (values C Sm l) (values C Sm l1) else returns C Sm o (values C Sm l) (values C Sm l1))
      by (destruct k; cbn in S; tauto).
    destruct S' as [H1 S']. cbn [analysed]. apply (IH l1 w1 l' w' (after cl o k e)); auto.
    destruct k; [now apply throws_rep with (a := values C Sm l)|apply returns_rep with (a := values C Sm l); auto].
  - destruct T as ((c & Hc & Hb) & T). inversion F; inversion Q; subst. cbn [analysed].
    apply (IH l w l' w' (know e x (tested b))); auto.
    destruct (rep_slot G e l H R x c Hc) as [E _]. rewrite Hb in E. injection E as ->.
    destruct (healthy_observed _ C Sm l L H x c Hc) as (_ & _ & E3).
    apply (rep_here G e (values C Sm l) x _ (oval C Sm c) R E3). unfold oval. destruct (c_alive c); assumption.
Qed.

(** The cautious analysis. *)
Lemma promises_keeps : forall h, promises Consumed h -> h = true. Proof. auto. Qed.
Theorem sound : forall p l w l' w' e, healthy C Sm l -> calls p (fair C Sm) -> calls p (gentle C Sm) ->
  truthful C e l -> takes C Sm p l w l' w' -> healthy C Sm l' /\ truthful C (analysed false p e) l'.
Proof.
  intros p l w l' w' e H F Q T P.
  destruct (path_rep promises false (fun _ => I) eq_refl eq_refl ltac:(discriminate) promises_keeps p l w l' w' e H F Q) as [H' R]; auto.
  - clear. revert e. induction p as [|[o k|x b] p IH]; intros e; [exact I| |apply IH].
    split; [|apply IH]. intros _. destruct o; cbn; try exact I; discriminate.
  - apply slot_rep; [exact H|]. intros x c Hx h Hh. destruct (T x c Hx) as (h' & E & Ph). congruence.
  - split; [exact H'|]. intros x c Hx. exists (c_alive c). exact (rep_slot promises _ _ H' R x c Hx).
Qed.

Lemma silent_access : forall o l w e, healthy C Sm l -> fair C Sm o -> gentle C Sm o ->
  hopeful l e -> silent o e = true -> step C Sm o l w = SAbort -> stops Sm.
Proof.
  intros o l w e H F Q T S E. pose proof (step_ok C Sm L o l w H F Q) as P. rewrite E in P. cbn in P.
  destruct P as [B|M]; [exact B|exfalso].
  assert (X : exists x, accessed o = Some x /\ at_ C Sm (values C Sm l) x None).
  { destruct o; cbn in M; try contradiction; cbn; eauto. }
  destruct X as (x & Ex & Hx). unfold silent in S. rewrite Ex in S. cbn in S.
  destruct (e x) eqn:Ek; try discriminate.
  unfold at_, values in Hx. rewrite nth_error_map in Hx.
  destruct (nth_error l x) as [[c|]|] eqn:Ec; cbn in Hx; try discriminate. injection Hx as Hc.
  pose proof (nth_slot C l x c Ec) as Hs. destruct (healthy_observed _ C Sm l L H x c Hs) as (H1 & _ & _).
  specialize (T x c Hs Ek). unfold oval in Hc. destruct (c_alive c); [discriminate|congruence].
Qed.

Lemma truthful_hopeful : forall e l, truthful C e l -> hopeful l e.
Proof. intros e l T x c Hx E. destruct (T x c Hx) as (h & Eh & P). rewrite E in P. cbn in P. congruence. Qed.

Lemma accepted_last : forall cl (p : list (event C Sm)) o e, accepted cl p o e = true -> silent o (analysed cl p e) = true.
Proof.
  induction p as [|[o' k|x b] p IH]; intros o e H; cbn in *; auto.
  apply andb_true_iff in H as [_ H]. now apply IH.
Qed.

Theorem accepted_safe : forall p o l w l' w' e, healthy C Sm l -> calls p (fair C Sm) -> calls p (gentle C Sm) ->
  fair C Sm o -> gentle C Sm o -> truthful C e l -> takes C Sm p l w l' w' ->
  accepted false p o e = true -> step C Sm o l' w' = SAbort -> stops Sm.
Proof.
  intros p o l w l' w' e H F Q Fo Qo T P A E. destruct (sound p l w l' w' e H F Q T P) as [H' T'].
  apply (silent_access o l' w' (analysed false p e)); auto; [now apply truthful_hopeful|now apply accepted_last].
Qed.

(** Clang's rules. *)
Definition hope (s : tstate) (h : bool) : Prop := s = Consumed -> h = true.
Theorem clang_hopeful : forall p l w l' w' e, healthy C Sm l -> calls p (fair C Sm) -> calls p (gentle C Sm) ->
  hopeful l e -> fitting p e -> takes C Sm p l w l' w' -> healthy C Sm l' /\ hopeful l' (analysed true p e).
Proof.
  intros p l w l' w' e H F Q T Fit P.
  destruct (path_rep hope true ltac:(discriminate) ltac:(intros _; reflexivity) ltac:(discriminate)
    ltac:(discriminate) ltac:(intros h K; now apply K) p l w l' w' e H F Q) as [H' R]; auto.
  - clear - Fit. revert e Fit. induction p as [|[o k|x b] p IH]; intros e Fit; cbn [fitting] in Fit; [exact I| |now apply IH].
    destruct Fit as [F1 F2]. split; [|now apply IH].
    intros _. destruct o; cbn in *; auto; intros _; unfold hope; split; intros K; congruence.
  - apply slot_rep; [exact H|]. intros x c Hx h Hh K. specialize (T x c Hx K). congruence.
  - split; [exact H'|]. intros x c Hx K. destruct (rep_slot hope _ _ H' R x c Hx) as [E G]. now rewrite (G K) in E.
Qed.
Theorem clang_safe : forall p o l w l' w' e, healthy C Sm l -> calls p (fair C Sm) -> calls p (gentle C Sm) ->
  fair C Sm o -> gentle C Sm o -> hopeful l e -> fitting p e -> takes C Sm p l w l' w' ->
  accepted true p o e = true -> step C Sm o l' w' = SAbort -> stops Sm.
Proof.
  intros p o l w l' w' e H F Q Fo Qo T Fit P A E. destruct (clang_hopeful p l w l' w' e H F Q T Fit P) as [H' T'].
  apply (silent_access o l' w' (analysed true p e)); auto. now apply accepted_last.
Qed.

(** Each annotation is true. *)
Theorem annotation_true : forall o l w l' w' x s, healthy C Sm l -> fair C Sm o -> gentle C Sm o ->
  step C Sm o l w = SRet l' w' -> annotation o = Some (x, s) ->
  exists c h, slot l' x = Some c /\ o_has C c = Ok h /\ promises s h.
Proof.
  intros o l w l' w' x s H F Q E A. pose proof (step_ok C Sm L o l w H F Q) as P. rewrite E in P. cbn in P.
  destruct P as (H' & R & _).
  assert (X : exists v, at_ C Sm (values C Sm l') x v /\ promises s (has v)).
  { assert (P0 : forall a (v v' : option V) z, at_ C Sm a z v' -> at_ C Sm (set_ C Sm a z v) z v)
      by (unfold at_, set_; intros; eapply put_same; eauto).
    assert (P1 : forall a (v : option V) z, free_ C Sm a z -> at_ C Sm (set_ C Sm a z v) z v)
      by (unfold at_, free_, set_; intros; eapply put_same; eauto).
    destruct o as [z i g|z y g|z y g|nrvo z y g|nrvo p pr z y g|z|z i|z y|z y|z|z i|z i|z y|z y|z y|z f fr];
      try discriminate A; cbn [returns] in R.
    - destruct R as (Hf & v & D & Ev). rewrite Ev. destruct i as [|i|i]; cbn in A; try discriminate;
        injection A as <- <-; exists v; (split; [now apply P1|]); cbn in D.
      + now subst v.
      + now destruct D as (v' & -> & _).
    - injection A as <- <-. destruct R as (Hf & v & Hy & Ev). rewrite Ev. exists None. split; [|reflexivity].
      apply at_other; [eapply free_ne; eauto|]. eapply P0; eauto.
    - destruct R as (v & v' & Hz & D & Ev). rewrite Ev. destruct i as [|i|i]; cbn in A; try discriminate;
        injection A as <- <-; exists v'; (split; [eapply P0; eauto|]); cbn in D.
      + now subst v'.
      + now destruct D as (v1 & -> & _).
    - injection A as <- <-. destruct R as (v & v' & Hz & D & Ev). rewrite Ev. exists (Some v'). split; [eapply P0; eauto|reflexivity].
    - injection A as <- <-. destruct R as [(v & Hz & Ev)|(Hz & v' & D & Ev)]; rewrite Ev.
      + exists (Some v). split; [exact Hz|reflexivity].
      + exists (Some v'). split; [eapply P0; eauto|reflexivity].
    - injection A as <- <-. destruct R as (v & v' & Hz & D & Ev). rewrite Ev. exists (Some v'). split; [eapply P0; eauto|reflexivity].
    - injection A as <- <-. destruct R as (v & v' & Hz & D & Ev). rewrite Ev. exists (Some v'). split; [eapply P0; eauto|reflexivity]. }
  destruct X as (v & Hx & Pv). unfold at_, values in Hx. rewrite nth_error_map in Hx.
  destruct (nth_error l' x) as [[c|]|] eqn:Ec; cbn in Hx; try discriminate. injection Hx as Hc.
  pose proof (nth_slot C l' x c Ec) as Hs. destruct (healthy_observed _ C Sm l' L H' x c Hs) as (H1 & _ & _).
  exists c, (c_alive c). split; [exact Hs|]. split; [exact H1|].
  subst v. unfold oval in Pv. destruct (c_alive c); exact Pv.
Qed.

(** The analyses use exactly these annotations. *)
Lemma annotation_used : forall cl (o : call C Sm) x s e, annotation o = Some (x, s) ->
  (match o with NewTake _ z y _ => z <> y | _ => True end) -> after cl o false e x = s.
Proof.
  intros cl o x s e A N.
  destruct o as [z [|i|i] g|z y g|z y g|nrvo z y g|nrvo p pr z y g|z|z [|i|i]|z y|z y|z|z i|z i|z y|z y|z y|z f fr];
    cbn in A; try discriminate; injection A as <- <-; cbn; unfold know; try (rewrite Nat.eqb_refl; reflexivity).
  apply Nat.eqb_neq in N. rewrite N, Nat.eqb_refl. reflexivity.
Qed.
End Facts.
