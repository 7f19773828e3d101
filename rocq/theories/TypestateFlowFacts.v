(** Proofs about the typestate analysis of programs with branches and loops. *)
From Coq Require Import NArith ZArith Bool Arith List Lia.
From Verif Require Import Outcome Lifetime LifetimeSpec LifetimeFacts History HistorySpec HistoryFacts
  LifetimeLemmas Typestate TypestateSpec TypestateFacts TypestateFlow TypestateFlowSpec.
Import ListNotations.

Lemma same_tstate_eq : forall a b, same_tstate a b = true -> a = b.
Proof. now intros [| |] [| |]. Qed.

Section Facts.
Context {W : Type} {C : cls W} {Sm : sem C} (L : lawful C Sm).

Lemma takes_app : forall p q l w l' w', takes C Sm (p ++ q) l w l' w' ->
  exists l1 w1, takes C Sm p l w l1 w1 /\ takes C Sm q l1 w1 l' w'.
Proof.
  induction p as [|[o k|x b] p IH]; intros q l w l' w' T; cbn [app takes] in *.
  - exists l, w. auto.
  - destruct T as (l1 & w1 & E & T). destruct (IH _ _ _ _ _ T) as (l2 & w2 & T1 & T2).
    exists l2, w2. split; [|exact T2]. now exists l1, w1.
  - destruct T as (E & T). destruct (IH _ _ _ _ _ T) as (l2 & w2 & T1 & T2).
    exists l2, w2. auto.
Qed.

Lemma path_calls : forall (P : call C Sm -> Prop) s p r, path s p r -> all_calls P s -> calls p P.
Proof.
  intros P s p r H. unfold calls.
  induction H; cbn [all_calls]; intros A; repeat (apply Forall_app; split); auto;
    try (destruct A; auto; fail); try (constructor; auto; fail).
  all: try (constructor; [exact I|]); try (destruct A; auto; fail); auto.
  apply Forall_app; split; auto.
Qed.
Lemma comes_to_calls : forall (P : call C Sm -> Prop) s p o, comes_to s p o -> all_calls P s -> calls p P /\ P o.
Proof.
  intros P s p o H. unfold calls.
  induction H; cbn [all_calls]; intros A; try (destruct A as [A1 A2]);
    repeat match goal with
    | I : ?X -> _ /\ _, K : ?X |- _ => destruct (I K); clear I
    | I : all_calls P (While _ _ _) -> _, K : all_calls P _ |- _ => destruct (I K); clear I
    | I : all_calls P (Repeat _) -> _, K : all_calls P _ |- _ => destruct (I K); clear I
    | I : path ?a _ _, K : all_calls P ?a |- _ => pose proof (path_calls P _ _ _ I K); clear I
    end; unfold calls in *; split; auto; repeat (apply Forall_app; split); auto.
  all: constructor; auto. apply Forall_app; auto.
Qed.

Lemma truthful_nothing : forall l, healthy C Sm l -> truthful C nothing l.
Proof.
  intros l H x c Hx. destruct (healthy_observed _ C Sm l L H x c Hx) as (H1 & _ & _). eexists. split; [exact H1|exact I].
Qed.
Lemma truthful_only : forall vs e l, truthful C e l -> truthful C (only vs e) l.
Proof.
  intros vs e l T x c Hx. destruct (T x c Hx) as (h & E & P). exists h. split; [exact E|].
  unfold only. destruct (existsb _ vs); [exact P|exact I].
Qed.
Lemma truthful_agree : forall vs e f l, agree vs (only vs e) f = true -> truthful C f l -> truthful C (only vs e) l.
Proof.
  intros vs e f l A T x c Hx. destruct (T x c Hx) as (h & E & P). exists h. split; [exact E|].
  unfold agree in A. rewrite forallb_forall in A. unfold only at 1. destruct (existsb (Nat.eqb x) vs) eqn:K; [|exact I].
  pose proof K as K1. apply existsb_exists in K1 as (y & Hy & Ey). apply Nat.eqb_eq in Ey. subst y.
  specialize (A x Hy). apply same_tstate_eq in A. unfold only in A. rewrite K in A. now rewrite A.
Qed.
Lemma truthful_meet_left : forall e f l, truthful C e l -> exists g, meet (Some e) f = Some g /\ truthful C g l.
Proof.
  intros e [f|] l T; cbn; [|now exists e]. eexists. split; [reflexivity|].
  intros x c Hx. destruct (T x c Hx) as (h & E & P). exists h. split; [exact E|].
  destruct (same_tstate (e x) (f x)); [exact P|exact I].
Qed.
Lemma truthful_meet_right : forall e f l, truthful C f l -> exists g, meet e (Some f) = Some g /\ truthful C g l.
Proof.
  intros [e|] f l T; cbn; [|now exists f]. eexists. split; [reflexivity|].
  intros x c Hx. destruct (T x c Hx) as (h & E & P). exists h. split; [exact E|].
  destruct (same_tstate (e x) (f x)) eqn:K; [|exact I]. apply same_tstate_eq in K. now rewrite K.
Qed.
Lemma truthful_learn : forall e l x b c, truthful C e l -> slot l x = Some c -> o_has C c = Ok b ->
  exists g, learn x b e = Some g /\ truthful C g l.
Proof.
  intros e l x b c T Hx Hb. destruct (T x c Hx) as (h & Eh & P). rewrite Hb in Eh. injection Eh as <-.
  unfold learn. destruct (e x) eqn:K; cbn [promises] in P.
  - eexists. split; [reflexivity|]. intros y c' Hy. unfold know. destruct (Nat.eqb x y) eqn:Exy; [|now apply T].
    apply Nat.eqb_eq in Exy. subst y. rewrite Hx in Hy. injection Hy as <-. exists b. split; [exact Hb|].
    now destruct b.
  - subst b. cbn. now exists e.
  - subst b. cbn. now exists e.
Qed.

Variable vs : list nat.
Notation flow := (flow (C := C) (Sm := Sm) false vs).
Definition fg (o : call C Sm) : Prop := fair C Sm o /\ gentle C Sm o.

Lemma path_healthy : forall s p r l w l' w', path s p r -> all_calls fg s -> healthy C Sm l ->
  takes C Sm p l w l' w' -> healthy C Sm l'.
Proof.
  intros s p r l w l' w' P A H T.
  pose proof (path_calls _ _ _ _ P A) as K. unfold calls in K.
  refine (proj1 (sound L p l w l' w' nothing H _ _ (truthful_nothing l H) T)).
  - eapply Forall_impl; [|exact K]. intros [o k|x b]; [intros [F _]; exact F|auto].
  - eapply Forall_impl; [|exact K]. intros [o k|x b]; [intros [_ F]; exact F|auto].
Qed.

(** What holds after a path that went through. *)
Definition after_ok (s : stmt C Sm) : Prop :=
  forall p l w l' w' e, path s p Through -> all_calls fg s -> healthy C Sm l -> truthful C e l ->
  takes C Sm p l w l' w' -> fst (flow s (Some e)) = true ->
  exists e', snd (flow s (Some e)) = Some e' /\ truthful C e' l'.

Lemma while_step : forall x ans a e, after_ok a ->
  forall e0, e0 = only vs e ->
  fst (flow (While x ans a) (Some e)) = true ->
  forall p l w l' w', path a p Through -> all_calls fg a -> healthy C Sm l -> truthful C e0 l ->
  takes C Sm (Saw x ans :: p) l w l' w' -> truthful C e0 l'.
Proof.
  intros x ans a e IH e0 E0 F p l w l' w' P A H T Tk. cbn [takes] in Tk. destruct Tk as ((c & Hc & Hb) & Tk).
  destruct (truthful_learn e0 l x ans c T Hc Hb) as (g & Eg & Tg).
  cbn [TypestateFlow.flow] in F. rewrite <- E0 in F. cbv zeta in F. rewrite Eg in F.
  specialize (IH p l w l' w' g P A H Tg Tk).
  destruct (flow a (Some g)) as [k [e1|]] eqn:Ef; cbn [fst snd] in *; apply andb_true_iff in F as [F1 F2];
    destruct (IH F1) as (e' & E' & T'); [|discriminate].
  injection E' as <-. subst e0. eapply truthful_agree; eauto.
Qed.
Lemma repeat_step : forall a e, after_ok a ->
  forall e0, e0 = only vs e ->
  fst (flow (Repeat a) (Some e)) = true ->
  forall p l w l' w', path a p Through -> all_calls fg a -> healthy C Sm l -> truthful C e0 l ->
  takes C Sm p l w l' w' -> truthful C e0 l'.
Proof.
  intros a e IH e0 E0 F p l w l' w' P A H T Tk.
  cbn [TypestateFlow.flow] in F. rewrite <- E0 in F. cbv zeta in F.
  specialize (IH p l w l' w' e0 P A H T Tk).
  destruct (flow a (Some e0)) as [k [e1|]] eqn:Ef; cbn [fst snd] in *; apply andb_true_iff in F as [F1 F2];
    destruct (IH F1) as (e' & E' & T'); [|discriminate].
  injection E' as <-. subst e0. eapply truthful_agree; eauto.
Qed.

Lemma flow_after : forall s, after_ok s.
Proof.
  induction s as [|o|a IHa b IHb|x ans a IHa b IHb|a IHa b IHb|x ans a IHa|a IHa| |a IHa h IHh];
    intros p l w l' w' e P A H T Tk F.
  - inversion P; subst. cbn in Tk. destruct Tk as [-> ->]. now exists e.
  - inversion P; subst. cbn [TypestateFlow.flow snd]. eexists. split; [reflexivity|].
    cbn [all_calls] in A. destruct A as [A1 A2].
    refine (proj2 (sound L [Do o false] l w l' w' e H _ _ T Tk)); repeat constructor; auto.
  - destruct A as [A1 A2]. inversion P; subst; [|congruence].
    apply takes_app in Tk as (l1 & w1 & T1 & T2). cbn [TypestateFlow.flow] in *.
    destruct (flow a (Some e)) as [k e1] eqn:Ea. destruct (flow b e1) as [k' e2] eqn:Eb. cbn [fst snd] in *.
    apply andb_true_iff in F as [F1 F2].
    destruct (IHa p0 l w l1 w1 e) as (e' & E' & T'); auto; [now rewrite Ea|]. rewrite Ea in E'. cbn in E'. subst e1.
    destruct (IHb q l1 w1 l' w' e') as (e3 & E3 & T3); auto; [|now rewrite Eb|].
    + eapply path_healthy with (s := a); eauto.
    + rewrite Eb in E3. now exists e3.
  - destruct A as [A1 A2]. cbn [TypestateFlow.flow on_branch] in *.
    destruct (flow a (learn x ans e)) as [k e1] eqn:Ea. destruct (flow b (learn x (negb ans) e)) as [k' e2] eqn:Eb.
    cbn [fst snd] in *. apply andb_true_iff in F as [F1 F2].
    inversion P; subst; destruct Tk as ((c & Hc & Hb) & Tk);
      destruct (truthful_learn e l x _ c T Hc Hb) as (g & Eg & Tg).
    + rewrite Eg in Ea. destruct (IHa p0 l w l' w' g) as (e' & E' & T'); auto; [now rewrite Ea|].
      rewrite Ea in E'. cbn in E'. subst e1. now apply truthful_meet_left.
    + rewrite Eg in Eb. destruct (IHb p0 l w l' w' g) as (e' & E' & T'); auto; [now rewrite Eb|].
      rewrite Eb in E'. cbn in E'. subst e2. now apply truthful_meet_right.
  - destruct A as [A1 A2]. cbn [TypestateFlow.flow] in *.
    destruct (flow a (Some e)) as [k e1] eqn:Ea. destruct (flow b (Some e)) as [k' e2] eqn:Eb.
    cbn [fst snd] in *. apply andb_true_iff in F as [F1 F2]. inversion P; subst.
    + destruct (IHa p l w l' w' e) as (e' & E' & T'); auto; [now rewrite Ea|].
      rewrite Ea in E'. cbn in E'. subst e1. now apply truthful_meet_left.
    + destruct (IHb p l w l' w' e) as (e' & E' & T'); auto; [now rewrite Eb|].
      rewrite Eb in E'. cbn in E'. subst e2. now apply truthful_meet_right.
  - assert (Ex : snd (flow (While x ans a) (Some e)) = learn x (negb ans) (only vs e)).
    { cbn [TypestateFlow.flow]. cbv zeta. destruct (flow a _). reflexivity. }
    rewrite Ex. apply (truthful_only vs) in T. cbn [all_calls] in A.
    remember (While x ans a) as s eqn:Es. remember Through as r eqn:Er. clear Ex.
    revert l w l' w' H T Tk. induction P; try discriminate Es; injection Es as -> -> ->; intros l w l' w' Hl T Tk.
    + destruct Tk as ((c & Hc & Hb) & Tk). cbn in Tk. destruct Tk as [-> ->].
      now apply (truthful_learn _ _ x (negb ans) c).
    + change (Saw x ans :: p ++ q) with ((Saw x ans :: p) ++ q) in Tk.
      apply takes_app in Tk as (l1 & w1 & T1 & T2). apply (IHP2 eq_refl Er F l1 w1 l' w'); auto.
      * destruct T1 as [_ T1]. eapply path_healthy with (s := a); eauto.
      * eapply while_step; eauto.
    + congruence.
  - assert (Ex : snd (flow (Repeat a) (Some e)) = Some (only vs e)).
    { cbn [TypestateFlow.flow]. cbv zeta. destruct (flow a _). reflexivity. }
    rewrite Ex. exists (only vs e). split; [reflexivity|]. apply (truthful_only vs) in T. cbn [all_calls] in A.
    remember (Repeat a) as s eqn:Es. remember Through as r eqn:Er. clear Ex.
    revert l w l' w' H T Tk. induction P; try discriminate Es; injection Es as ->; intros l w l' w' Hl T Tk.
    + cbn in Tk. destruct Tk as [-> ->]. exact T.
    + apply takes_app in Tk as (l1 & w1 & T1 & T2). apply (IHP2 eq_refl Er F l1 w1 l' w'); auto.
      * eapply path_healthy with (s := a); eauto.
      * eapply repeat_step; eauto.
    + congruence.
  - inversion P.
  - destruct A as [A1 A2]. cbn [TypestateFlow.flow] in *.
    destruct (flow a (Some e)) as [k e1] eqn:Ea. destruct (flow h (Some nothing)) as [k' e2] eqn:Eb.
    cbn [fst snd] in *. apply andb_true_iff in F as [F1 F2]. inversion P; subst.
    + destruct (IHa p l w l' w' e) as (e' & E' & T'); auto; [now rewrite Ea|].
      rewrite Ea in E'. cbn in E'. subst e1. now apply truthful_meet_left.
    + apply takes_app in Tk as (l1 & w1 & T1 & T2).
      assert (H1 : healthy C Sm l1) by (eapply path_healthy with (s := a); eauto).
      destruct (IHh q l1 w1 l' w' nothing) as (e' & E' & T'); auto; [now apply truthful_nothing|now rewrite Eb|].
      rewrite Eb in E'. cbn in E'. subst e2. now apply truthful_meet_right.
Qed.

(** A loop forgets what it does not watch. *)
Definition head (s : stmt C Sm) (e : knowledge) : knowledge :=
  match s with While _ _ _ | Repeat _ => only vs e | _ => e end.
Lemma truthful_head : forall s e l, truthful C e l -> truthful C (head s e) l.
Proof. intros [] e l T; cbn [head]; auto using truthful_only. Qed.

(** The calls that a run comes to. *)
Lemma flow_silent : forall s p o, comes_to s p o -> forall l w l' w' e, all_calls fg s -> healthy C Sm l ->
  truthful C (head s e) l -> takes C Sm p l w l' w' -> fst (flow s (Some e)) = true ->
  exists e', truthful C e' l' /\ silent o e' = true.
Proof.
  intros s p o P. induction P; intros l w l' w' e A Hl T Tk F; cbn [all_calls] in A; cbn [head] in T.
  - cbn in Tk. destruct Tk as [-> ->]. now exists e.
  - destruct A as [A1 A2]. cbn [TypestateFlow.flow] in F.
    destruct (flow a (Some e)) as [k e1] eqn:Ea. destruct (flow b e1) as [k' e2]. cbn [fst] in F.
    apply andb_true_iff in F as [F1 F2]. eapply IHP; eauto using truthful_head. now rewrite Ea.
  - destruct A as [A1 A2]. cbn [TypestateFlow.flow] in F. apply takes_app in Tk as (l1 & w1 & T1 & T2).
    destruct (flow a (Some e)) as [k e1] eqn:Ea. destruct (flow b e1) as [k' e2] eqn:Eb. cbn [fst] in F.
    apply andb_true_iff in F as [F1 F2].
    destruct (flow_after a p l w l1 w1 e) as (e' & E' & T'); auto; [now rewrite Ea|].
    rewrite Ea in E'. cbn in E'. subst e1. apply (IHP l1 w1 l' w' e'); auto using truthful_head; [|now rewrite Eb].
    eapply path_healthy with (s := a); eauto.
  - destruct A as [A1 A2]. cbn [TypestateFlow.flow on_branch] in F. destruct Tk as ((c & Hc & Hb) & Tk).
    destruct (truthful_learn e l x _ c T Hc Hb) as (g & Eg & Tg). rewrite Eg in F.
    destruct (flow a (Some g)) as [k e1] eqn:Ea. destruct (flow b (learn x (negb ans) e)) as [k' e2] eqn:Eb.
    cbn [fst] in F. apply andb_true_iff in F as [F1 F2]. eapply IHP; eauto using truthful_head. now rewrite Ea.
  - destruct A as [A1 A2]. cbn [TypestateFlow.flow on_branch] in F. destruct Tk as ((c & Hc & Hb) & Tk).
    destruct (truthful_learn e l x _ c T Hc Hb) as (g & Eg & Tg). rewrite Eg in F.
    destruct (flow a (learn x ans e)) as [k e1] eqn:Ea. destruct (flow b (Some g)) as [k' e2] eqn:Eb.
    cbn [fst] in F. apply andb_true_iff in F as [F1 F2]. eapply IHP; eauto using truthful_head. now rewrite Eb.
  - destruct A as [A1 A2]. cbn [TypestateFlow.flow] in F.
    destruct (flow a (Some e)) as [k e1] eqn:Ea. destruct (flow b (Some e)) as [k' e2]. cbn [fst] in F.
    apply andb_true_iff in F as [F1 F2]. eapply IHP; eauto using truthful_head. now rewrite Ea.
  - destruct A as [A1 A2]. cbn [TypestateFlow.flow] in F.
    destruct (flow a (Some e)) as [k e1] eqn:Ea. destruct (flow b (Some e)) as [k' e2] eqn:Eb. cbn [fst] in F.
    apply andb_true_iff in F as [F1 F2]. eapply IHP; eauto using truthful_head. now rewrite Eb.
  - destruct Tk as ((c & Hc & Hb) & Tk).
    destruct (truthful_learn _ l x _ c T Hc Hb) as (g & Eg & Tg). cbn [TypestateFlow.flow] in F. cbv zeta in F. rewrite Eg in F.
    destruct (flow a (Some g)) as [k e1] eqn:Ea. cbn [fst] in F. apply andb_true_iff in F as [F1 F2].
    eapply IHP; eauto using truthful_head. now rewrite Ea.
  - change (Saw x ans :: p ++ q) with ((Saw x ans :: p) ++ q) in Tk.
    apply takes_app in Tk as (l1 & w1 & T1 & T2).
    assert (T' : truthful C (only vs e) l1) by (eapply while_step; eauto using flow_after).
    apply (IHP l1 w1 l' w' e); auto. destruct T1 as [_ T1]. eapply path_healthy with (s := a); eauto.
  - cbn [TypestateFlow.flow] in F. cbv zeta in F.
    destruct (flow a (Some (only vs e))) as [k e1] eqn:Ea. cbn [fst] in F. apply andb_true_iff in F as [F1 F2].
    eapply IHP; eauto using truthful_head. now rewrite Ea.
  - apply takes_app in Tk as (l1 & w1 & T1 & T2).
    assert (T' : truthful C (only vs e) l1) by (eapply repeat_step; eauto using flow_after).
    apply (IHP l1 w1 l' w' e); auto. eapply path_healthy with (s := a); eauto.
  - destruct A as [A1 A2]. cbn [TypestateFlow.flow] in F.
    destruct (flow a (Some e)) as [k e1] eqn:Ea. destruct (flow h _) as [k' e2]. cbn [fst] in F.
    apply andb_true_iff in F as [F1 F2]. eapply IHP; eauto using truthful_head. now rewrite Ea.
  - destruct A as [A1 A2]. cbn [TypestateFlow.flow] in F. apply takes_app in Tk as (l1 & w1 & T1 & T2).
    destruct (flow a (Some e)) as [k e1] eqn:Ea. destruct (flow h _) as [k' e2] eqn:Eb. cbn [fst] in F.
    apply andb_true_iff in F as [F1 F2].
    assert (H1 : healthy C Sm l1) by (eapply path_healthy with (s := a); eauto).
    apply (IHP l1 w1 l' w' nothing); auto using truthful_head, truthful_nothing. now rewrite Eb.
Qed.

Theorem flow_safe : forall s p o l w l' w' e, all_calls fg s -> healthy C Sm l -> truthful C e l ->
  fst (flow s (Some e)) = true -> comes_to s p o -> takes C Sm p l w l' w' ->
  step C Sm o l' w' = SAbort -> stops Sm.
Proof.
  intros s p o l w l' w' e A H T F P Tk E.
  destruct (flow_silent s p o P l w l' w' e A H (truthful_head s e l T) Tk F) as (e' & T' & S).
  destruct (comes_to_calls _ _ _ _ P A) as [K [Fo Go]].
  apply (silent_access L o l' w' e'); auto using truthful_hopeful.
  unfold calls in K. refine (proj1 (sound L p l w l' w' nothing H _ _ (truthful_nothing l H) Tk)).
  - eapply Forall_impl; [|exact K]. intros [o' k|x b]; [intros [X _]; exact X|auto].
  - eapply Forall_impl; [|exact K]. intros [o' k|x b]; [intros [_ X]; exact X|auto].
Qed.
End Facts.

Section Clang.
Context {W : Type} {C : cls W} {Sm : sem C}.

Lemma annotated_same : forall (o : call C Sm) e, annotated o -> after true o false e = after false o false e.
Proof.
  intros o e A.
  destruct o as [x [|i|i] g|x y g|x y g|nrvo x y g|nrvo p pr x y g|x|x [|i|i]|x y|x y|x|x i|x i|x y|x y|x y|x f fr];
    cbn in A; try contradiction; reflexivity.
Qed.
Theorem clang_same : forall vs (s : stmt C Sm) e, all_calls annotated s -> no_handlers s ->
  flow true vs s e = flow false vs s e.
Proof.
  intros vs. induction s as [|o|a IHa b IHb|x ans a IHa b IHb|a IHa b IHb|x ans a IHa|a IHa| |a IHa h IHh];
    intros e A N; cbn [flow all_calls no_handlers] in *; try contradiction; auto.
  - destruct e as [e|]; [|reflexivity]. now rewrite annotated_same.
  - destruct A, N. rewrite IHa by auto. destruct (flow false vs a e). now rewrite IHb.
  - destruct A, N. rewrite IHa, IHb by auto. reflexivity.
  - destruct A, N. rewrite IHa, IHb by auto. reflexivity.
  - destruct e as [e|]; [|reflexivity]. cbv zeta. now rewrite IHa.
  - destruct e as [e|]; [|reflexivity]. cbv zeta. now rewrite IHa.
Qed.

(** What a test guards. *)
Lemma guarded_silent : forall cl vs x (o : call C Sm) e, accessed o = Some x -> e x = Unknown \/ e x = Consumed ->
  fst (flow cl vs (If x true (Act o) Skip) (Some e)) = true.
Proof.
  intros cl vs x o e A [E|E]; cbn [flow on_branch]; unfold learn; rewrite E; cbn [same_tstate tested test_typestate negb fst];
    unfold silent; rewrite A; cbn [callable_when]; [unfold know; rewrite Nat.eqb_refl|rewrite E]; reflexivity.
Qed.
Lemma early_return_silent : forall cl vs x (o : call C Sm) e, accessed o = Some x -> e x = Unknown \/ e x = Consumed ->
  fst (flow cl vs (Seq (If x false Return Skip) (Act o)) (Some e)) = true.
Proof.
  intros cl vs x o e A [E|E]; cbn [flow on_branch]; unfold learn; rewrite E;
    cbn [same_tstate tested test_typestate negb fst meet];
    unfold silent; rewrite A; cbn [callable_when]; [unfold know; rewrite Nat.eqb_refl|rewrite E]; reflexivity.
Qed.
(** The other way round: an access that nothing guards gets a warning. *)
Lemma unguarded_warned : forall cl vs x (o : call C Sm) e, accessed o = Some x -> e x <> Consumed ->
  fst (flow cl vs (Act o) (Some e)) = false.
Proof.
  intros cl vs x o e A E. cbn [flow fst]. unfold silent. rewrite A. cbn [callable_when]. destruct (e x); congruence.
Qed.
Lemma unreachable_silent : forall cl vs (s : stmt C Sm), no_handlers s -> flow cl vs s None = (true, None).
Proof.
  intros cl vs. induction s as [|o|a IHa b IHb|x ans a IHa b IHb|a IHa b IHb|x ans a IHa|a IHa| |a IHa h IHh];
    intros N; cbn [flow no_handlers on_branch] in *; try contradiction; auto; destruct N; rewrite IHa, ?IHb by auto; auto.
Qed.
(** A loop that tests a variable about which nothing is known, and whose body knows something about it at its end. *)
Lemma loop_warned : forall cl vs x ans (a : stmt C Sm) e e1, e x = Unknown -> existsb (Nat.eqb x) vs = true ->
  snd (flow cl vs a (Some (know (only vs e) x (tested ans)))) = Some e1 -> e1 x <> Unknown ->
  fst (flow cl vs (While x ans a) (Some e)) = false.
Proof.
  intros cl vs x ans a e e1 E V F N. cbn [flow]. cbv zeta.
  assert (E0 : only vs e x = Unknown) by (unfold only; now rewrite V).
  unfold learn at 1. rewrite E0. destruct (flow cl vs a _) as [k e2]. cbn [snd fst] in *. subst e2.
  apply andb_false_iff. right. unfold agree. apply existsb_exists in V as (y & Hy & Ey). apply Nat.eqb_eq in Ey. subst y.
  destruct (forallb _ vs) eqn:K; [|reflexivity]. exfalso. rewrite forallb_forall in K. specialize (K x Hy).
  apply same_tstate_eq in K. congruence.
Qed.
End Clang.
