(** The lifetime properties in the form in which they are stated in PropertiesLifetime.v. *)
From Coq Require Import NArith ZArith Bool List Lia ZifyBool ZifyN.
From Verif Require Import Outcome Words Lifetime LifetimeSpec LifetimeFacts History HistorySpec HistoryFacts
  Log LogFacts Classes ClassesFacts.
Import ListNotations.
Open Scope N_scope.
Ltac Zify.zify_post_hook ::= Z.div_mod_to_equations.

(** Number of variables in whose storage an object lives. *)
Fixpoint alive_count {W} {C : cls W} (l : vars C) : Z :=
  match l with
  | [] => 0
  | Some c :: l => (if c_alive c then 1 else 0) + alive_count l
  | None :: l => alive_count l
  end%Z.

Lemma owned_alive : forall W (C : cls W) S (l : vars (logged C)), td C = false ->
  owned (logged C) (log_sem C S) l = alive_count l.
Proof.
  intros W C S l H. induction l as [|[c|] l IH]; [reflexivity| |].
  - unfold owned in *. cbn [fold_right alive_count slot_own]. rewrite IH. f_equal.
    unfold oown. cbn [own log_sem]. rewrite H. reflexivity.
  - unfold owned in *. cbn [fold_right alive_count slot_own]. rewrite IH. reflexivity.
Qed.

Lemma healthy_none : forall W (C : cls W) S n, healthy C S (repeat None n).
Proof. intros. unfold healthy. induction n; cbn; auto. Qed.

Lemma owned_none : forall W (C : cls W) S n, owned C S (repeat None n) = 0%Z.
Proof. intros. unfold owned. induction n; cbn; auto. Qed.

Lemma healthy_observed : forall W (C : cls W) S (l : vars C), lawful C S -> healthy C S l ->
  forall x c, slot l x = Some c ->
    o_has C c = Ok (c_alive c) /\ (c_alive c = true -> ok S (c_raw c)) /\ nth_error (values C S l) x = Some (Some (oval C S c)).
Proof.
  intros W C S l L Hl x c Hx. pose proof (healthy_slot C S l x c Hl Hx) as Hc.
  split; [now apply (has_ok C S L)|]. split; [apply Hc|]. now apply (slot_at C S).
Qed.

Lemma liveness_history : forall W (C : cls W) (S : sem C), lawful C S ->
  forall os n w,
  Forall (fair (logged C) (log_sem C S)) os -> Forall (gentle (logged C) (log_sem C S)) os ->
  match run (logged C) (log_sem C S) os (repeat None n) (w, []) with
  | HDone ks l (w', lg) =>
      (forall x c, slot l x = Some c -> o_has (logged C) c = Ok (c_alive c)) /\
      (td C = false -> balance lg = alive_count l)
  | HAbort _ => True
  | HUndef => False
  | HBad => True
  end.
Proof.
  intros W C S L os n w Hf Hg.
  pose proof (logged_lawful C S L) as LL.
  pose proof (run_ok (logged C) (log_sem C S) LL os (repeat None n) (w, []) (healthy_none _ _ _ n) Hf Hg) as H.
  destruct (run (logged C) (log_sem C S) os (repeat None n) (w, [])) as [ks l [w' lg]|ks| |]; auto.
  destruct H as (H1 & H2 & H3). split.
  - intros x c Hx. exact (proj1 (healthy_observed _ _ _ _ LL H1 x c Hx)).
  - intros Htd. rewrite owned_none in H3. rewrite (owned_alive _ _ _ _ Htd) in H3.
    cbn [cnt log_sem snd] in H3. rewrite Htd in H3. cbn [balance fold_right] in H3. lia.
Qed.

Lemma all_destroyed : forall W (C : cls W) (l : vars C), (forall x, slot l x = None) -> alive_count l = 0%Z.
Proof.
  intros W C l H. induction l as [|[c|] l IH]; [reflexivity| |].
  - specialize (H 0%nat). discriminate.
  - apply IH. intros x. exact (H (S x)).
Qed.

Lemma no_leak : forall W (C : cls W) (S : sem C), lawful C S ->
  forall os n w, td C = false ->
  Forall (fair (logged C) (log_sem C S)) os -> Forall (gentle (logged C) (log_sem C S)) os ->
  forall ks l w' lg, run (logged C) (log_sem C S) os (repeat None n) (w, []) = HDone ks l (w', lg) ->
  (forall x, slot l x = None) -> balance lg = 0%Z.
Proof.
  intros W C S L os n w Htd Hf Hg ks l w' lg E Hd.
  pose proof (liveness_history W C S L os n w Hf Hg) as H. rewrite E in H. destruct H as [_ H].
  rewrite (H Htd). now apply all_destroyed.
Qed.

(** Nesting: in-place construction and moves of option<T> inside an outer option. *)
Lemma opt_quiet_val : forall W (C : cls W) (S : sem C) i, lawful C S -> quiet_init C i -> quiet_init (opt_cls C) (IVal i).
Proof.
  intros W C S i L Q c w c' w' Hm Hl H. cbn [ctor opt_cls o_ctor] in H. cbn [lmax lget opt_cls] in *.
  unfold o_inplace in H. destruct (ctor C i (c_raw c) w) as [[r w1]|[r w1]| |] eqn:E; try discriminate.
  - destruct (traits C); [|discriminate]. cbn zeta in H. destruct (o_has C _) as [[|]| |]; discriminate.
  - injection H as <- _. cbn [c_raw c_flag].
    destruct (traits_spec C) as [[Et Hm']|[Et Hm']]; rewrite Et in *; [|reflexivity].
    assert (Hr : lget C r = lget C (c_raw c)); [|now rewrite Hr].
    refine (Q _ _ _ _ _ _ E); [lia|]. pose proof (l_bound _ _ L (c_raw c)). pose proof (l_max_bound _ _ L).
    unfold wsub, umax_base in *. lia.
Qed.

Lemma opt_quiet_none : forall W (C : cls W) (S : sem C), lawful C S -> quiet_init (opt_cls C) INone.
Proof.
  intros W C S L c w c' w' Hm Hl H. cbn [ctor opt_cls o_ctor] in H.
  destruct (default_ok C S L c) as (c0 & E & _). rewrite E in H. discriminate.
Qed.

Lemma opt_quiet_move : forall W (C : cls W) (S : sem C), lawful C S ->
  (forall s r w p, ok S s -> mctor C r (s, w) <> Exn p) -> quiet_move (opt_cls C) (opt_sem C S).
Proof.
  intros W C S L Hm s c w c' x Hs _ _ H. exfalso. revert H. cbn [mctor opt_cls]. unfold o_mctor.
  destruct (tmc C); [discriminate|]. unfold with_base.
  destruct (default_ok C S L c) as (c0 & -> & _). cbn [fst].
  rewrite (has_ok C S L s Hs). cbn [check]. destruct (c_alive s) eqn:Es; [|discriminate].
  destruct (o_construct C (from_cell C (mctor C)) c0 (s, w)) as [q|[q1 q2]| |] eqn:Eq; try discriminate.
  exfalso. revert Eq. apply construct_steady. intros [r' y]. unfold from_cell. rewrite Es.
  destruct (mctor C (c_raw c0) (c_raw s, w)) as [[r [s' w']]|[r [s' w']]| |] eqn:E; try discriminate.
  destruct (Hm (c_raw s) (c_raw c0) w (r, (s', w')) (proj1 Hs Es) E).
Qed.

(** swap twice. *)
Lemma swap_twice : forall W (C : cls W) (S : sem C), lawful C S -> quiet_move C S ->
  forall a b w a' b' w' a2 b2 w2, inv C S a -> inv C S b ->
  o_swap C a (b, w) = Ret (a', (b', w')) -> o_swap C a' (b', w') = Ret (a2, (b2, w2)) ->
  oval C S a2 = oval C S a /\ oval C S b2 = oval C S b.
Proof.
  intros W C S L Q a b w a' b' w' a2 b2 w2 Ha Hb E1 E2.
  pose proof (swap_ok C S L a b w Q Ha Hb) as H1. rewrite E1 in H1. cbn in H1. destruct H1 as (A1 & A2 & A3 & A4 & _).
  pose proof (swap_ok C S L a' b' w' Q A1 A2) as H2. rewrite E2 in H2. cbn in H2. destruct H2 as (B1 & B2 & B3 & B4 & _).
  split; congruence.
Qed.

(** The predicate of take_if: called once if engaged, not at all otherwise. *)
Lemma take_if_calls : forall W (C : cls W) (S : sem C) nrvo (p p' : raw C -> W -> out (raw C * (bool * W))) g s w,
  lawful C S -> inv C S s ->
  (c_alive s = true -> p (c_raw s) w = p' (c_raw s) w) ->
  o_take_if C nrvo p g (s, w) = o_take_if C nrvo p' g (s, w).
Proof.
  intros W C S nrvo p p' g s w L Hs H. unfold o_take_if, o_with_value.
  rewrite (has_ok C S L s Hs). cbn [check]. destruct (c_alive s) eqn:Es; [|reflexivity].
  cbn [snd]. rewrite (H eq_refl). reflexivity.
Qed.

Lemma nest_both : forall W (C : cls W) (S : sem C) n, lawful C S -> steady C S ->
  lawful (nest_cls n C) (nest_sem n C S) /\ steady (nest_cls n C) (nest_sem n C S) /\
  quiet (nest_cls n C) (nest_sem n C S).
Proof.
  intros W C S n L N. destruct (nest_lawful W n C S L N) as [H1 H2]. split; [exact H1|]. split; [exact H2|]. now apply steady_quiet.
Qed.

Lemma nested_in_place : forall W (C : cls W) (S : sem C), lawful C S -> quiet C S ->
  lawful (opt_cls C) (opt_sem C S) /\
  (forall i, quiet_init (opt_cls C) (IVal i)) /\ quiet_init (opt_cls C) INone /\
  ((forall s r w p, ok S s -> mctor C r (s, w) <> Exn p) -> quiet_move (opt_cls C) (opt_sem C S)).
Proof.
  intros W C S L Q. split; [now apply opt_lawful|]. split; [|split].
  - intros i. apply opt_quiet_val with S; [exact L|apply Q].
  - now apply opt_quiet_none with S.
  - now apply opt_quiet_move.
Qed.

Lemma emplace_reset_logs : forall W (C : cls W) (S : sem C), lawful C S ->
  forall i c w l, inv (logged C) (log_sem C S) c ->
  (let es := destroys (td C) (c_alive c) ++ [ECtor] in
   logs l (o_emplace (logged C) (o_reset (logged C)) (ctor (logged C) i) c (w, l)) es es) /\
  (let es := if c_alive c then [] else [ECtor] in
   logs l (o_try_emplace (logged C) i c (w, l)) es es) /\
  logs l (o_reset (logged C) c (w, l)) (destroys (td C) (c_alive c)) [] /\
  logs l (o_dtor (logged C) c (w, l)) (destroys (td C) (c_alive c)) [].
Proof.
  intros W C S L i c w l Hc. split; [|split; [|split]].
  - now apply (emplace_logs C S L).
  - now apply (try_emplace_logs C S L).
  - now apply (reset_logs C S L).
  - now apply (dtor_logs C S L).
Qed.

Lemma flag_histories : forall W (C : cls W) (S : sem C), lawful C S -> lmax C = 0 ->
  forall os l w, healthy C S l -> Forall (fair C S) os ->
  match run C S os l w with
  | HDone ks l' w' => healthy C S l' /\ runs C S os ks (values C S l) (values C S l') /\
                      (cnt S w' - owned C S l' = cnt S w - owned C S l)%Z
  | HAbort ks => stops S \/
      exists os1 o os2 a, os = os1 ++ o :: os2 /\ runs C S os1 ks (values C S l) a /\ misuse C S o a
  | HUndef => False
  | HBad => True
  end.
Proof.
  intros W C S L Hm os l w Hl Hf. apply (run_ok C S L); auto.
  apply Forall_forall. intros o _. now apply quiet_gentle, flag_quiet.
Qed.

Lemma quiet_exceptions : forall W (C : cls W) (S : sem C), lawful C S -> quiet C S ->
  forall c s w, inv C S c -> inv C S s ->
  let thrown (m : out (cell C * W)) (R : cell C -> Prop) := forall c' w', m = Exn (c', w') -> inv C S c' /\ R c' in
  let thrown2 (m : out (cell C * (cell C * W))) (R : cell C -> cell C -> Prop) :=
    forall c' s' w', m = Exn (c', (s', w')) -> inv C S c' /\ inv C S s' /\ R c' s' in
  (forall i, thrown (o_emplace C (o_reset C) (ctor C i) c w) (fun c' => o_has C c' = Ok false)) /\
  (forall i, thrown (o_try_emplace C i c w) (fun c' => o_has C c' = Ok false)) /\
  (forall i, thrown (o_asgn C i c w) (fun c' => o_has C c' = o_has C c)) /\
  thrown (o_cassign C s c w) (fun c' => o_has C c' = o_has C c) /\
  thrown2 (o_massign C c (s, w)) (fun c' s' => o_has C c' = o_has C c /\ o_has C s' = o_has C s) /\
  thrown2 (o_swap C c (s, w)) (fun c' s' => o_has C c' = o_has C c /\ o_has C s' = o_has C s).
Proof.
  intros W C S L [Q1 Q2 Q3] c s w Hc Hs.
  assert (dead : forall c', inv C S c' -> oval C S c' = None -> o_has C c' = Ok false).
  { intros c' Hi Ho. rewrite (has_ok C S L c' Hi). unfold oval in Ho. destruct (c_alive c'); [discriminate|reflexivity]. }
  assert (same : forall a b, inv C S a -> inv C S b -> c_alive a = c_alive b -> o_has C a = o_has C b).
  { intros a b Ha Hb E. rewrite (has_ok C S L a Ha), (has_ok C S L b Hb). now f_equal. }
  cbn zeta. split; [|split; [|split; [|split; [|split]]]].
  - intros i c' w' E. pose proof (emplace_ok C S L i c w (Q1 i) Hc) as H. rewrite E in H. cbn in H. destruct H as (H1 & H2 & _). auto.
  - intros i c' w' E. pose proof (try_emplace_ok C S L i c w (Q1 i) Hc) as H. rewrite E in H. cbn in H. destruct H as (H1 & H2 & H3 & _). auto.
  - intros i c' w' E. pose proof (asgn_ok C S L i c w (fun i' _ => Q1 i') Hc) as H. rewrite E in H. cbn in H. destruct H as (H1 & H2 & _). auto.
  - intros c' w' E. pose proof (cassign_ok C S L s c w Q2 Hs Hc) as H. rewrite E in H. cbn in H. destruct H as (H1 & H2 & H3 & _). auto.
  - intros c' s' w' E. pose proof (massign_ok C S L s c w Q3 Hs Hc) as H. rewrite E in H. cbn in H. destruct H as (H1 & H2 & H3 & H4 & H5 & _).
    repeat split; auto; try apply H1; try apply H2. apply same; auto. congruence.
  - intros c' s' w' E. pose proof (swap_ok C S L c s w Q3 Hc Hs) as H. rewrite E in H. cbn in H. destruct H as (H1 & H2 & H3 & H4 & _).
    repeat split; auto; try apply H1; try apply H2.
Qed.

Lemma torn_exact : forall W (C : cls W) (S : sem C), lawful C S -> 0 < lmax C -> forall i,
  (forall c w c' w', inv C S c -> o_try_emplace C i c w = Exn (c', w') -> inv C S c' /\ o_has C c' = Ok false) <->
  (forall r w r' w', lget C r = 0 -> ctor C i r w = Exn (r', w') -> lget C r' = 0).
Proof.
  intros W C S L Hm i.
  assert (Ht : traits C = true) by (unfold traits; destruct (lmax C); [lia|reflexivity]).
  assert (Hh : forall c, o_has C c = Ok (negb (lget C (c_raw c) =? 0))) by (intros c; unfold o_has; now rewrite Ht).
  split.
  - intros H r w r' w' Hr E.
    assert (Hi : inv C S (mkcell r 0 false)) by (split; [discriminate|split; [auto|lia]]).
    destruct (H (mkcell r 0 false) w (mkcell r' 0 false) w' Hi) as [(_ & K & _) _]; [|exact (K Hm eq_refl)].
    unfold o_try_emplace. rewrite Hh. cbn [c_raw]. rewrite Hr. cbn. unfold o_construct. cbn. now rewrite E.
  - intros H c w c' w' Hi E. unfold o_try_emplace in E. rewrite Hh in E. cbn [check] in E.
    destruct (lget C (c_raw c) =? 0) eqn:Z; [|discriminate]. cbn [negb] in E. apply N.eqb_eq in Z.
    assert (Ha : c_alive c = false).
    { pose proof (has_ok C S L c Hi) as K. rewrite Hh, Z in K. cbn in K. congruence. }
    unfold o_construct in E. rewrite Ha in E. cbn [andb] in E. rewrite Ht in E.
    destruct (ctor C i (c_raw c) w) as [[r w1]|[r w1]| |] eqn:Ec; [rewrite Hh in E; cbn in E; destruct (lget C r =? 0); discriminate| |discriminate|discriminate].
    injection E as <- <-. specialize (H _ _ _ _ Z Ec).
    split; [split; [discriminate|split; [auto|lia]]|]. rewrite Hh. cbn [c_raw]. now rewrite H.
Qed.

Lemma flag_exceptions : forall W (C : cls W) (S : sem C), lawful C S -> lmax C = 0 ->
  forall c s w, inv C S c -> inv C S s ->
  let thrown (m : out (cell C * W)) (R : cell C -> Prop) := forall c' w', m = Exn (c', w') -> inv C S c' /\ R c' in
  let thrown2 (m : out (cell C * (cell C * W))) (R : cell C -> cell C -> Prop) :=
    forall c' s' w', m = Exn (c', (s', w')) -> inv C S c' /\ inv C S s' /\ R c' s' in
  (forall i, thrown (o_emplace C (o_reset C) (ctor C i) c w) (fun c' => o_has C c' = Ok false)) /\
  (forall i, thrown (o_try_emplace C i c w) (fun c' => o_has C c' = Ok false)) /\
  (forall i, thrown (o_asgn C i c w) (fun c' => o_has C c' = o_has C c)) /\
  thrown (o_cassign C s c w) (fun c' => o_has C c' = o_has C c) /\
  thrown2 (o_massign C c (s, w)) (fun c' s' => o_has C c' = o_has C c /\ o_has C s' = o_has C s) /\
  thrown2 (o_swap C c (s, w)) (fun c' s' => o_has C c' = o_has C c /\ o_has C s' = o_has C s).
Proof. intros W C S L Hm. apply quiet_exceptions; [exact L|]. now apply flag_quiet. Qed.

Lemma self_keeps : forall W (C : cls W) (S : sem C), lawful C S -> forall c w, inv C S c ->
  let keeps (m : out (cell C * W)) (R : option (V S) -> option (V S) -> Prop) :=
    post (stops S) m (fun p => inv C S (fst p) /\ R (oval C S c) (oval C S (fst p)) /\ o_has C (fst p) = o_has C c)
                     (fun p => inv C S (fst p) /\ o_has C (fst p) = o_has C c) in
  keeps (o_self_cassign C c w) eq /\
  keeps (o_self_massign C c w) (opt_rel (selfmv S)) /\
  keeps (o_self_swap C c w) eq /\
  (quiet_copy C S -> c_alive c = true -> keeps (o_set_self C c w) eq).
Proof.
  intros W C S L c w Hc.
  assert (same : forall a b, inv C S a -> inv C S b -> c_alive a = c_alive b -> o_has C a = o_has C b).
  { intros a b Ha Hb E. rewrite (has_ok C S L a Ha), (has_ok C S L b Hb). now f_equal. }
  assert (rel : forall R a b, opt_rel R (oval C S a) (oval C S b) -> c_alive a = c_alive b).
  { intros R a b. unfold oval. destruct (c_alive a), (c_alive b); cbn; tauto. }
  assert (eqv : forall a b, oval C S a = oval C S b -> c_alive a = c_alive b).
  { intros a b. unfold oval. destruct (c_alive a), (c_alive b); congruence. }
  cbn zeta. split; [|split; [|split]].
  - eapply post_mono; [apply (self_cassign_ok C S L c w Hc)| |]; cbn; intros p H.
    + destruct H as (H1 & H2 & _). split; [exact H1|]. split; [auto|]. apply same; auto.
    + destruct H as (H1 & H2 & H3 & _). split; [exact H1|]. apply same; auto. congruence.
  - eapply post_mono; [apply (self_massign_ok C S L c w Hc)| |]; cbn; intros p H.
    + destruct H as (H1 & H2 & _). split; [exact H1|]. split; [auto|]. apply same; auto. symmetry. eauto.
    + destruct H as (H1 & H2 & H3 & _). split; [exact H1|]. apply same; auto. congruence.
  - eapply post_mono; [apply (self_swap_ok C S L c w Hc)| |]; cbn; intros p H.
    + destruct H as (H1 & H2 & _). split; [exact H1|]. split; [auto|]. apply same; auto.
    + destruct H as (H1 & H2 & H3 & _). split; [exact H1|]. apply same; auto. congruence.
  - intros Q Ea. eapply post_mono; [apply (set_self_ok C S L c w Q Hc Ea)| |]; cbn; intros p H.
    + destruct H as (H1 & H2 & _). split; [exact H1|]. split; [auto|]. apply same; auto.
    + destruct H as (H1 & H2 & _). split; [exact H1|]. apply same; auto. congruence.
Qed.

Lemma take_if_spec : forall W (C : cls W) (S : sem C), lawful C S -> quiet_move C S ->
  forall nrvo (p : raw C -> W -> out (raw C * (bool * W))) (pr : V S -> bool -> V S -> Prop) c s w, inv C S s ->
  (forall r w, ok S r -> post (stops S) (p r w)
      (fun q => ok S (fst q) /\ pr (val S r) (fst (snd q)) (val S (fst q)) /\
                (cnt S (snd (snd q)) + own S r = cnt S w + own S (fst q))%Z)
      (fun q => ok S (fst q) /\ (cnt S (snd (snd q)) + own S r = cnt S w + own S (fst q))%Z)) ->
  post (stops S) (o_take_if C nrvo p c (s, w))
    (fun q => inv C S (fst q) /\ inv C S (fst (snd q)) /\
       match oval C S s with
       | None => oval C S (fst q) = None /\ oval C S (fst (snd q)) = None
       | Some v => (exists v', pr v true v' /\ oval C S (fst q) = Some v' /\ oval C S (fst (snd q)) = None) \/
                   (exists v', pr v false v' /\ oval C S (fst q) = None /\ oval C S (fst (snd q)) = Some v')
       end)
    (fun q => inv C S (fst (snd q)) /\ oval C S s <> None).
Proof.
  intros W C S L Q nrvo p pr c s w Hs Hp.
  eapply post_mono; [apply (take_if_ok C S L nrvo p pr c s w Q Hp Hs)| |]; cbn; intros q H.
  - destruct H as (H1 & H2 & H3 & _). split; [exact H1|]. split; [exact H2|].
    destruct (oval C S s) as [v|]; [|exact H3]. destruct H3 as (b & v' & Hpr & Hb). destruct b; [left|right]; eauto.
  - destruct H as (H1 & H2 & _). split; [exact H1|]. rewrite (oval_alive C S _ H2). discriminate.
Qed.

Lemma moved_from : forall W (C : cls W) (S : sem C), lawful C S -> quiet_move C S ->
  forall s c w, inv C S s ->
  let keeps (m : out (cell C * (cell C * W))) :=
    post (stops S) m
      (fun p => inv C S (fst (snd p)) /\ o_has C (fst (snd p)) = o_has C s /\ opt_rel (mv S) (oval C S s) (oval C S (fst (snd p))))
      (fun p => inv C S (fst (snd p)) /\ o_has C (fst (snd p)) = o_has C s) in
  keeps (o_mctor C c (s, w)) /\ (inv C S c -> keeps (o_massign C c (s, w))).
Proof.
  intros W C S L Q s c w Hs.
  assert (same : forall a b, inv C S a -> inv C S b -> c_alive a = c_alive b -> o_has C a = o_has C b).
  { intros a b Ha Hb E. rewrite (has_ok C S L a Ha), (has_ok C S L b Hb). now f_equal. }
  assert (rel : forall R a b, opt_rel R (oval C S a) (oval C S b) -> c_alive a = c_alive b).
  { intros R a b. unfold oval. destruct (c_alive a), (c_alive b); cbn; tauto. }
  cbn zeta. split.
  - eapply post_mono; [apply (mctor_ok C S L s c w Q Hs)| |]; cbn; intros p H.
    + destruct H as (_ & _ & H3 & H4 & _). split; [exact H3|]. split; [|exact H4]. apply same; auto. symmetry. eauto.
    + destruct H as (H1 & H2 & H3 & _). split; [exact H1|]. apply same; auto. congruence.
  - intros Hc. eapply post_mono; [apply (massign_ok C S L s c w Q Hs Hc)| |]; cbn; intros p H.
    + destruct H as (_ & _ & H3 & H4 & _). split; [exact H3|]. split; [|exact H4]. apply same; auto. symmetry. eauto.
    + destruct H as (_ & H1 & H2 & _ & H3 & _). split; [exact H1|]. apply same; auto. congruence.
Qed.
