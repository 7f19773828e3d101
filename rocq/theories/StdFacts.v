(** option<T> does what std::optional<T> does. *)
From Coq Require Import NArith ZArith Bool List Lia ZifyBool ZifyN Arith.
From Verif Require Import Outcome Words Lifetime LifetimeSpec LifetimeFacts History HistorySpec HistoryFacts
  Log LogFacts Classes ClassesFacts StdOptional StdSpec.
Import ListNotations.
Open Scope N_scope.

Lemma agree_mono : forall A1 A2 (B : Prop) (m1 : out A1) (m2 : out A2) (R R' E E' : A1 -> A2 -> Prop),
  agree B m1 m2 R E -> (forall a b, R a b -> R' a b) -> (forall a b, E a b -> E' a b) -> agree B m1 m2 R' E'.
Proof. intros A1 A2 B [a|a| |] [b|b| |] R R' E E' H HR HE; cbn in *; auto. Qed.

Section Facts.
Context {W : Type} (C1 C2 : cls W) (Sm : sem C1) (R : raw C1 -> raw C2 -> Prop) (Ri : init C1 -> init C2 -> Prop).
Context (g : raw C2).
Hypothesis L : lawful C1 Sm.
Hypothesis HH : honest C1 Sm.
Hypothesis HS : sim C1 C2 Sm R Ri.
Notation B := (stops Sm).
Notation pairs := (pairs C1 C2 Sm R).
Notation inv := (inv C1 Sm).

Lemma pairs_has : forall c o, pairs c o -> o_has C1 c = Ok (match o with Some _ => true | None => false end).
Proof.
  intros c o [Hi H]. rewrite (has_ok C1 Sm L c Hi). destruct o as [r|]; [destruct H as [-> _]|rewrite H]; reflexivity.
Qed.

Lemma pairs_some : forall r1 r2 f, R r1 r2 -> (lmax C1 = 0 -> f = 1) -> pairs (mkcell r1 f true) (Some r2).
Proof. intros r1 r2 f H Hf. split; [|now split]. apply inv_alive; [exact (sim_ok _ _ _ _ _ HS _ _ H)|exact Hf]. Qed.

Lemma flag_alive : forall c, inv c -> c_alive c = true -> lmax C1 = 0 -> c_flag c = 1.
Proof. intros c (_ & _ & H) Ha Hm. rewrite (H Hm), Ha. reflexivity. Qed.

Lemma pairs_set : forall c r1 r2, inv c -> c_alive c = true -> R r1 r2 -> pairs (mkcell r1 (c_flag c) true) (Some r2).
Proof. intros c r1 r2 Hi Ha H. apply pairs_some; [exact H|]. now apply flag_alive. Qed.

Definition cells (p : cell C1 * W) (q : held C2 * W) : Prop := pairs (fst p) (fst q) /\ snd p = snd q.
Definition cells2 (p : cell C1 * (cell C1 * W)) (q : held C2 * (held C2 * W)) : Prop :=
  pairs (fst p) (fst q) /\ cells (snd p) (snd q).

(** The destructor of T, seen from option. *)
Lemma dtor_td : forall r1 r2 w, R r1 r2 -> td C1 = true ->
  match s_destroy C2 r2 w with Ret w' => w' = w | Undef => True | _ => False end.
Proof.
  intros r1 r2 w H Htd. pose proof (sim_dtor _ _ _ _ _ HS r1 r2 w H) as D.
  destruct (h_td _ _ HH r1 w Htd (sim_ok _ _ _ _ _ HS _ _ H)) as [r' E]. rewrite E in D.
  destruct (s_destroy C2 r2 w); cbn in D; auto; contradiction.
Qed.

Lemma destroy_sim : forall c r2 w, pairs c (Some r2) ->
  agree B (destroy_value C1 (dtor C1) c w) (s_destroy C2 r2 w)
    (fun p w' => c_alive (fst p) = false /\ snd p = w') (fun _ _ => False).
Proof.
  intros c r2 w [Hi [Ha H]]. unfold destroy_value. rewrite Ha.
  pose proof (sim_dtor _ _ _ _ _ HS (c_raw c) r2 w H) as D.
  pose proof (l_dtor _ _ L (c_raw c) w (proj1 Hi Ha)) as D'.
  destruct (dtor C1 (c_raw c) w) as [[r w']|[r w']| |]; cbn in *;
    destruct (s_destroy C2 r2 w) as [w2|w2| |]; cbn in *; auto; contradiction.
Qed.

Lemma reset_sim : forall c o w, pairs c o ->
  agree B (o_reset C1 c w) (s_reset C2 o w) (fun p q => cells p q /\ fst q = None) (fun _ _ => False).
Proof.
  intros c o w Hp. unfold o_reset. destruct (td C1) eqn:Etd.
  - destruct (empty_ok C1 Sm L c w) as (c' & -> & Hc & Ha).
    destruct o as [r|]; cbn.
    + pose proof (dtor_td _ _ w (proj2 (proj2 Hp)) Etd) as D.
      destruct (s_destroy C2 r w) as [w'|w'| |]; cbn; auto. subst w'. split; [|reflexivity]. repeat split; auto; apply Hc.
    + split; [|reflexivity]. repeat split; auto; apply Hc.
  - rewrite (pairs_has c o Hp). cbn [check]. destruct o as [r|]; cbn [s_reset].
    + pose proof (destroy_sim c r w Hp) as D.
      destruct (destroy_value C1 (dtor C1) c w) as [[c1 w1]|p| |]; destruct (s_destroy C2 r w) as [w'|w'| |];
        cbn in D |- *; auto; try contradiction.
      * destruct D as [Ha ->]. destruct (empty_ok C1 Sm L c1 w') as (c' & -> & Hc & Ha'). cbn.
        split; [|reflexivity]. repeat split; auto; apply Hc.
      * destruct (o_empty C1 c1 w1); cbn; auto.
    + cbn. split; [|reflexivity]. split; [exact Hp|reflexivity].
Qed.

Lemma dtor_sim : forall c o w, pairs c o ->
  agree B (o_dtor C1 c w) (s_reset C2 o w) (fun p q => c_alive (fst p) = false /\ fst q = None /\ snd p = snd q) (fun _ _ => False).
Proof.
  intros c o w Hp. unfold o_dtor. destruct (td C1) eqn:Etd.
  - destruct o as [r|]; cbn; auto.
    pose proof (dtor_td _ _ w (proj2 (proj2 Hp)) Etd) as D.
    destruct (s_destroy C2 r w) as [w'|w'| |]; cbn; auto.
  - rewrite (pairs_has c o Hp). cbn [check]. destruct o as [r|]; cbn [s_reset].
    + pose proof (destroy_sim c r w Hp) as D.
      destruct (destroy_value C1 (dtor C1) c w) as [[c1 w1]|p| |]; destruct (s_destroy C2 r w) as [w'|w'| |];
        cbn in D |- *; auto; try contradiction.
      destruct D as [Ha ->]. auto.
    + cbn. destruct Hp as [_ Ha]. auto.
Qed.

(** Creating the contained object. *)
Lemma construct_sim : forall X Y (mk1 : raw C1 -> X -> out (raw C1 * X)) (mk2 : raw C2 -> Y -> out (raw C2 * Y)) c x y
    (RX EX : X -> Y -> Prop),
  inv c -> c_alive c = false ->
  agree B (mk1 (c_raw c) x) (mk2 g y)
    (fun p q => RX (snd p) (snd q) /\ (R (fst p) (fst q) \/ (B /\ none_pattern C1 (fst p)))) (fun p q => EX (snd p) (snd q)) ->
  (forall r' x', 0 < lmax C1 -> lget C1 (c_raw c) < lmax C1 -> mk1 (c_raw c) x = Exn (r', x') -> lget C1 r' = lget C1 (c_raw c)) ->
  agree B (o_construct C1 mk1 c x) (s_make C2 g mk2 y)
    (fun p q => pairs (fst p) (fst q) /\ RX (snd p) (snd q))
    (fun p q => pairs (fst p) (fst q) /\ EX (snd p) (snd q)).
Proof.
  intros X Y mk1 mk2 c x y RX EX Hi Ha H Hq. unfold o_construct, s_make. rewrite Ha. cbn [andb].
  destruct (mk1 (c_raw c) x) as [[r x']|[r x']| |] eqn:E1; destruct (mk2 g y) as [[r2 y']|[r2 y']| |];
    cbn [agree fst snd] in *; try contradiction; auto;
    try (destruct (traits C1); [cbn zeta; destruct (o_has C1 _) as [[|]| |]|]; cbn; auto; fail).
  - destruct H as [HX H]. destruct (traits_spec C1) as [[Ht Hm]|[Ht Hm]]; rewrite Ht.
    + destruct H as [H|[HB [_ Hn]]].
      * assert (Hp : pairs (mkcell r (c_flag c) true) (Some r2)) by (apply pairs_some; [exact H|lia]).
        cbn zeta. rewrite (pairs_has _ _ Hp). cbn. split; assumption.
      * cbn zeta. unfold o_has. cbn [c_raw]. rewrite Ht, Hn. cbn. exact HB.
    + destruct H as [H|[_ [Hx _]]]; [|lia]. cbn. split; [|exact HX]. now apply pairs_some.
  - split; [|exact H]. destruct Hi as (I1 & I2 & I3). split; [|reflexivity]. split; [|split]; cbn; try discriminate.
    + intros Hm _. rewrite (Hq r x' Hm); auto. rewrite (I2 Hm Ha). exact Hm.
    + intros Hm. rewrite (I3 Hm), Ha. reflexivity.
Qed.

(** Constructors that throw take the default-constructed option with them. *)
Lemma with_base_sim : forall X Y (dt : cell C1 -> X -> out (cell C1 * X)) body (m2 : out (held C2 * Y)) c x
    (RX EX : X -> Y -> Prop),
  (forall c1 x1 y1, pairs c1 None -> EX x1 y1 -> exists c2, dt c1 x1 = Ret (c2, x1)) ->
  (forall c0, pairs c0 None -> agree B (body c0 x) m2
     (fun p q => pairs (fst p) (fst q) /\ RX (snd p) (snd q))
     (fun p q => pairs (fst p) (fst q) /\ fst q = None /\ EX (snd p) (snd q))) ->
  agree B (with_base C1 dt body c x) m2
    (fun p q => pairs (fst p) (fst q) /\ RX (snd p) (snd q)) (fun p q => EX (snd p) (snd q)).
Proof.
  intros X Y dt body m2 c x RX EX Hd Hb. unfold with_base.
  destruct (default_ok C1 Sm L c) as (c0 & -> & Hi & Ha). specialize (Hb c0 (conj Hi Ha)).
  destruct (body c0 x) as [p|[c1 x1]| |]; destruct m2 as [[o y1]|[o y1]| |]; cbn in Hb |- *; auto; try contradiction.
  - destruct Hb as (Hp & -> & HE). destruct (Hd c1 x1 y1 Hp HE) as [c2 ->]. cbn. exact HE.
  - destruct (dt c1 x1); cbn; auto.
Qed.

Lemma dtor_empty : forall c w, pairs c None -> exists c2, o_dtor C1 c w = Ret (c2, w).
Proof.
  intros c w Hp. unfold o_dtor. destruct (td C1); [eexists; reflexivity|].
  rewrite (pairs_has c None Hp). cbn. eexists; reflexivity.
Qed.

Lemma make_none : forall X (mk : raw C2 -> X -> out (raw C2 * X)) x o x', s_make C2 g mk x = Exn (o, x') -> o = None.
Proof.
  intros X mk x o x' H. unfold s_make in H. destruct (mk g x) as [[r y]|[r y]| |]; try discriminate.
  now injection H.
Qed.

(** Construction with the arguments of T's constructor, copying, moving. *)
Lemma construct_init_sim : forall i1 i2 c w, Ri i1 i2 -> quiet_init C1 i1 -> pairs c None ->
  agree B (o_construct C1 (ctor C1 i1) c w) (s_make C2 g (ctor C2 i2) w) cells cells.
Proof.
  intros i1 i2 c w Hr Hq [Hi Ha].
  apply construct_sim with (RX := eq) (EX := eq); auto.
  - eapply agree_mono; [exact (sim_ctor _ _ _ _ _ HS i1 i2 _ _ w Hr)| |]; cbn; auto.
  - intros r' x' Hm Hl E. exact (Hq _ _ _ _ Hm Hl E).
Qed.

Lemma construct_copy_sim : forall s1 s2 c w, R s1 s2 -> quiet_copy C1 Sm -> pairs c None ->
  agree B (o_construct C1 (cctor C1 s1) c w) (s_make C2 g (cctor C2 s2) w) cells cells.
Proof.
  intros s1 s2 c w Hr Hq [Hi Ha].
  apply construct_sim with (RX := eq) (EX := eq); auto.
  - eapply agree_mono; [exact (sim_cctor _ _ _ _ _ HS s1 s2 _ _ w Hr)| |]; cbn; [|auto].
    intros a b [H1 H2]. auto.
  - intros r' x' Hm Hl E. exact (Hq _ _ _ _ _ (sim_ok _ _ _ _ _ HS _ _ Hr) Hm Hl E).
Qed.

Lemma from_cell_sim : forall f1 f2 c s r2 w g1 g2 (P : raw C1 -> raw C2 -> Prop),
  pairs s (Some r2) -> c = g1 ->
  agree B (f1 g1 (c_raw s, w)) (f2 g2 (r2, w))
    (fun p q => P (fst p) (fst q) /\ one C1 C2 R (snd p) (snd q))
    (fun p q => P (fst p) (fst q) /\ one C1 C2 R (snd p) (snd q)) ->
  agree B (from_cell C1 f1 c (s, w)) (s_other C2 f2 g2 (Some r2, w))
    (fun p q => P (fst p) (fst q) /\ cells (snd p) (snd q))
    (fun p q => P (fst p) (fst q) /\ cells (snd p) (snd q)).
Proof.
  intros f1 f2 c s r2 w g1 g2 P [Hi [Ha Hr]] -> H. unfold from_cell, s_other. rewrite Ha.
  destruct (f1 g1 (c_raw s, w)) as [[r [s' w']]|[r [s' w']]| |]; destruct (f2 g2 (r2, w)) as [[q [t u]]|[q [t u]]| |];
    cbn in H |- *; auto; destruct H as [H1 [H2 H3]]; split; auto; split; auto; now apply pairs_set.
Qed.

Lemma from_cell_move : forall c s r2 w, pairs s (Some r2) ->
  agree B (from_cell C1 (mctor C1) c (s, w)) (s_other C2 (mctor C2) g (Some r2, w))
    (fun p q => R (fst p) (fst q) /\ cells (snd p) (snd q)) (fun p q => cells (snd p) (snd q)).
Proof.
  intros c s r2 w [Hi [Ha Hr]]. unfold from_cell, s_other. rewrite Ha.
  pose proof (sim_mctor _ _ _ _ _ HS _ _ c g w Hr) as H.
  destruct (mctor C1 c (c_raw s, w)) as [[r [s' w']]|[r [s' w']]| |]; destruct (mctor C2 g (r2, w)) as [[q [t u]]|[q [t u]]| |];
    cbn in H |- *; auto.
  - destruct H as [H1 [H2 H3]]. cbn in *. split; auto. split; auto. now apply pairs_set.
  - destruct H as [H2 H3]. cbn in *. split; auto. now apply pairs_set.
Qed.

Lemma construct_move_sim : forall s r2 c w, pairs s (Some r2) -> quiet_move C1 Sm -> pairs c None ->
  agree B (o_construct C1 (from_cell C1 (mctor C1)) c (s, w)) (s_make C2 g (s_other C2 (mctor C2)) (Some r2, w)) cells2 cells2.
Proof.
  intros s r2 c w Hs Hq [Hi Ha].
  apply construct_sim with (RX := cells) (EX := cells); auto.
  - eapply agree_mono; [exact (from_cell_move (c_raw c) s r2 w Hs)| |]; cbn; auto.
    intros a b [H1 H2]. auto.
  - intros r' x' Hm Hl E. unfold from_cell in E. destruct Hs as [Hsi [Hsa Hr]]. rewrite Hsa in E.
    destruct (mctor C1 (c_raw c) (c_raw s, w)) as [[r [s' w']]|[r [s' w']]| |] eqn:E1; try discriminate.
    injection E as <- <-. exact (Hq _ _ _ _ _ (sim_ok _ _ _ _ _ HS _ _ Hr) Hm Hl E1).
Qed.

(** Assigning to the contained object: with and without the check that follows. *)
Lemma use_sim : forall X Y (f1 : raw C1 -> X -> out (raw C1 * X)) (f2 : raw C2 -> Y -> out (raw C2 * Y)) c r2 x y
    (RX EX : X -> Y -> Prop) h,
  pairs c (Some r2) ->
  agree B (f1 (c_raw c) x) (f2 r2 y)
    (fun p q => R (fst p) (fst q) /\ RX (snd p) (snd q)) (fun p q => R (fst p) (fst q) /\ EX (snd p) (snd q)) ->
  agree B
    (if c_alive c then
       match f1 (c_raw c) x with
       | Ret (r, w') => Ret (mkcell r (c_flag c) true, w')
       | Exn (r, w') => Exn (mkcell r (c_flag c) true, w')
       | Abort => Abort
       | Undef => Undef
       end else h)
    (s_use C2 f2 r2 y)
    (fun p q => pairs (fst p) (fst q) /\ RX (snd p) (snd q)) (fun p q => pairs (fst p) (fst q) /\ EX (snd p) (snd q)).
Proof.
  intros X Y f1 f2 c r2 x y RX EX h [Hi [Ha Hr]] H. rewrite Ha. unfold s_use.
  destruct (f1 (c_raw c) x) as [[r x']|[r x']| |]; destruct (f2 r2 y) as [[q y']|[q y']| |]; cbn in H |- *; auto;
    destruct H as [H1 H2]; split; auto; now apply pairs_set.
Qed.

Lemma assign_sim : forall X Y (f1 : raw C1 -> X -> out (raw C1 * X)) (f2 : raw C2 -> Y -> out (raw C2 * Y)) c r2 x y
    (RX EX : X -> Y -> Prop),
  pairs c (Some r2) ->
  agree B (f1 (c_raw c) x) (f2 r2 y)
    (fun p q => RX (snd p) (snd q) /\ (R (fst p) (fst q) \/ (B /\ none_pattern C1 (fst p))))
    (fun p q => R (fst p) (fst q) /\ EX (snd p) (snd q)) ->
  agree B (o_assign_value C1 f1 c x) (s_use C2 f2 r2 y)
    (fun p q => pairs (fst p) (fst q) /\ RX (snd p) (snd q)) (fun p q => pairs (fst p) (fst q) /\ EX (snd p) (snd q)).
Proof.
  intros X Y f1 f2 c r2 x y RX EX [Hi [Ha Hr]] H. unfold o_assign_value. rewrite Ha. unfold s_use.
  destruct (f1 (c_raw c) x) as [[r x']|[r x']| |]; destruct (f2 r2 y) as [[q y']|[q y']| |]; cbn [agree fst snd] in H |- *; auto;
    try contradiction; try (cbn zeta; destruct (o_has C1 _) as [[|]| |]; cbn; auto; fail).
  - destruct H as [HX [H|[HB [Hm Hn]]]].
    + assert (Hp : pairs (mkcell r (c_flag c) true) (Some q)) by now apply pairs_set.
      cbn zeta. rewrite (pairs_has _ _ Hp). cbn. split; assumption.
    + cbn zeta. unfold o_has. cbn [c_raw]. destruct (traits_spec C1) as [[Ht _]|[_ Hx]]; [|lia].
      rewrite Ht, Hn. cbn. exact HB.
  - destruct H as [H HX]. split; auto. now apply pairs_set.
Qed.

(** Constructing over a scalar is assigning to it. *)
Lemma over_sim : forall (f1 : raw C1 -> W -> out (raw C1 * W)) (f2 : raw C2 -> W -> out (raw C2 * W)) c r2 w,
  scalar C1 = true -> pairs c (Some r2) ->
  (forall r' w', f1 (c_raw c) w = Exn (r', w') -> r' = c_raw c) ->
  agree B (f1 (c_raw c) w) (f2 r2 w) (one_or_none C1 C2 Sm R) (one C1 C2 R) ->
  agree B (o_construct C1 f1 c w) (s_use C2 f2 r2 w) cells cells.
Proof.
  intros f1 f2 c r2 w Hsc [Hi [Ha Hr]] Hsame H. unfold o_construct, s_use. rewrite Ha.
  rewrite (l_scalar_td _ _ L Hsc). cbn [andb negb].
  destruct (f1 (c_raw c) w) as [[r w']|[r w']| |]; destruct (f2 r2 w) as [[q v]|[q v]| |];
    cbn [agree fst snd] in H |- *; auto; try contradiction;
    try (destruct (traits C1); [cbn zeta; destruct (o_has C1 _) as [[|]| |]|]; cbn; auto; fail).
  - destruct H as [HX H]. cbn in HX, H. subst v. destruct (traits_spec C1) as [[Ht Hm]|[Ht Hm]]; rewrite Ht.
    + destruct H as [H|[HB [_ Hn]]].
      * assert (Hp : pairs (mkcell r (c_flag c) true) (Some q)) by (apply pairs_some; [exact H|lia]).
        cbn zeta. rewrite (pairs_has _ _ Hp). cbn. now split.
      * cbn zeta. unfold o_has. cbn [c_raw]. rewrite Ht, Hn. cbn. exact HB.
    + destruct H as [H|[_ [Hx _]]]; [|lia]. cbn. split; [|reflexivity]. now apply pairs_some.
  - destruct H as [H1 H2]. cbn in *. subst v. split; [|reflexivity]. cbn. rewrite (Hsame r w' eq_refl) in *.
    now apply pairs_set.
Qed.

(** * The members *)

Lemma ctor_sim : forall i1 i2 c o w, oinit_rel C1 C2 Ri i1 i2 -> (forall i, i1 = IConv (Some i) -> quiet_init C1 i) ->
  agree B (o_ctor C1 i1 c w) (s_ctor C2 g i2 o w) cells (fun p q => snd p = snd q).
Proof.
  intros i1 i2 c o w Hr Hq.
  destruct (default_ok C1 Sm L c) as (c0 & E & Hi & Ha).
  destruct i1 as [|i1|[i1|]], i2 as [|i2|[i2|]]; cbn in Hr; try contradiction.
  - cbn. rewrite E. cbn. repeat split; auto; apply Hi.
  - cbn [o_ctor s_ctor]. unfold o_inplace, s_make.
    pose proof (sim_ctor _ _ _ _ _ HS i1 i2 (c_raw c) g w Hr) as H.
    destruct (ctor C1 i1 (c_raw c) w) as [[r w']|[r w']| |]; destruct (ctor C2 i2 g w) as [[q v]|[q v]| |];
      cbn [agree fst snd] in H |- *; auto; try contradiction;
      try (destruct (traits C1); [cbn zeta; destruct (o_has C1 _) as [[|]| |]|]; cbn; auto; fail).
    destruct H as [HX H]. cbn in HX, H. subst v. destruct (traits_spec C1) as [[Ht Hm]|[Ht Hm]]; rewrite Ht.
    + destruct H as [H|[HB [_ Hn]]].
      * assert (Hp : pairs (mkcell r (c_flag c) true) (Some q)) by (apply pairs_some; [exact H|lia]).
        cbn zeta. rewrite (pairs_has _ _ Hp). cbn. now split.
      * cbn zeta. unfold o_has. cbn [c_raw]. rewrite Ht, Hn. cbn. exact HB.
    + destruct H as [H|[_ [Hx _]]]; [|lia]. cbn. split; [|reflexivity]. now apply pairs_some.
  - cbn [o_ctor s_ctor]. apply with_base_sim with (RX := eq) (EX := eq).
    + intros c1 x1 y1 Hp ->. now apply dtor_empty.
    + intros c0' Hp. pose proof (construct_init_sim i1 i2 c0' w Hr (Hq _ eq_refl) Hp) as H.
      destruct (s_make C2 g (ctor C2 i2) w) as [q|[o' w']| |] eqn:Em;
        destruct (o_construct C1 (ctor C1 i1) c0' w) as [p|p| |]; cbn in H |- *; auto.
      destruct H as [H1 H2]. cbn in *. pose proof (make_none _ _ _ _ _ Em). auto.
  - cbn [o_ctor s_ctor]. unfold with_base. rewrite E. cbn. repeat split; auto; apply Hi.
Qed.

Lemma cctor_sim : forall s1 s2 c o w, pairs s1 s2 -> quiet_copy C1 Sm ->
  agree B (o_cctor C1 s1 c w) (s_cctor C2 g s2 o w) cells (fun p q => snd p = snd q).
Proof.
  intros s1 s2 c o w Hs Hq. unfold o_cctor. destruct (tcc C1) eqn:Et.
  - destruct s2 as [r2|]; cbn [s_cctor].
    + destruct Hs as [Hi [Ha Hr]]. pose proof (sim_cctor _ _ _ _ _ HS _ _ (c_raw c) g w Hr) as H.
      rewrite (h_tcc _ _ HH _ _ _ Et (sim_ok _ _ _ _ _ HS _ _ Hr)) in H. unfold s_make.
      destruct (cctor C2 r2 g w) as [[q v]|[q v]| |]; cbn in H |- *; auto. destruct H as [H1 H2]. cbn in *.
      split; [|exact H2]. split; [exact Hi|]. now split.
    + cbn. split; [exact Hs|reflexivity].
  - destruct s2 as [r2|]; cbn [s_cctor].
    + apply with_base_sim with (RX := eq) (EX := eq).
      * intros c1 x1 y1 Hp ->. now apply dtor_empty.
      * intros c0 Hp. rewrite (pairs_has _ _ Hs). cbn [check]. destruct Hs as [Hi [Ha Hr]]. rewrite Ha.
        pose proof (construct_copy_sim _ _ c0 w Hr Hq Hp) as H.
        destruct (s_make C2 g (cctor C2 r2) w) as [q|[o' w']| |] eqn:Em;
          destruct (o_construct C1 (cctor C1 (c_raw s1)) c0 w) as [p|p| |]; cbn in H |- *; auto.
        destruct H as [H1 H2]. cbn in *. pose proof (make_none _ _ _ _ _ Em). auto.
    + unfold with_base. destruct (default_ok C1 Sm L c) as (c0 & -> & Hi & Ha).
      rewrite (pairs_has _ _ Hs). cbn. repeat split; auto; apply Hi.
Qed.

Lemma mctor_sim : forall s1 s2 c o w, pairs s1 s2 -> quiet_move C1 Sm ->
  agree B (o_mctor C1 c (s1, w)) (s_mctor C2 g o (s2, w)) cells2 (fun p q => cells (snd p) (snd q)).
Proof.
  intros s1 s2 c o w Hs Hq. unfold o_mctor. destruct (tmc C1) eqn:Et.
  - destruct s2 as [r2|]; cbn [s_mctor fst].
    + destruct Hs as [Hi [Ha Hr]]. pose proof (sim_mctor _ _ _ _ _ HS _ _ (c_raw c) g w Hr) as H.
      rewrite (h_tmc _ _ HH _ _ _ Et (sim_ok _ _ _ _ _ HS _ _ Hr)) in H. unfold s_make, s_other.
      destruct (mctor C2 g (r2, w)) as [[q [t v]]|[q [t v]]| |]; cbn in H |- *; auto. destruct H as [H1 [H2 H3]]. cbn in *.
      split; [|split; [|exact H3]]; (split; [exact Hi|]; now split).
    + cbn. split; [exact Hs|]. split; [exact Hs|reflexivity].
  - destruct s2 as [r2|]; cbn [s_mctor fst].
    + apply with_base_sim with (RX := cells) (EX := cells).
      * intros c1 [x1 w1] y1 Hp HE. unfold lift. cbn [fst snd]. destruct (dtor_empty c1 w1 Hp) as [c2 ->]. now exists c2.
      * intros c0 Hp. cbn [fst]. rewrite (pairs_has _ _ Hs). cbn [check].
        pose proof (construct_move_sim _ _ c0 w Hs Hq Hp) as H.
        destruct (s_make C2 g (s_other C2 (mctor C2)) (Some r2, w)) as [q|[o' w']| |] eqn:Em;
          destruct (o_construct C1 (from_cell C1 (mctor C1)) c0 (s1, w)) as [p|p| |]; cbn in H |- *; auto.
        destruct H as [H1 H2]. cbn in *. pose proof (make_none _ _ _ _ _ Em). auto.
    + unfold with_base. destruct (default_ok C1 Sm L c) as (c0 & -> & Hi & Ha).
      cbn [fst]. rewrite (pairs_has _ _ Hs). cbn. split; [split; [exact Hi|exact Ha]|]. split; [exact Hs|reflexivity].
Qed.

Lemma drop_none : forall c o w, pairs c o ->
  agree B (o_reset C1 c w) (s_reset C2 o w) cells cells.
Proof.
  intros c o w Hp. eapply agree_mono; [exact (reset_sim c o w Hp)| |]; cbn; [tauto|contradiction].
Qed.

Lemma reset_cells : forall c o w, pairs c o -> agree B (o_reset C1 c w) (s_reset C2 o w) cells cells.
Proof. exact drop_none. Qed.

Lemma value_sim : forall i1 i2 c o w, Ri i1 i2 -> quiet_init C1 i1 -> pairs c o ->
  agree B (check (o_has C1 c) (fun h => if h then o_assign_value C1 (asgn C1 i1) c w else o_construct C1 (ctor C1 i1) c w))
    (match o with Some r => s_use C2 (asgn C2 i2) r w | None => s_make C2 g (ctor C2 i2) w end) cells cells.
Proof.
  intros i1 i2 c o w Hr Hq Hp. rewrite (pairs_has _ _ Hp). cbn [check]. destruct o as [r|].
  - apply assign_sim with (RX := eq) (EX := eq); [exact Hp|].
    eapply agree_mono; [exact (sim_asgn _ _ _ _ _ HS i1 i2 _ _ w Hr (proj2 (proj2 Hp)))| |]; cbn; auto.
  - now apply construct_init_sim.
Qed.

Lemma asgn_sim : forall i1 i2 c o w, oinit_rel C1 C2 Ri i1 i2 ->
  (forall i, i1 = IVal i \/ i1 = IConv (Some i) -> quiet_init C1 i) -> pairs c o ->
  agree B (o_asgn C1 i1 c w) (s_asgn C2 g i2 o w) cells cells.
Proof.
  intros i1 i2 c o w Hr Hq Hp.
  destruct i1 as [|i1|[i1|]], i2 as [|i2|[i2|]]; cbn in Hr; try contradiction; cbn [o_asgn s_asgn].
  - now apply reset_cells.
  - destruct (scalar C1) eqn:Es; [|apply value_sim; auto].
    destruct o as [r|]; [|apply construct_init_sim; auto].
    apply over_sim; auto.
    + intros r' w' E. exact (l_scalar_throw _ _ L _ _ _ _ _ Es E).
    + pose proof (sim_asgn _ _ _ _ _ HS i1 i2 _ _ w Hr (proj2 (proj2 Hp))) as H.
      now rewrite (h_scalar _ _ HH _ _ _ Es (proj1 (proj1 Hp) (proj1 (proj2 Hp)))) in H.
  - apply value_sim; auto.
  - now apply reset_cells.
Qed.

Lemma cassign_sim : forall s1 s2 c o w, pairs s1 s2 -> quiet_copy C1 Sm -> pairs c o ->
  agree B (o_cassign C1 s1 c w) (s_cassign C2 g s2 o w) cells cells.
Proof.
  intros s1 s2 c o w Hs Hq Hp. unfold o_cassign. destruct (tcc C1 && (tca C1 && td C1))%bool eqn:Et.
  - apply andb_prop in Et as [Ecc Et]. apply andb_prop in Et as [Eca Etd].
    destruct s2 as [r2|], o as [r|]; cbn [s_cassign].
    + destruct Hs as [Hi [Ha Hr]], Hp as [Hi' [Ha' Hr']].
      pose proof (sim_cassign _ _ _ _ _ HS _ _ _ _ w Hr Hr') as H.
      rewrite (h_tca _ _ HH _ _ _ Eca (sim_ok _ _ _ _ _ HS _ _ Hr) (sim_ok _ _ _ _ _ HS _ _ Hr')) in H. unfold s_use.
      destruct (cassign C2 r2 r w) as [[q v]|[q v]| |]; cbn in H |- *; auto. destruct H as [H1 H2]. cbn in *.
      split; [|exact H2]. split; [exact Hi|]. now split.
    + destruct Hs as [Hi [Ha Hr]]. pose proof (sim_cctor _ _ _ _ _ HS _ _ (c_raw c) g w Hr) as H.
      rewrite (h_tcc _ _ HH _ _ _ Ecc (sim_ok _ _ _ _ _ HS _ _ Hr)) in H. unfold s_make.
      destruct (cctor C2 r2 g w) as [[q v]|[q v]| |]; cbn in H |- *; auto. destruct H as [H1 H2]. cbn in *.
      split; [|exact H2]. split; [exact Hi|]. now split.
    + cbn [s_reset]. pose proof (dtor_td _ _ w (proj2 (proj2 Hp)) Etd) as D.
      destruct (s_destroy C2 r w) as [w'|w'| |]; cbn; auto. subst. split; [exact Hs|reflexivity].
    + cbn. split; [exact Hs|reflexivity].
  - rewrite (pairs_has _ _ Hs). cbn [check]. destruct s2 as [r2|].
    + rewrite (pairs_has _ _ Hp). cbn [check]. destruct o as [r|]; cbn [s_cassign].
      * assert (Has : c_alive s1 = true) by apply Hs. rewrite Has. cbn [andb].
        apply (use_sim W W (cassign C1 (c_raw s1)) (cassign C2 r2) c r w w eq eq Undef Hp).
        exact (sim_cassign _ _ _ _ _ HS _ _ _ _ w (proj2 (proj2 Hs)) (proj2 (proj2 Hp))).
      * assert (Has : c_alive s1 = true) by apply Hs. rewrite Has.
        apply construct_copy_sim; auto. exact (proj2 (proj2 Hs)).
    + destruct o as [r|]; cbn [s_cassign]; [now apply reset_cells|].
      exact (reset_cells c None w Hp).
Qed.

Lemma massign_sim : forall s1 s2 c o w, pairs s1 s2 -> quiet_move C1 Sm -> pairs c o ->
  agree B (o_massign C1 c (s1, w)) (s_massign C2 g o (s2, w)) cells2 cells2.
Proof.
  intros s1 s2 c o w Hs Hq Hp. unfold o_massign. destruct (tmc C1 && (tma C1 && td C1))%bool eqn:Et.
  - apply andb_prop in Et as [Ecc Et]. apply andb_prop in Et as [Eca Etd].
    destruct s2 as [r2|], o as [r|]; cbn [s_massign fst].
    + destruct Hs as [Hi [Ha Hr]], Hp as [Hi' [Ha' Hr']].
      pose proof (sim_massign _ _ _ _ _ HS _ _ _ _ w Hr Hr') as H.
      rewrite (h_tma _ _ HH _ _ _ Eca (sim_ok _ _ _ _ _ HS _ _ Hr) (sim_ok _ _ _ _ _ HS _ _ Hr')) in H. unfold s_use, s_other.
      destruct (massign C2 r (r2, w)) as [[q [t v]]|[q [t v]]| |]; cbn in H |- *; auto. destruct H as [H1 [H2 H3]]. cbn in *.
      split; [|split; [|exact H3]]; (split; [exact Hi|]; now split).
    + destruct Hs as [Hi [Ha Hr]]. pose proof (sim_mctor _ _ _ _ _ HS _ _ (c_raw c) g w Hr) as H.
      rewrite (h_tmc _ _ HH _ _ _ Ecc (sim_ok _ _ _ _ _ HS _ _ Hr)) in H. unfold s_make, s_other.
      destruct (mctor C2 g (r2, w)) as [[q [t v]]|[q [t v]]| |]; cbn in H |- *; auto. destruct H as [H1 [H2 H3]]. cbn in *.
      split; [|split; [|exact H3]]; (split; [exact Hi|]; now split).
    + unfold s_reset2. cbn [s_reset fst snd]. pose proof (dtor_td _ _ w (proj2 (proj2 Hp)) Etd) as D.
      destruct (s_destroy C2 r w) as [w'|w'| |]; cbn; auto. subst. split; [exact Hs|]. split; [exact Hs|reflexivity].
    + cbn. split; [exact Hs|]. split; [exact Hs|reflexivity].
  - cbn [fst]. rewrite (pairs_has _ _ Hs). cbn [check]. destruct s2 as [r2|].
    + rewrite (pairs_has _ _ Hp). cbn [check]. destruct o as [r|]; cbn [s_massign fst].
      * apply (use_sim (cell C1 * W) (held C2 * W) (from_cell C1 (massign C1)) (s_other C2 (massign C2)) c r (s1, w) (Some r2, w) cells cells Undef Hp).
        apply (from_cell_sim (massign C1) (massign C2) (c_raw c) s1 r2 w (c_raw c) r R Hs eq_refl).
        exact (sim_massign _ _ _ _ _ HS _ _ _ _ w (proj2 (proj2 Hs)) (proj2 (proj2 Hp))).
      * now apply construct_move_sim.
    + assert (E : s_massign C2 g o (None, w) = s_reset2 C2 o (None, w)) by (destruct o; reflexivity).
      rewrite E. unfold lift, s_reset2. cbn [fst snd]. pose proof (reset_cells c o w Hp) as H.
      destruct (o_reset C1 c w) as [[c' w']|[c' w']| |]; destruct (s_reset C2 o w) as [[o' v]|[o' v]| |]; cbn in H |- *; auto;
        destruct H as [H1 H2]; split; auto; split; auto; exact Hs.
Qed.

Lemma self_cassign_sim : forall c o w, pairs c o ->
  agree B (o_self_cassign C1 c w) (s_self_cassign C2 o w) cells cells.
Proof.
  intros c o w Hp. unfold o_self_cassign. destruct (tcc C1 && (tca C1 && td C1))%bool eqn:Et.
  - apply andb_prop in Et as [_ Et]. apply andb_prop in Et as [Eca _].
    destruct o as [r|]; cbn [s_self_cassign]; [|cbn; split; [exact Hp|reflexivity]].
    destruct Hp as [Hi [Ha Hr]]. pose proof (sim_self_cassign _ _ _ _ _ HS _ _ w Hr) as H.
    rewrite (h_tca_self _ _ HH _ _ Eca (sim_ok _ _ _ _ _ HS _ _ Hr)) in H. unfold s_use.
    destruct (self_cassign C2 r w) as [[q v]|[q v]| |]; cbn in H |- *; auto. destruct H as [H1 H2]. cbn in *.
    split; [|exact H2]. split; [exact Hi|]. now split.
  - rewrite (pairs_has _ _ Hp). cbn [check]. destruct o as [r|]; cbn [s_self_cassign].
    + apply (use_sim W W (self_cassign C1) (self_cassign C2) c r w w eq eq Undef Hp).
      exact (sim_self_cassign _ _ _ _ _ HS _ _ w (proj2 (proj2 Hp))).
    + exact (reset_cells c None w Hp).
Qed.

Lemma self_massign_sim : forall c o w, pairs c o ->
  agree B (o_self_massign C1 c w) (s_self_massign C2 o w) cells cells.
Proof.
  intros c o w Hp. unfold o_self_massign. destruct (tmc C1 && (tma C1 && td C1))%bool eqn:Et.
  - apply andb_prop in Et as [_ Et]. apply andb_prop in Et as [Eca _].
    destruct o as [r|]; cbn [s_self_massign]; [|cbn; split; [exact Hp|reflexivity]].
    destruct Hp as [Hi [Ha Hr]]. pose proof (sim_self_massign _ _ _ _ _ HS _ _ w Hr) as H.
    rewrite (h_tma_self _ _ HH _ _ Eca (sim_ok _ _ _ _ _ HS _ _ Hr)) in H. unfold s_use.
    destruct (self_massign C2 r w) as [[q v]|[q v]| |]; cbn in H |- *; auto. destruct H as [H1 H2]. cbn in *.
    split; [|exact H2]. split; [exact Hi|]. now split.
  - rewrite (pairs_has _ _ Hp). cbn [check]. destruct o as [r|]; cbn [s_self_massign].
    + apply (use_sim W W (self_massign C1) (self_massign C2) c r w w eq eq Undef Hp).
      exact (sim_self_massign _ _ _ _ _ HS _ _ w (proj2 (proj2 Hp))).
    + exact (reset_cells c None w Hp).
Qed.

Lemma one_none : forall p q, one C1 C2 R p q -> one_or_none C1 C2 Sm R p q.
Proof. intros p q [H1 H2]. split; auto. Qed.

Lemma set_from_sim : forall s1 s2 c o w, R s1 s2 -> quiet_copy C1 Sm -> pairs c o ->
  agree B (o_set_from C1 s1 c w) (s_set_from C2 g s2 o w) cells cells.
Proof.
  intros s1 s2 c o w Hr Hq Hp. unfold o_set_from, s_set_from. destruct (scalar C1) eqn:Es.
  - destruct o as [r|]; [|now apply construct_copy_sim].
    assert (Ho : ok Sm (c_raw c)) by exact (proj1 (proj1 Hp) (proj1 (proj2 Hp))).
    apply over_sim; auto.
    + intros r' w' E. destruct (l_scalar_copy _ _ L _ _ _ (r', w') Es (sim_ok _ _ _ _ _ HS _ _ Hr) E).
    + pose proof (sim_cassign _ _ _ _ _ HS _ _ _ _ w Hr (proj2 (proj2 Hp))) as H.
      rewrite (h_scalar_copy _ _ HH _ _ _ Es (sim_ok _ _ _ _ _ HS _ _ Hr) Ho) in H.
      eapply agree_mono; [exact H|exact one_none|auto].
  - rewrite (pairs_has _ _ Hp). cbn [check]. destruct o as [r|]; [|now apply construct_copy_sim].
    apply assign_sim with (RX := eq) (EX := eq); [exact Hp|].
    eapply agree_mono; [exact (sim_cassign _ _ _ _ _ HS _ _ _ _ w Hr (proj2 (proj2 Hp)))| |]; cbn; auto.
    intros a b [H1 H2]. auto.
Qed.

Lemma set_self_sim : forall c r w, pairs c (Some r) ->
  agree B (o_set_self C1 c w) (s_set_self C2 (Some r) w) cells cells.
Proof.
  intros c r w Hp. unfold o_set_self, s_set_self.
  assert (Ho : ok Sm (c_raw c)) by exact (proj1 (proj1 Hp) (proj1 (proj2 Hp))).
  pose proof (sim_self_cassign _ _ _ _ _ HS _ _ w (proj2 (proj2 Hp))) as H.
  destruct (scalar C1) eqn:Es.
  - apply over_sim; auto.
    + intros r' w' E. destruct (l_scalar_copy _ _ L _ _ _ (r', w') Es Ho E).
    + rewrite (h_scalar_self _ _ HH _ _ Es Ho) in H. eapply agree_mono; [exact H|exact one_none|auto].
  - rewrite (pairs_has _ _ Hp). cbn [check].
    apply assign_sim with (RX := eq) (EX := eq); [exact Hp|].
    eapply agree_mono; [exact H| |]; cbn; auto. intros a b [H1 H2]. auto.
Qed.

Lemma emplace_sim : forall mk1 mk2 c o w, pairs c o ->
  (forall c' w', pairs c' None -> agree B (o_construct C1 mk1 c' w') (s_make C2 g mk2 w') cells cells) ->
  agree B (o_emplace C1 (o_reset C1) mk1 c w) (s_emplace C2 g mk2 o w) cells cells.
Proof.
  intros mk1 mk2 c o w Hp H. unfold o_emplace, s_emplace. pose proof (reset_sim c o w Hp) as Hr.
  destruct (o_reset C1 c w) as [[c' w']|[c' w']| |]; destruct (s_reset C2 o w) as [[o' v]|[o' v]| |]; cbn in Hr |- *; auto;
    try contradiction.
  - destruct Hr as [[H1 H2] H3]. cbn in *. subst. now apply H.
  - destruct (o_construct C1 mk1 c' w'); cbn; auto.
  - destruct (s_make C2 g mk2 v); cbn; auto.
Qed.

Lemma swap_sim : forall a1 a2 b1 b2 w, sim_swap C1 C2 Sm R -> quiet_move C1 Sm -> pairs a1 a2 -> pairs b1 b2 ->
  agree B (o_swap C1 a1 (b1, w)) (s_swap C2 g a2 (b2, w)) cells2 cells2.
Proof.
  intros a1 a2 b1 b2 w HW Hq Ha Hb. unfold o_swap. rewrite (pairs_has _ _ Ha), (pairs_has _ _ Hb). cbn [check].
  destruct a2 as [ra|], b2 as [rb|]; cbn [s_swap fst snd andb negb]; unfold held.
  - pose proof (sim_swp _ _ _ _ HW _ _ _ _ w (proj2 (proj2 Ha)) (proj2 (proj2 Hb))) as H.
    destruct Ha as [Hi [Ea Hr]], Hb as [Hi' [Eb Hr']]. rewrite Ea, Eb. cbn [andb]. unfold s_use, s_other.
    destruct (swp C1 (c_raw a1) (c_raw b1, w)) as [[r [s' w']]|[r [s' w']]| |]; destruct (swp C2 ra (rb, w)) as [[q [t u]]|[q [t u]]| |];
      cbn in H |- *; auto; destruct H as [H1 [H2 H3]]; (split; [now apply pairs_set|]); (split; [now apply pairs_set|exact H3]).
  - pose proof (construct_move_sim _ _ b1 w Ha Hq Hb) as H. unfold held in *.
    destruct (o_construct C1 (from_cell C1 (mctor C1)) b1 (a1, w)) as [[b' [a' w']]|[b' [a' w']]| |];
      destruct (s_make C2 g _ _) as [[q [t u]]|[q [t u]]| |]; cbn in H |- *; auto;
      try contradiction; try (destruct (nothrow (o_reset C1 _ _)) as [[? ?]|[? ?]| |]; cbn; auto; fail);
      try (destruct (s_reset C2 _ _) as [[? ?]|[? ?]| |]; cbn; auto; fail).
    + destruct H as [H1 [H2 H3]]. cbn in *. subst u. pose proof (reset_sim a' t w' H2) as D.
      destruct (o_reset C1 a' w') as [[a'' w'']|[a'' w'']| |]; destruct (s_reset C2 t w') as [[t' v]|[t' v]| |]; cbn in D |- *; auto;
        try contradiction. destruct D as [[D1 D2] D3]. cbn in *. split; [exact D1|]. split; [exact H1|exact D2].
    + destruct H as [H1 [H2 H3]]. cbn in *. split; [exact H2|]. split; [exact H1|exact H3].
  - pose proof (construct_move_sim _ _ a1 w Hb Hq Ha) as H. unfold held in *.
    destruct (o_construct C1 (from_cell C1 (mctor C1)) a1 (b1, w)) as [[b' [a' w']]|[b' [a' w']]| |];
      destruct (s_make C2 g _ _) as [[q [t u]]|[q [t u]]| |]; cbn in H |- *; auto;
      try contradiction; try (destruct (nothrow (o_reset C1 _ _)) as [[? ?]|[? ?]| |]; cbn; auto; fail);
      try (destruct (s_reset C2 _ _) as [[? ?]|[? ?]| |]; cbn; auto; fail).
    destruct H as [H1 [H2 H3]]. cbn in *. subst u. pose proof (reset_sim a' t w' H2) as D.
    destruct (o_reset C1 a' w') as [[a'' w'']|[a'' w'']| |]; destruct (s_reset C2 t w') as [[t' v]|[t' v]| |]; cbn in D |- *; auto;
      try contradiction. destruct D as [[D1 D2] D3]. cbn in *. split; [exact H1|]. split; [exact D1|exact D2].
  - cbn. split; [exact Ha|]. split; [exact Hb|reflexivity].
Qed.

Lemma self_swap_sim : forall c o w, sim_swap C1 C2 Sm R -> pairs c o ->
  agree B (o_self_swap C1 c w) (s_self_swap C2 o w) cells cells.
Proof.
  intros c o w HW Hp. unfold o_self_swap. rewrite (pairs_has _ _ Hp). cbn [check]. destruct o as [r|]; cbn [s_self_swap].
  - apply (use_sim W W (self_swp C1) (self_swp C2) c r w w eq eq Undef Hp).
    exact (sim_self_swp _ _ _ _ HW _ _ w (proj2 (proj2 Hp))).
  - cbn. split; [exact Hp|reflexivity].
Qed.

(** * Nesting *)

Theorem nest_step : quiet C1 Sm ->
  sim (opt_cls C1) (std_cls C2 g) (opt_sem C1 Sm) pairs (oinit_rel C1 C2 Ri).
Proof.
  intros [Q1 Q2 Q3]. constructor.
  - intros r1 r2 [H _]. exact H.
  - intros i1 i2 r1 r2 w H. eapply agree_mono; [apply (ctor_sim i1 i2 r1 r2 w H); auto| |auto].
    intros a b [H1 H2]. split; [exact H2|]. left. exact H1.
  - intros s1 s2 r1 r2 w H. exact (cctor_sim s1 s2 r1 r2 w H Q2).
  - intros s1 s2 r1 r2 w H. exact (mctor_sim s1 s2 r1 r2 w H Q3).
  - intros i1 i2 r1 r2 w H Hr. eapply agree_mono; [apply (asgn_sim i1 i2 r1 r2 w H); auto| |auto].
    intros a b [H1 H2]. split; [exact H2|]. left. exact H1.
  - intros s1 s2 r1 r2 w Hs Hr. exact (cassign_sim s1 s2 r1 r2 w Hs Q2 Hr).
  - intros s1 s2 r1 r2 w Hs Hr. exact (massign_sim s1 s2 r1 r2 w Hs Q3 Hr).
  - intros r1 r2 w Hr. exact (self_cassign_sim r1 r2 w Hr).
  - intros r1 r2 w Hr. exact (self_massign_sim r1 r2 w Hr).
  - intros r1 r2 w Hr. pose proof (dtor_sim r1 r2 w Hr) as D. cbn [dtor opt_cls]. unfold s_destroy. cbn [dtor std_cls].
    destruct (o_dtor C1 r1 w) as [p|p| |]; destruct (s_reset C2 r2 w) as [[q v]|[q v]| |]; cbn in D |- *; auto. apply D.
Qed.

Theorem opt_honest : honest (opt_cls C1) (opt_sem C1 Sm).
Proof.
  constructor; cbn; try discriminate.
  - intros s r w H _. unfold o_cctor. now rewrite H.
  - intros s r w H _ _. unfold o_cassign. now rewrite H.
  - intros r w H _. unfold o_self_cassign. now rewrite H.
  - intros s r w H _. unfold o_mctor. now rewrite H.
  - intros s r w H _ _. unfold o_massign. now rewrite H.
  - intros r w H _. unfold o_self_massign. now rewrite H.
  - intros r w H _. unfold o_dtor. rewrite H. eexists. reflexivity.
Qed.

(** * Programs *)

Notation alike := (alike C1 C2 Sm R).

Lemma alike_slot : forall l1 l2 x, alike l1 l2 ->
  match slot l1 x, s_slot C2 l2 x with
  | Some c, Some o => pairs c o
  | None, None => True
  | _, _ => False
  end /\ free l1 x = s_free C2 l2 x.
Proof.
  intros l1 l2 x H. revert x. induction H as [|s1 s2 l1 l2 Hs H IH]; intros [|x]; unfold slot, s_slot, free, s_free; cbn.
  - auto.
  - auto.
  - destruct s1, s2; auto; contradiction.
  - exact (IH x).
Qed.

Lemma alike_put : forall l1 l2 x s1 s2, alike l1 l2 ->
  match s1, s2 with Some c, Some o => pairs c o | None, None => True | _, _ => False end ->
  alike (put l1 x s1) (put l2 x s2).
Proof.
  intros l1 l2 x s1 s2 H Hs. revert x. induction H as [|t1 t2 l1 l2 Ht H IH]; intros [|x]; cbn; constructor; auto.
  apply IH.
Qed.

Definition same_step (v1 : sout C1) (v2 : vout C2) : Prop :=
  match v1, v2 with
  | _, VUndef => True
  | SRet l1 w1, VRet l2 w2 => w1 = w2 /\ alike l1 l2
  | SThrow l1 w1, VThrow l2 w2 => w1 = w2 /\ alike l1 l2
  | SAbort, VAbort => True
  | SAbort, _ => B
  | SBad, VBad => True
  | _, _ => False
  end.

Lemma on1_sim : forall l1 l2 w x m1 m2, alike l1 l2 ->
  (forall c o, pairs c o -> agree B (m1 c w) (m2 o) cells cells) ->
  same_step (on1 C1 l1 w x m1) (s_on1 C2 l2 x m2).
Proof.
  intros l1 l2 w x m1 m2 Hl H. unfold on1, s_on1. destruct (alike_slot _ _ x Hl) as [Hx _].
  destruct (slot l1 x) as [c|], (s_slot C2 l2 x) as [o|]; cbn; try contradiction; auto.
  specialize (H c o Hx). destruct (m1 c w) as [[c' w']|[c' w']| |], (m2 o) as [[o' v]|[o' v]| |]; cbn in H |- *; auto;
    destruct H as [H1 H2]; split; auto; now apply alike_put.
Qed.

Lemma new1_sim : forall l1 l2 w x m1 m2, alike l1 l2 ->
  agree B (m1 w) m2 cells (fun p q => snd p = snd q) ->
  same_step (new1 C1 l1 w x m1) (s_new1 C2 l2 x m2).
Proof.
  intros l1 l2 w x m1 m2 Hl H. unfold new1, s_new1. destruct (alike_slot _ _ x Hl) as [_ <-].
  destruct (free l1 x); [|exact I].
  destruct (m1 w) as [[c' w']|[c' w']| |], m2 as [[o' v]|[o' v]| |]; cbn in H |- *; auto.
  destruct H as [H1 H2]; split; auto; now apply alike_put.
Qed.

Lemma on2_sim : forall l1 l2 w x y m1 m2, alike l1 l2 ->
  (forall c o d s, pairs c o -> pairs d s -> agree B (m1 c (d, w)) (m2 o s) cells2 cells2) ->
  same_step (on2 C1 l1 w x y m1) (s_on2 C2 l2 x y m2).
Proof.
  intros l1 l2 w x y m1 m2 Hl H. unfold on2, s_on2. destruct (alike_slot _ _ x Hl) as [Hx _]. destruct (alike_slot _ _ y Hl) as [Hy _].
  destruct (slot l1 x) as [c|], (s_slot C2 l2 x) as [o|]; cbn; try contradiction; auto.
  destruct (slot l1 y) as [d|], (s_slot C2 l2 y) as [s|]; cbn; try contradiction; auto.
  specialize (H c o d s Hx Hy).
  destruct (m1 c (d, w)) as [[c' [d' w']]|[c' [d' w']]| |], (m2 o s) as [[o' [s' v]]|[o' [s' v]]| |]; cbn in H |- *; auto;
    destruct H as [H1 [H2 H3]]; split; auto; apply alike_put; auto; now apply alike_put.
Qed.

Theorem step_sim : forall o1 o2 l1 l2 w, alike l1 l2 -> same_call C1 C2 Sm R Ri o1 o2 -> gentle C1 Sm o1 ->
  (exchanges C1 Sm o1 = true -> sim_swap C1 C2 Sm R) ->
  same_step (step C1 Sm o1 l1 w) (s_step C2 g o2 l2 w).
Proof.
  intros o1 o2 l1 l2 w Hl Hc Hg Hx.
  destruct o1, o2; cbn in Hc; try contradiction; try (match type of Hc with _ /\ _ => destruct Hc as [<- Hc] end); try subst; cbn [step s_step gentle] in *.
  - apply new1_sim; auto. apply ctor_sim; auto. intros i' ->. exact Hg.
  - destruct (alike_slot _ _ y0 Hl) as [Hy _].
    destruct (slot l1 y0) as [d|], (s_slot C2 l2 y0) as [s|]; cbn; try contradiction; auto.
    apply new1_sim; auto. now apply cctor_sim.
  - unfold new2. destruct (alike_slot _ _ x Hl) as [_ <-]. destruct (free l1 x); [|exact I].
    destruct (alike_slot _ _ y0 Hl) as [Hy _].
    destruct (slot l1 y0) as [d|], (s_slot C2 l2 y0) as [s|]; cbn; try contradiction; auto.
    pose proof (mctor_sim d s g0 None w Hy Hg) as H. unfold held in *.
    destruct (o_mctor C1 g0 (d, w)) as [[c' [d' w']]|[c' [d' w']]| |], (s_mctor C2 g _ _) as [[o' [s' v]]|[o' [s' v]]| |];
      cbn in H |- *; auto.
    + destruct H as [H1 [H2 H3]]; split; auto; apply alike_put; auto; now apply alike_put.
    + destruct H as [H2 H3]; split; auto; now apply alike_put.
  - destruct (alike_slot _ _ x0 Hl) as [Hy _].
    destruct (slot l1 x0) as [d|], (s_slot C2 l2 x0) as [s|]; cbn; try contradiction; auto.
    pose proof (dtor_sim d s w Hy) as H.
    destruct (o_dtor C1 d w) as [[d' w']|[d' w']| |], (s_reset C2 s w) as [[s' v]|[s' v]| |]; cbn in H |- *; auto; try contradiction.
    destruct H as (_ & _ & ->). split; auto. now apply alike_put.
  - apply on1_sim; auto. intros c o Hp. apply asgn_sim; auto.
    intros i' [->| ->]; exact Hg.
  - destruct (Nat.eqb x y0).
    + apply on1_sim; auto. intros c o Hp. now apply self_cassign_sim.
    + destruct (alike_slot _ _ y0 Hl) as [Hy _].
      destruct (slot l1 y0) as [d|], (s_slot C2 l2 y0) as [s|]; cbn; try contradiction; auto.
      apply on1_sim; auto. intros c o Hp. now apply cassign_sim.
  - destruct (Nat.eqb x y0).
    + apply on1_sim; auto. intros c o Hp. now apply self_massign_sim.
    + apply on2_sim; auto. intros c o d s Hp Hq. now apply massign_sim.
  - apply on1_sim; auto. intros c o Hp. now apply reset_cells.
  - apply on1_sim; auto. intros c o Hp. apply emplace_sim; auto. intros c' w' Hp'. now apply construct_init_sim.
  - destruct (Nat.eqb x y0) eqn:Exy.
    + destruct (on1 C1 l1 w x _); exact I.
    + destruct (alike_slot _ _ y0 Hl) as [Hy _].
      destruct (slot l1 y0) as [d|], (s_slot C2 l2 y0) as [s|]; cbn; try contradiction; auto.
      destruct s as [r|]; [|destruct (on1 C1 l1 w x _); exact I].
      apply on1_sim; auto. intros c o Hp. unfold deref. rewrite (pairs_has _ _ Hy). cbn [check].
      destruct Hy as [Hi [Ha Hr]]. rewrite Ha. apply emplace_sim; auto.
      intros c' w' Hp'. now apply construct_copy_sim.
  - destruct (Nat.eqb x y0) eqn:Exy.
    + apply on1_sim; auto. intros c o Hp. unfold deref. destruct o as [r|].
      * rewrite (pairs_has _ _ Hp). cbn [check].
        assert (Ha : c_alive c = true) by apply Hp. rewrite Ha. now apply set_self_sim.
      * cbn. destruct (check _ _); exact I.
    + destruct (alike_slot _ _ y0 Hl) as [Hy _].
      destruct (slot l1 y0) as [d|], (s_slot C2 l2 y0) as [s|]; cbn; try contradiction; auto.
      destruct s as [r|]; [|destruct (on1 C1 l1 w x _); exact I].
      apply on1_sim; auto. intros c o Hp. unfold deref. rewrite (pairs_has _ _ Hy). cbn [check].
      destruct Hy as [Hi [Ha Hr]]. rewrite Ha. now apply set_from_sim.
  - specialize (Hx eq_refl). destruct (Nat.eqb x y0).
    + apply on1_sim; auto. intros c o Hp. now apply self_swap_sim.
    + apply on2_sim; auto. intros c o d s Hp Hq. now apply swap_sim.
  - apply on1_sim; auto. intros c o Hp. unfold o_with_value, s_with_value. destruct o as [r|].
    + rewrite (pairs_has _ _ Hp). cbn [check].
      apply (use_sim W W f f0 c r w w eq eq Undef Hp). exact (Hc _ _ w (proj2 (proj2 Hp))).
    + destruct (check _ _); exact I.
Qed.

Theorem run_sim : forall os1 os2 l1 l2 w, alike l1 l2 -> Forall2 (same_call C1 C2 Sm R Ri) os1 os2 ->
  Forall (gentle C1 Sm) os1 -> (existsb (exchanges C1 Sm) os1 = true -> sim_swap C1 C2 Sm R) ->
  same_run C1 C2 Sm R B (run C1 Sm os1 l1 w) (s_run C2 g os2 l2 w).
Proof.
  intros os1 os2 l1 l2 w Hl Hc. revert l1 l2 w Hl. induction Hc as [|o1 o2 os1 os2 Ho Hc IH]; intros l1 l2 w Hl Hg Hx.
  - cbn. auto.
  - inversion Hg as [|? ? G1 G2]; subst. cbn [run s_run existsb] in *.
    assert (X1 : exchanges C1 Sm o1 = true -> sim_swap C1 C2 Sm R) by (intros E; apply Hx; rewrite E; reflexivity).
    assert (X2 : existsb (exchanges C1 Sm) os1 = true -> sim_swap C1 C2 Sm R)
      by (intros E; apply Hx; rewrite E; apply orb_true_r).
    pose proof (step_sim o1 o2 l1 l2 w Hl Ho G1 X1) as H.
    destruct (step C1 Sm o1 l1 w) as [l1' w1|l1' w1| | |]; destruct (s_step C2 g o2 l2 w) as [l2' w2|l2' w2| | |];
      cbn in H |- *; auto; try contradiction.
    + destruct H as [-> H]. pose proof (IH l1' l2' w2 H G2 X2) as I.
      destruct (run C1 Sm os1 l1' w2), (s_run C2 g os2 l2' w2); cbn in I |- *; auto; try contradiction.
      * destruct I as (-> & -> & Ha). auto.
      * destruct I as [->|I]; auto.
    + destruct (run C1 Sm os1 l1' w1); exact I.
    + destruct H as [-> H]. pose proof (IH l1' l2' w2 H G2 X2) as I.
      destruct (run C1 Sm os1 l1' w2), (s_run C2 g os2 l2' w2); cbn in I |- *; auto; try contradiction.
      * destruct I as (-> & -> & Ha). auto.
      * destruct I as [->|I]; auto.
    + destruct (run C1 Sm os1 l1' w1); exact I.
    + destruct (s_run C2 g os2 l2' w2); cbn; auto.
    + destruct (s_run C2 g os2 l2' w2); cbn; auto.
Qed.

Lemma alike_answers : forall l1 l2, alike l1 l2 -> same_answers C1 C2 l1 l2.
Proof.
  intros l1 l2 H. split; [clear -H; induction H; cbn; congruence|]. intros x c Hx.
  destruct (alike_slot _ _ x H) as [Hs _]. rewrite Hx in Hs. destruct (s_slot C2 l2 x) as [o|]; [|contradiction].
  exists o. split; [reflexivity|]. now apply pairs_has.
Qed.

End Facts.

(** A class and itself. *)
Section Itself.
Context {W : Type} (C : cls W) (Sm : sem C).
Hypothesis L : lawful C Sm.
Hypothesis F : fresh C Sm.

Theorem equal_sim : sim C C Sm (equal C Sm) eq.
Proof.
  constructor.
  - intros r1 r2 [_ H]. exact H.
  - intros i1 i2 r1 r2 w <-. pose proof (f_ctor _ _ F i1 r1 r2 w) as H. pose proof (l_ctor _ _ L i1 r1 w) as P.
    destruct (ctor C i1 r1 w) as [p|p| |], (ctor C i1 r2 w) as [q|q| |]; cbn in *; auto; try contradiction.
    subst q. split; [reflexivity|]. destruct P as [[P _]|P]; [left; now split|now right].
  - intros s1 s2 r1 r2 w [<- Hs]. pose proof (f_cctor _ _ F s1 r1 r2 w Hs) as H. pose proof (l_cctor _ _ L s1 r1 w Hs) as P.
    destruct (cctor C s1 r1 w) as [p|p| |], (cctor C s1 r2 w) as [q|q| |]; cbn in *; auto; try contradiction.
    subst q. split; [|reflexivity]. split; [reflexivity|apply P].
  - intros s1 s2 r1 r2 w [<- Hs]. pose proof (f_mctor _ _ F s1 r1 r2 w Hs) as H. pose proof (l_mctor _ _ L s1 r1 w Hs) as P.
    destruct (mctor C r1 (s1, w)) as [p|p| |], (mctor C r2 (s1, w)) as [q|q| |]; cbn in *; auto; try contradiction.
    + subst q. split; [split; [reflexivity|apply P]|]. split; [split; [reflexivity|apply P]|reflexivity].
    + rewrite <- H. split; [split; [reflexivity|apply P]|reflexivity].
  - intros i1 i2 r1 r2 w <- [<- Hr]. pose proof (l_asgn _ _ L i1 r1 w Hr) as P.
    destruct (asgn C i1 r1 w) as [p|p| |]; cbn in *; auto.
    + split; [reflexivity|]. destruct P as [[P _]|P]; [left; now split|now right].
    + split; [|reflexivity]. split; [reflexivity|apply P].
  - intros s1 s2 r1 r2 w [<- Hs] [<- Hr]. pose proof (l_cassign _ _ L s1 r1 w Hs Hr) as P.
    destruct (cassign C s1 r1 w) as [p|p| |]; cbn in *; auto; (split; [|reflexivity]; split; [reflexivity|apply P]).
  - intros s1 s2 r1 r2 w [<- Hs] [<- Hr]. pose proof (l_massign _ _ L s1 r1 w Hs Hr) as P.
    destruct (massign C r1 (s1, w)) as [p|p| |]; cbn in *; auto;
      (split; [split; [reflexivity|apply P]|]; split; [split; [reflexivity|apply P]|reflexivity]).
  - intros r1 r2 w [<- Hr]. pose proof (l_self_cassign _ _ L r1 w Hr) as P.
    destruct (self_cassign C r1 w) as [p|p| |]; cbn in *; auto; (split; [|reflexivity]; split; [reflexivity|apply P]).
  - intros r1 r2 w [<- Hr]. pose proof (l_self_massign _ _ L r1 w Hr) as P.
    destruct (self_massign C r1 w) as [p|p| |]; cbn in *; auto; (split; [|reflexivity]; split; [reflexivity|apply P]).
  - intros r1 r2 w [<- Hr]. unfold s_destroy. pose proof (l_dtor _ _ L r1 w Hr) as P.
    destruct (dtor C r1 w) as [[r w']|[r w']| |]; cbn in *; auto.
Qed.

Theorem equal_swap : sim_swap C C Sm (equal C Sm).
Proof.
  constructor.
  - intros a1 a2 b1 b2 w [<- Ha] [<- Hb]. pose proof (l_swp _ _ L a1 b1 w Ha Hb) as P.
    destruct (swp C a1 (b1, w)) as [p|p| |]; cbn in *; auto;
      (split; [split; [reflexivity|apply P]|]; split; [split; [reflexivity|apply P]|reflexivity]).
  - intros r1 r2 w [<- Hr]. pose proof (l_self_swp _ _ L r1 w Hr) as P.
    destruct (self_swp C r1 w) as [p|p| |]; cbn in *; auto; (split; [|reflexivity]; split; [reflexivity|apply P]).
Qed.
End Itself.

Lemma repeat_alike : forall W (C1 C2 : cls W) Sm R n, alike C1 C2 Sm R (repeat None n) (repeat None n).
Proof. intros W C1 C2 Sm R n. induction n; cbn; constructor; auto. Qed.

Theorem like_std : forall W (C : cls W) (Sm : sem C), lawful C Sm -> honest C Sm -> fresh C Sm ->
  forall g os1 os2 n w, Forall2 (same_call C C Sm (equal C Sm) eq) os1 os2 -> Forall (gentle C Sm) os1 ->
  same_run C C Sm (equal C Sm) (stops Sm)
    (run C Sm os1 (repeat None n) w) (s_run C g os2 (repeat None n) w).
Proof.
  intros W C Sm L H F g os1 os2 n w Hc Hg.
  apply (run_sim C C Sm (equal C Sm) eq g L H (equal_sim C Sm L F)); auto; [apply repeat_alike|].
  intros _. now apply equal_swap.
Qed.

Theorem nest_sim : forall W n (C : cls W) (Sm : sem C) (g : raw C), lawful C Sm -> steady C Sm -> honest C Sm -> fresh C Sm ->
  honest (nest_cls n C) (nest_sem n C Sm) /\
  sim (nest_cls n C) (projT1 (nest_std n C g)) (nest_sem n C Sm) (nest_rel n C Sm g) (nest_init_rel n C g).
Proof.
  intros W n C Sm g L N H F. induction n as [|n [IH IS]]; cbn [nest_cls nest_std nest_sem nest_rel nest_init_rel projT1].
  - split; [exact H|]. now apply equal_sim.
  - destruct (nest_lawful W n C Sm L N) as [IL IN]. split; [now apply opt_honest|].
    apply nest_step; auto. now apply steady_quiet.
Qed.

Theorem like_std_nested : forall W d (C : cls W) (Sm : sem C), lawful C Sm -> steady C Sm -> honest C Sm -> fresh C Sm ->
  forall g os1 os2 n w,
  Forall2 (same_call (nest_cls d C) (projT1 (nest_std d C g)) (nest_sem d C Sm) (nest_rel d C Sm g) (nest_init_rel d C g)) os1 os2 ->
  existsb (exchanges (nest_cls d C) (nest_sem d C Sm)) os1 = false ->
  same_run (nest_cls d C) (projT1 (nest_std d C g)) (nest_sem d C Sm) (nest_rel d C Sm g) (stops (nest_sem d C Sm))
    (run (nest_cls d C) (nest_sem d C Sm) os1 (repeat None n) w)
    (s_run (projT1 (nest_std d C g)) (projT2 (nest_std d C g)) os2 (repeat None n) w).
Proof.
  intros W d C Sm L N H F g os1 os2 n w Hc Hx. destruct (nest_sim W d C Sm g L N H F) as [IH IS].
  destruct (nest_lawful W d C Sm L N) as [IL IN].
  apply (run_sim _ _ _ _ _ _ IL IH IS); auto.
  - apply repeat_alike.
  - apply Forall_forall. intros o _. apply quiet_gentle. now apply steady_quiet.
  - congruence.
Qed.

(** Classes without trivial members: also with a recorder. *)
Definition no_trivial {W} (C : cls W) : Prop :=
  tcc C = false /\ tca C = false /\ tmc C = false /\ tma C = false /\ td C = false /\ scalar C = false.

Lemma no_trivial_honest : forall W (C : cls W) Sm, no_trivial C -> honest C Sm.
Proof. intros W C Sm (H1 & H2 & H3 & H4 & H5 & H6). constructor; intros; congruence. Qed.

Lemma logged_fresh : forall W (C : cls W) Sm, fresh C Sm -> fresh (logged C) (log_sem C Sm).
Proof.
  intros W C Sm [F1 F2 F3]. constructor; cbn [raw init logged ctor cctor mctor ok log_sem].
  - intros i r r' [w l]. unfold rec1. cbn [fst snd]. pose proof (F1 i r r' w) as H.
    destruct (ctor C i r w) as [[p v]|[p v]| |], (ctor C i r' w) as [[q u]|[q u]| |]; cbn in H |- *; auto; congruence.
  - intros s r r' [w l] Hs. unfold rec1. cbn [fst snd]. pose proof (F2 s r r' w Hs) as H.
    destruct (cctor C s r w) as [[p v]|[p v]| |], (cctor C s r' w) as [[q u]|[q u]| |]; cbn in H |- *; auto; congruence.
  - intros s r r' [w l] Hs. unfold rec2. cbn [fst snd]. pose proof (F3 s r r' w Hs) as H.
    destruct (mctor C r (s, w)) as [[p [t v]]|[p [t v]]| |], (mctor C r' (s, w)) as [[q [x u]]|[q [x u]]| |];
      cbn in H |- *; auto; congruence.
Qed.

Theorem like_std_calls : forall W (C : cls W) (Sm : sem C), lawful C Sm -> fresh C Sm -> no_trivial C ->
  forall g os1 os2 n w,
  Forall2 (same_call (logged C) (logged C) (log_sem C Sm) (equal (logged C) (log_sem C Sm)) eq) os1 os2 ->
  Forall (gentle (logged C) (log_sem C Sm)) os1 ->
  same_run (logged C) (logged C) (log_sem C Sm) (equal (logged C) (log_sem C Sm)) (stops Sm)
    (run (logged C) (log_sem C Sm) os1 (repeat None n) (w, []))
    (s_run (logged C) g os2 (repeat None n) (w, [])).
Proof.
  intros W C Sm L F T g os1 os2 n w Hc Hg.
  apply (like_std (W * log) (logged C) (log_sem C Sm)); auto.
  - now apply logged_lawful.
  - apply no_trivial_honest. exact T.
  - now apply logged_fresh.
Qed.

Theorem like_std_flag : forall W (C : cls W) (Sm : sem C), lawful C Sm -> honest C Sm -> fresh C Sm -> lmax C = 0 ->
  forall g os1 os2 n w, Forall2 (same_call C C Sm (equal C Sm) eq) os1 os2 ->
  same_run C C Sm (equal C Sm) (stops Sm) (run C Sm os1 (repeat None n) w) (s_run C g os2 (repeat None n) w).
Proof.
  intros W C Sm L H F Hm g os1 os2 n w Hc. apply like_std; auto.
  apply Forall_forall. intros o _. apply quiet_gentle. now apply flag_quiet.
Qed.

(** The concrete classes. *)
Lemma fussy_fresh : forall m torn, fresh (fussy m torn) (fussy_sem m torn).
Proof.
  intros m torn. constructor; cbn; unfold may_throw.
  - intros i r r' w. destruct (tick w) as [[|] w']; cbn; auto.
  - intros s r r' w _. destruct (tick w) as [[|] w']; cbn; auto.
  - intros s r r' w _. destruct (tick w) as [[|] w']; cbn; auto.
Qed.

Lemma plain_fresh : forall m, fresh (plain m) (plain_sem m).
Proof. intros m. constructor; cbn; auto. Qed.

Lemma plain_honest : forall m, honest (plain m) (plain_sem m).
Proof. intros m. constructor; cbn; try reflexivity. intros r w _ _. eexists. reflexivity. Qed.

(** The same call of option<T> and std::optional<T>, as a function, when T is the same. *)
Definition std_call {W} {C : cls W} {Sm : sem C} (o : call C Sm) : list (scall C) :=
  match o with
  | New x i _ => [SNew x i]
  | NewCopy x y _ => [SNewCopy x y]
  | NewMove x y _ => [SNewMove x y]
  | Destroy x => [SDestroy x]
  | Assign x i => [SAssign x i]
  | CopyAssign x y => [SCopyAssign x y]
  | MoveAssign x y => [SMoveAssign x y]
  | Reset x => [SReset x]
  | Emplace x i => [SEmplace x i]
  | EmplaceFrom x y => [SEmplaceFrom x y]
  | SetFrom x y => [SSetFrom x y]
  | Swap x y => [SSwap x y]
  | NewTake _ _ _ _ | NewTakeIf _ _ _ _ _ _ | TryEmplace _ _ | Update _ _ _ => []
  end.

Lemma std_call_same : forall W (C : cls W) Sm (o : call C Sm) o', std_call o = [o'] ->
  same_call C C Sm (equal C Sm) eq o o'.
Proof.
  intros W C Sm o o' H. assert (R : forall i, oinit_rel C C eq i i) by (intros [|i|[i|]]; cbn; auto).
  destruct o; try discriminate; cbn in H; injection H as <-; cbn; auto.
Qed.

Lemma std_calls_same : forall W (C : cls W) Sm (os : list (call C Sm)),
  forallb (fun o => match std_call o with [_] => true | _ => false end) os = true ->
  Forall2 (same_call C C Sm (equal C Sm) eq) os (flat_map std_call os).
Proof.
  intros W C Sm os. induction os as [|o os IH]; cbn; intros H; [constructor|].
  apply andb_prop in H as [H1 H2]. destruct (std_call o) as [|o' [|? ?]] eqn:E; try discriminate. cbn.
  constructor; auto. now apply std_call_same.
Qed.

(** Trivial special members: nested to any depth, option and std::optional have the same. *)
Lemma same_trivial : forall W (d : nat) (C : cls W) g,
  let D := nest_cls d C in let E := projT1 (nest_std d C g) in
  td D = td E /\ tcc D = tcc E /\ tca D = tca E /\ tmc D = tmc E /\ tma D = tma E.
Proof.
  intros W d C g. cbv zeta. induction d as [|d (H1 & H2 & H3 & H4 & H5)]; [cbn; auto|].
  change (nest_cls (S d) C) with (opt_cls (nest_cls d C)).
  cbn [nest_std projT1 std_cls opt_cls td tcc tca tmc tma]. rewrite H1, H2, H3, H4, H5. auto.
Qed.
