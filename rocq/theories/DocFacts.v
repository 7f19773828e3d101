(** The members of option do what their code equivalents do. *)
From Coq Require Import NArith ZArith List Bool Lia ZifyBool ZifyN.
From Verif Require Import Outcome Words Lifetime LifetimeSpec LifetimeFacts Api DocLang DocSnippets DocSpec.
Import ListNotations.
Open Scope N_scope.

Lemma agree_mono : forall P Q R (r r' : P -> R -> Q -> Prop) (e e' : P -> Q -> Prop) m n,
  agree r e m n -> (forall p a q, r p a q -> r' p a q) -> (forall p q, e p q -> e' p q) -> agree r' e' m n.
Proof. intros P Q R r r' e e' [p | p | | ] [a q | q | | ] H Hr He; cbn in *; auto. Qed.

Section One.
Context {W : Type} (C : cls W) (S : sem C) (A : dcls W) (R : raw C -> obj A -> Prop) (I : init C -> darg A -> Prop).
Hypothesis L : lawful C S.
Hypothesis Q : quiet C S.
Hypothesis M : same C S A R I.
Notation orel := (orel S R).
Notation srel := (srel C S A R).

Lemma orel_none : forall c, inv C S c -> c_alive c = false -> orel c None.
Proof. intros c H1 H2. now split. Qed.
Lemma orel_some : forall c r f a, orel c (Some a) -> R r a -> forall b, R r b -> f = c_flag c -> orel (mkcell r f true) (Some b).
Proof.
  intros c r f a (H1 & H2 & H3) Hr b Hb ->. split; [ | now split ]. apply inv_set; auto. apply (m_ok _ _ _ _ _ M _ _ Hb).
Qed.
Lemma orel_set : forall c a r b, orel c (Some a) -> R r b -> orel (mkcell r (c_flag c) true) (Some b).
Proof. intros c a r b (H1 & H2 & H3) Hb. split; [ | now split ]. apply inv_set; auto. apply (m_ok _ _ _ _ _ M _ _ Hb). Qed.
Lemma orel_has : forall c o, orel c o -> o_has C c = Ok (match o with Some _ => true | None => false end).
Proof. intros c [a | ] [H1 H2]; rewrite (has_ok C S L c H1); f_equal; apply H2. Qed.
Lemma orel_alive : forall c o, orel c o -> c_alive c = match o with Some _ => true | None => false end.
Proof. intros c [a | ] [H1 H2]; apply H2. Qed.

Lemma construct_rel : forall W' T (mk : raw C -> W' -> out (raw C * W')) c w (n : step T (obj A)) (Rt : W' -> T -> Prop),
  orel c None ->
  agree (fun p a q => R (fst p) a /\ Rt (snd p) q) (fun p q => Rt (snd p) q) (mk (c_raw c) w) n ->
  (forall r' w', mk (c_raw c) w = Exn (r', w') -> 0 < lmax C -> lget C r' = 0) ->
  agree (fun p a q => orel (fst p) (Some a) /\ Rt (snd p) q) (fun p q => orel (fst p) None /\ Rt (snd p) q)
    (o_construct C mk c w) n.
Proof.
  intros W' T mk c w n Rt [Hi Ha] H Hq. unfold o_construct. rewrite Ha. cbn [andb].
  destruct (mk (c_raw c) w) as [[r w'] | [r w'] | | ], n as [a q | q | | ]; cbn [agree fst snd] in *; auto; try contradiction.
  - destruct H as [Hr Ht]. assert (Ho := m_ok _ _ _ _ _ M _ _ Hr). destruct (traits_spec C) as [[-> Hm] | [-> Hm]].
    + cbn zeta. assert (Hc : inv C S (mkcell r (c_flag c) true)) by (apply inv_alive; [ exact Ho | lia ]).
      rewrite (has_ok C S L) by exact Hc. cbn. repeat split; auto; apply Hc.
    + cbn. split; [ | exact Ht ]. split; [ apply inv_alive; auto | now split ].
  - split; [ | exact H ]. split; [ | reflexivity ]. split; [ | split ]; cbn; try discriminate.
    + intros Hm _. now apply (Hq r w').
    + intros Hm. destruct Hi as (_ & _ & Hf). rewrite (Hf Hm), Ha. reflexivity.
Qed.

Lemma default_rel : forall c, exists c', o_default C c = Ret c' /\ orel c' None.
Proof. intros c. destruct (default_ok C S L c) as (c' & H1 & H2 & H3). exists c'. split; [ exact H1 | now split ]. Qed.

Lemma dead_level : forall c, orel c None -> 0 < lmax C -> lget C (c_raw c) = 0.
Proof. intros c [(_ & H & _) Ha] Hm. now apply H. Qed.

Lemma reset_rel : forall c o w, orel c o ->
  agree (fun p (_ : unit) q => orel (fst p) (fst q) /\ fst q = None /\ snd p = snd q) (fun _ _ => False)
    (o_reset C c w) (destroy_in A world1 here (o, w)).
Proof.
  intros c o w Ho. unfold o_reset, destroy_in. cbn [look here fst]. destruct (td C) eqn:Et.
  - destruct (empty_ok C S L c w) as (c' & -> & Hi & Ha).
    destruct o as [a | ]; cbn.
    + destruct Ho as (_ & _ & Hr). unfold on. cbn. rewrite (m_td _ _ _ _ _ M _ _ w Et Hr). cbn. repeat split; auto; apply Hi.
    + repeat split; auto; apply Hi.
  - rewrite (orel_has c o Ho). cbn [check]. destruct o as [a | ].
    + unfold destroy_value. rewrite (orel_alive _ _ Ho). destruct Ho as (Hi & Ha & Hr). unfold on. cbn.
      pose proof (m_dtor _ _ _ _ _ M _ _ w Hr) as H. destruct (dtor C (c_raw c) w) as [[r w'] | [r w'] | | ];
        destruct (d_destroy A a w) as [[] q | q | | ]; cbn in H; try contradiction; cbn; auto. subst q.
      destruct (empty_ok C S L (mkcell r (c_flag c) false) w') as (c' & -> & Hi' & Ha'). cbn. repeat split; auto; apply Hi'.
    + cbn. split; [ exact Ho | now split ].
Qed.

Lemma destroy_rel : forall c o w, orel c o ->
  agree (fun p (_ : unit) q => snd p = snd q) (fun _ _ => False) (o_dtor C c w) (destroy_in A world1 here (o, w)).
Proof.
  intros c o w Ho. unfold o_dtor, destroy_in. cbn [look here fst]. destruct (td C) eqn:Et.
  - destruct o as [a | ]; cbn; [ | reflexivity ].
    destruct Ho as (_ & _ & Hr). unfold on. cbn. rewrite (m_td _ _ _ _ _ M _ _ w Et Hr). reflexivity.
  - rewrite (orel_has c o Ho). cbn [check]. destruct o as [a | ]; [ | reflexivity ].
    unfold destroy_value. rewrite (orel_alive _ _ Ho). destruct Ho as (Hi & Ha & Hr). unfold on. cbn.
    pose proof (m_dtor _ _ _ _ _ M _ _ w Hr) as H. destruct (dtor C (c_raw c) w) as [[r w'] | [r w'] | | ];
      destruct (d_destroy A a w) as [[] q | q | | ]; cbn in H; try contradiction; cbn; auto.
Qed.

(** The destructor of a base that holds nothing. *)
Lemma dtor_none : forall c w, orel c None -> exists c', o_dtor C c w = Ret (c', w).
Proof.
  intros c w Ho. unfold o_dtor. destruct (td C); [ eexists; reflexivity | ]. rewrite (orel_has c None Ho). cbn.
  eexists; reflexivity.
Qed.

Lemma with_base_rel : forall W' T U (dt : cell C -> W' -> out (cell C * W')) body c w (n : step T U)
  (Rt : cell C * W' -> U -> T -> Prop) (E : W' -> T -> Prop),
  (forall c1 w1, orel c1 None -> exists c2, dt c1 w1 = Ret (c2, w1)) ->
  (forall c0, orel c0 None -> agree Rt (fun p q => orel (fst p) None /\ E (snd p) q) (body c0 w) n) ->
  agree Rt (fun p q => E (snd p) q) (with_base C dt body c w) n.
Proof.
  intros W' T U dt body c w n Rt E Hd Hb. unfold with_base. destruct (default_rel c) as (c0 & -> & H0).
  specialize (Hb c0 H0). destruct (body c0 w) as [p | [c1 w1] | | ], n as [a q | q | | ]; cbn in *; auto; try contradiction.
  destruct Hb as [H1 H2]. destruct (Hd c1 w1 H1) as [c2 ->]. exact H2.
Qed.

(** What is needed of the constructors in an empty option. *)
Lemma copy_in : forall c s a w, orel c None -> R s a ->
  agree (fun p b q => orel (fst p) (Some b) /\ snd p = q) (fun p q => orel (fst p) None /\ snd p = q)
    (o_construct C (cctor C s) c w) (d_copy A a w).
Proof.
  intros c s a w Hc Hr. apply construct_rel with (Rt := eq); [ exact Hc | apply (m_cctor _ _ _ _ _ M _ _ _ _ Hr) | ].
  intros r' w' E Hm. pose proof (dead_level c Hc Hm) as H0.
  rewrite (q_cctor _ _ Q s (c_raw c) w r' w' (m_ok _ _ _ _ _ M _ _ Hr) Hm); [ exact H0 | lia | exact E ].
Qed.

Lemma init_in : forall c i j w, orel c None -> I i j ->
  agree (fun p b q => orel (fst p) (Some b) /\ snd p = q) (fun p q => orel (fst p) None /\ snd p = q)
    (o_construct C (ctor C i) c w) (d_make A j w).
Proof.
  intros c i j w Hc Hr. apply construct_rel with (Rt := eq); [ exact Hc | apply (m_ctor _ _ _ _ _ M _ _ _ _ Hr) | ].
  intros r' w' E Hm. pose proof (dead_level c Hc Hm) as H0.
  rewrite (q_ctor _ _ Q i (c_raw c) w r' w' Hm); [ exact H0 | lia | exact E ].
Qed.


Lemma move_in : forall c s a w, orel c None -> orel s (Some a) ->
  agree (fun p b q => orel (fst p) (Some b) /\ srel (snd p) (Some (fst q), snd q))
        (fun p q => orel (fst p) None /\ srel (snd p) (Some (fst q), snd q))
    (o_construct C (from_cell C (mctor C)) c (s, w)) (d_move A (a, w)).
Proof.
  intros c s a w Hc Hs.
  apply construct_rel with (Rt := fun p (q : obj A * W) => srel p (Some (fst q), snd q)); [ exact Hc | | ].
  - unfold from_cell. rewrite (orel_alive _ _ Hs). pose proof (m_mctor _ _ _ _ _ M _ _ (c_raw c) w (proj2 (proj2 Hs))) as H.
    destruct (mctor C (c_raw c) (c_raw s, w)) as [[r [s' w']] | [r [s' w']] | | ];
      destruct (d_move A (a, w)) as [b [a' q] | [a' q] | | ]; cbn in *; auto; try contradiction.
    + destruct H as (H1 & H2 & H3). cbn in *. split; [ exact H1 | ]. split; [ now apply (orel_set s a) | exact H3 ].
    + destruct H as (H2 & H3). cbn in *. split; [ now apply (orel_set s a) | exact H3 ].
  - intros r' w' E Hm. pose proof (dead_level c Hc Hm) as H0. unfold from_cell in E. rewrite (orel_alive _ _ Hs) in E.
    destruct (mctor C (c_raw c) (c_raw s, w)) as [[r [s1 w1]] | [r [s1 w1]] | | ] eqn:Em; try discriminate E. injection E as <- <-.
    rewrite (q_mctor _ _ Q (c_raw s) (c_raw c) w r (s1, w1) (m_ok _ _ _ _ _ M _ _ (proj2 (proj2 Hs))) Hm); [ exact H0 | lia | exact Em ].
Qed.

(** Copy constructor. *)
Lemma copy_constructor_rel : forall s o c w, orel s o ->
  agree (fun p _ q => orel (fst p) (fst q) /\ fst (snd q) = o /\ snd p = snd (snd q)) (fun p q => fst (snd q) = o /\ snd p = snd (snd q))
    (o_cctor C s c w) (exec (copy_constructor A) (None, (o, w))).
Proof.
  intros s o c w Hs. unfold o_cctor. destruct (tcc C) eqn:Et.
  - destruct o as [a | ]; cbn.
    + destruct (m_tcc _ _ _ _ _ M _ _ w Et (proj2 (proj2 Hs))) as (b & E & Hb). unfold with_obj, copying. cbn. rewrite E. cbn.
      split; [ | now split ]. destruct Hs as (H1 & H2 & H3). split; [ exact H1 | now split ].
    + auto.
  - apply with_base_rel with (E := fun w' (q : option (obj A) * (option (obj A) * W)) => fst (snd q) = o /\ w' = snd (snd q)).
    + intros c1 w1. apply dtor_none.
    + intros c0 H0. rewrite (orel_has s o Hs). cbn [check]. destruct o as [a | ]; cbn.
      * rewrite (orel_alive _ _ Hs). unfold with_obj, copying. cbn. pose proof (copy_in c0 (c_raw s) a w H0 (proj2 (proj2 Hs))) as H.
        destruct (o_construct C (cctor C (c_raw s)) c0 w) as [[c1 w1] | [c1 w1] | | ];
          destruct (d_copy A a w) as [b q | q | | ]; cbn in *; auto; try contradiction; destruct H; auto.
      * auto.
Qed.

(** Move constructor. *)
Lemma move_constructor_rel : forall s o c w, orel s o ->
  agree (fun p _ q => orel (fst p) (fst q) /\ srel (snd p) (snd q)) (fun p q => srel (snd p) (snd q))
    (o_mctor C c (s, w)) (exec (move_constructor A) (None, (o, w))).
Proof.
  intros s o c w Hs. unfold o_mctor. destruct (tmc C) eqn:Et.
  - destruct o as [a | ]; cbn.
    + destruct (m_tmc _ _ _ _ _ M _ _ w Et (proj2 (proj2 Hs))) as (b & a' & E & Hb & Ha). unfold with_obj. cbn. rewrite E. cbn.
      destruct Hs as (H1 & H2 & H3). repeat split; auto; apply H1.
    + split; [ exact Hs | now split ].
  - apply with_base_rel with (E := fun w' (q : option (obj A) * (option (obj A) * W)) => srel w' (snd q)).
    + intros c1 w1 H1. unfold lift. destruct (dtor_none c1 (snd w1) H1) as [c2 ->]. exists c2. now destruct w1.
    + intros c0 H0. cbn [fst]. rewrite (orel_has s o Hs). cbn [check]. destruct o as [a | ]; cbn.
      * unfold with_obj. cbn. pose proof (move_in c0 s a w H0 Hs) as H.
        destruct (o_construct C (from_cell C (mctor C)) c0 (s, w)) as [[c1 sw] | [c1 sw] | | ];
          destruct (d_move A (a, w)) as [b [a' q] | [a' q] | | ]; cbn in *; auto; try contradiction.
      * split; [ exact H0 | ]. now split.
Qed.

(** Copy assignment. *)
Lemma copy_assignment_rel : forall s o c t w, orel s o -> orel c t ->
  agree (fun p _ q => orel (fst p) (fst q) /\ fst (snd q) = o /\ snd p = snd (snd q))
        (fun p q => orel (fst p) (fst q) /\ fst (snd q) = o /\ snd p = snd (snd q))
    (o_cassign C s c w) (exec (copy_assignment A) (t, (o, w))).
Proof.
  intros s o c t w Hs Hc. unfold o_cassign. destruct (tcc C && (tca C && td C)) eqn:Et.
  - apply andb_prop in Et as [E1 Et]. apply andb_prop in Et as [E2 E3].
    destruct o as [a | ], t as [b | ]; cbn.
    + destruct (m_tca _ _ _ _ _ M _ _ _ _ w E1 E2 (proj2 (proj2 Hs)) (proj2 (proj2 Hc))) as (b' & E & Hb).
      unfold copy_assigning. cbn. rewrite E. cbn. destruct Hs as (H1 & H2 & H3). repeat split; auto; apply H1.
    + destruct (m_tcc _ _ _ _ _ M _ _ w E1 (proj2 (proj2 Hs))) as (b & E & Hb). unfold with_obj, copying. cbn. rewrite E. cbn.
      destruct Hs as (H1 & H2 & H3). repeat split; auto; apply H1.
    + unfold destroy_in, on. cbn. rewrite (m_td _ _ _ _ _ M _ _ w E3 (proj2 (proj2 Hc))). cbn. auto.
    + auto.
  - rewrite (orel_has s o Hs). cbn [check]. destruct o as [a | ].
    + rewrite (orel_has c t Hc). cbn [check]. destruct t as [b | ]; cbn.
      * rewrite (orel_alive _ _ Hs), (orel_alive _ _ Hc). cbn [andb]. unfold copy_assigning. cbn.
        pose proof (m_cassign _ _ _ _ _ M _ _ _ _ w (proj2 (proj2 Hs)) (proj2 (proj2 Hc))) as H.
        destruct (cassign C (c_raw s) (c_raw c) w) as [[r w'] | [r w'] | | ];
          destruct (d_cassign A a (b, w)) as [[] [b' q] | [b' q] | | ]; cbn in *; auto; try contradiction;
          destruct H as [H1 H2]; cbn in *; (split; [ now apply (orel_set c b) | now split ]).
      * rewrite (orel_alive _ _ Hs). unfold with_obj, copying. cbn. pose proof (copy_in c (c_raw s) a w Hc (proj2 (proj2 Hs))) as H.
        destruct (o_construct C (cctor C (c_raw s)) c w) as [[c1 w1] | [c1 w1] | | ];
          destruct (d_copy A a w) as [b q | q | | ]; cbn in *; auto; try contradiction;
          destruct H as [H1 H2]; cbn in *; auto.
    + pose proof (reset_rel c t w Hc) as H. unfold copy_assignment. cbn. unfold destroy_in, on in *. cbn in *.
      destruct t as [b | ].
      * destruct (o_reset C c w) as [[c' w'] | | | ], (d_destroy A b w) as [[] q | q | | ]; cbn in *; auto; try contradiction.
      * destruct (o_reset C c w) as [[c' w'] | | | ]; cbn in *; auto; try contradiction.
Qed.

(** Move assignment. *)
Lemma move_assignment_rel : forall s o c t w, orel s o -> orel c t ->
  agree (fun p _ q => orel (fst p) (fst q) /\ srel (snd p) (snd q)) (fun p q => orel (fst p) (fst q) /\ srel (snd p) (snd q))
    (o_massign C c (s, w)) (exec (move_assignment A) (t, (o, w))).
Proof.
  intros s o c t w Hs Hc. unfold o_massign. destruct (tmc C && (tma C && td C)) eqn:Et.
  - apply andb_prop in Et as [E1 Et]. apply andb_prop in Et as [E2 E3].
    destruct o as [a | ], t as [b | ]; cbn.
    + destruct (m_tma _ _ _ _ _ M _ _ _ _ w E1 E2 (proj2 (proj2 Hs)) (proj2 (proj2 Hc))) as (b' & a' & E & Hb & Ha).
      rewrite E. cbn. destruct Hs as (H1 & H2 & H3). repeat split; auto; apply H1.
    + destruct (m_tmc _ _ _ _ _ M _ _ w E1 (proj2 (proj2 Hs))) as (b & a' & E & Hb & Ha). unfold with_obj. cbn. rewrite E. cbn.
      destruct Hs as (H1 & H2 & H3). repeat split; auto; apply H1.
    + unfold destroy_in, on. cbn. rewrite (m_td _ _ _ _ _ M _ _ w E3 (proj2 (proj2 Hc))). cbn. split; [ exact Hs | now split ].
    + split; [ exact Hs | now split ].
  - cbn [fst]. rewrite (orel_has s o Hs). cbn [check]. destruct o as [a | ].
    + rewrite (orel_has c t Hc). cbn [check]. destruct t as [b | ]; cbn.
      * rewrite (orel_alive _ _ Hc). unfold from_cell. rewrite (orel_alive _ _ Hs).
        pose proof (m_massign _ _ _ _ _ M _ _ _ _ w (proj2 (proj2 Hs)) (proj2 (proj2 Hc))) as H.
        destruct (massign C (c_raw c) (c_raw s, w)) as [[r [s' w']] | [r [s' w']] | | ];
          destruct (d_massign A (b, (a, w))) as [[] [b' [a' q]] | [b' [a' q]] | | ]; cbn in *; auto; try contradiction;
          destruct H as (H1 & H2 & H3); cbn in *;
          (split; [ now apply (orel_set c b) | split; [ now apply (orel_set s a) | exact H3 ] ]).
      * unfold with_obj. cbn. pose proof (move_in c s a w Hc Hs) as H.
        destruct (o_construct C (from_cell C (mctor C)) c (s, w)) as [[c1 sw] | [c1 sw] | | ];
          destruct (d_move A (a, w)) as [b [a' q] | [a' q] | | ]; cbn in *; auto; try contradiction.
    + unfold lift. cbn [snd]. pose proof (reset_rel c t w Hc) as H. unfold move_assignment. cbn. unfold destroy_in, on in *. cbn in *.
      destruct t as [b | ].
      * destruct (o_reset C c w) as [[c' w'] | | | ], (d_destroy A b w) as [[] q | q | | ]; cbn in *; auto; try contradiction.
        destruct H as (H1 & H2 & H3). split; [ exact H1 | now split ].
      * destruct (o_reset C c w) as [[c' w'] | | | ]; cbn in *; auto; try contradiction. destruct H as (H1 & H2 & H3).
        split; [ exact H1 | now split ].
Qed.

(** Assignment of a value, emplace and try_emplace. *)
Lemma value_assignment_rel : forall i j c t w, I i j -> orel c t ->
  agree (fun p _ q => srel p q) srel (o_asgn C (IVal i) c w) (exec (value_assignment A j) (t, w)).
Proof.
  intros i j c t w Hi Hc. cbn [o_asgn]. destruct t as [a | ]; cbn.
  - destruct (scalar C) eqn:Es.
    + pose proof (m_scalar _ _ _ _ _ M i j (c_raw c) a w Es Hi (proj2 (proj2 Hc))) as H. unfold o_construct.
      rewrite (l_scalar_td _ _ L Es), (orel_alive _ _ Hc). cbn [andb negb].
      destruct (ctor C i (c_raw c) w) as [[r w'] | [r w'] | | ];
        destruct (d_assign A j (a, w)) as [[] [a' q] | [a' q] | | ]; cbn in *; auto; try contradiction; destruct H as [H1 H2]; cbn in *.
      * assert (Ho := orel_set c a r a' Hc H1). destruct (traits C) eqn:Etr.
        -- rewrite (orel_has _ _ Ho). cbn. now split.
        -- cbn. destruct (traits_spec C) as [[E _] | [_ Hm]]; [ congruence | ].
           destruct Hc as ((_ & _ & Hf) & Ha & _). rewrite (Hf Hm), Ha in Ho. now split.
      * split; [ now apply (orel_set c a) | exact H2 ].
    + rewrite (orel_has _ _ Hc). cbn [check]. unfold o_assign_value. rewrite (orel_alive _ _ Hc).
      pose proof (m_asgn _ _ _ _ _ M i j (c_raw c) a w Hi (proj2 (proj2 Hc))) as H.
      destruct (asgn C i (c_raw c) w) as [[r w'] | [r w'] | | ];
        destruct (d_assign A j (a, w)) as [[] [a' q] | [a' q] | | ]; cbn in *; auto; try contradiction; destruct H as [H1 H2]; cbn in *.
      * assert (Ho := orel_set c a r a' Hc H1). rewrite (orel_has _ _ Ho). cbn. now split.
      * split; [ now apply (orel_set c a) | exact H2 ].
  - assert (E : (if scalar C then o_construct C (ctor C i) c w
                 else check (o_has C c) (fun h => if h then o_assign_value C (asgn C i) c w else o_construct C (ctor C i) c w))
                = o_construct C (ctor C i) c w) by (rewrite (orel_has _ _ Hc); destruct (scalar C); reflexivity).
    rewrite E. unfold on. cbn. pose proof (init_in c i j w Hc Hi) as H.
    destruct (o_construct C (ctor C i) c w) as [[c1 w1] | [c1 w1] | | ], (d_make A j w) as [b q | q | | ]; cbn in *; auto; try contradiction.
Qed.

Lemma emplace_rel : forall i j c t w, I i j -> orel c t ->
  agree (fun p _ q => srel p q) srel (o_emplace C (o_reset C) (ctor C i) c w) (exec (emplace A j) (t, w)).
Proof.
  intros i j c t w Hi Hc. unfold o_emplace. pose proof (reset_rel c t w Hc) as H. unfold emplace. cbn.
  destruct (o_reset C c w) as [[c' w'] | p | | ], (destroy_in A world1 here (t, w)) as [[] [o q] | q | | ]; cbn in *; auto; try contradiction.
  destruct H as (H1 & -> & ->). unfold on. cbn. pose proof (init_in c' i j q H1 Hi) as H.
  destruct (o_construct C (ctor C i) c' q) as [[c1 w1] | [c1 w1] | | ], (d_make A j q) as [b q' | q' | | ]; cbn in *; auto; try contradiction.
Qed.

Lemma try_emplace_rel : forall i j c t w, I i j -> orel c t ->
  agree (fun p _ q => srel p q) srel (o_try_emplace C i c w) (exec (try_emplace A j) (t, w)).
Proof.
  intros i j c t w Hi Hc. unfold o_try_emplace. rewrite (orel_has _ _ Hc). cbn [check]. destruct t as [a | ]; cbn.
  - now split.
  - unfold on. cbn. pose proof (init_in c i j w Hc Hi) as H.
    destruct (o_construct C (ctor C i) c w) as [[c1 w1] | [c1 w1] | | ], (d_make A j w) as [b q | q | | ]; cbn in *; auto; try contradiction.
Qed.

(** swap. *)
Lemma swap_rel : forall a x b y w, orel a x -> orel b y ->
  agree (fun p _ q => orel (fst p) (fst q) /\ srel (snd p) (snd q)) (fun p q => orel (fst p) (fst q) /\ srel (snd p) (snd q))
    (o_swap C a (b, w)) (exec (swap_member A) (x, (y, w))).
Proof.
  intros a x b y w Ha Hb. unfold o_swap. rewrite (orel_has _ _ Ha). cbn [check]. rewrite (orel_has _ _ Hb). cbn [check].
  destruct x as [x | ], y as [y | ]; cbn [negb andb].
  - rewrite (orel_alive _ _ Ha), (orel_alive _ _ Hb). cbn.
    pose proof (m_swp _ _ _ _ _ M _ _ _ _ w (proj2 (proj2 Hb)) (proj2 (proj2 Ha))) as H.
    destruct (swp C (c_raw a) (c_raw b, w)) as [[ra [rb w']] | [ra [rb w']] | | ];
      destruct (d_swap A (x, (y, w))) as [[] [x' [y' q]] | [x' [y' q]] | | ]; cbn in *; auto; try contradiction;
      destruct H as (H1 & H2 & H3); cbn in *;
      (split; [ now apply (orel_set a x) | split; [ now apply (orel_set b y) | exact H3 ] ]).
  - cbn. unfold with_obj. cbn. pose proof (move_in b a x w Hb Ha) as H.
    destruct (o_construct C (from_cell C (mctor C)) b (a, w)) as [[b' [a' w']] | [b' [a' w']] | | ];
      destruct (d_move A (x, w)) as [z [x' q] | [x' q] | | ]; cbn in *; auto; try contradiction.
    + destruct H as (H1 & H2 & H3). cbn in *. subst q. unfold destroy_in, on. cbn. pose proof (reset_rel a' (Some x') w' H2) as H.
      unfold destroy_in, on in H. cbn in H.
      destruct (o_reset C a' w') as [[a'' w''] | | | ], (d_destroy A x' w') as [[] q | q | | ]; cbn in *; auto; try contradiction.
      destruct H as (H4 & H5 & H6). split; [ exact H4 | now split ].
    + destruct H as (H1 & H2 & H3). split; [ exact H2 | now split ].
  - cbn. unfold with_obj. cbn. pose proof (move_in a b y w Ha Hb) as H.
    destruct (o_construct C (from_cell C (mctor C)) a (b, w)) as [[a' [b' w']] | [a' [b' w']] | | ];
      destruct (d_move A (y, w)) as [z [y' q] | [y' q] | | ]; cbn in *; auto; try contradiction.
    destruct H as (H1 & H2 & H3). cbn in *. subst q. unfold destroy_in, on. cbn. pose proof (reset_rel b' (Some y') w' H2) as H.
    unfold destroy_in, on in H. cbn in H.
    destruct (o_reset C b' w') as [[b'' w''] | | | ], (d_destroy A y' w') as [[] q | q | | ]; cbn in *; auto; try contradiction.
    destruct H as (H4 & H5 & H6). split; [ exact H1 | now split ].
  - cbn. split; [ exact Ha | now split ].
Qed.

End One.
