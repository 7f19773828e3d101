(** option<T> is a class that does what its code equivalents do, so the options of options do too. *)
From Coq Require Import NArith ZArith List Bool Lia ZifyBool ZifyN.
From Verif Require Import Outcome Words Lifetime LifetimeSpec LifetimeFacts Api ApiSpec DocLang DocSnippets DocSpec DocFacts DocMembers.
Import ListNotations.
Open Scope N_scope.

Lemma agree_done : forall P S R (r : P -> S -> Prop) (e : P -> S -> Prop) (m : out P) (n : step S (option R)),
  agree (fun p _ q => r p q) e m n -> agree (fun p _ q => r p q) e m (done n).
Proof. intros P S R r e [p | p | | ] [a q | q | | ] H; exact H. Qed.

Section One.
Context {W : Type} (C : cls W) (S : sem C) (A : dcls W) (R : raw C -> obj A -> Prop) (I : init C -> darg A -> Prop).
Hypothesis L : lawful C S.
Hypothesis Q : quiet C S.
Hypothesis M : same C S A R I.
Notation orel := (orel S R).
Notation srel := (srel C S A R).

Lemma std_swap_rel : forall a x b y w, orel a x -> orel b y ->
  agree (fun p _ q => orel (fst p) (fst q) /\ srel (snd p) (snd q)) (fun p q => orel (fst p) (fst q) /\ srel (snd p) (snd q))
    (o_std_swap C a (b, w)) (std_swap A (x, (y, w))).
Proof.
  intros a x b y w Ha Hb. unfold o_std_swap, std_swap.
  pose proof (new_option_rel C S A R I L Q M ByMove (mkcell (c_raw a) (c_flag a) false) a x w Ha) as H. cbn [from_option category_of] in H.
  destruct (o_mctor C _ (a, w)) as [[t [a1 w1]] | [t [a1 w1]] | | ], (new_option A Rvalue (x, w)) as [t' [x1 q] | [x1 q] | | ];
    cbn [agree] in H; try contradiction; try exact Logic.I.
  2: { destruct H as [H1 H2]. cbn in *. subst. split; [ exact H1 | now split ]. }
  destruct H as (Ht & H1 & H2). cbn in Ht, H1, H2. subst q.
  assert (D : forall t o, orel t o -> forall w1 c1 b1 x1 y1 e, orel c1 x1 -> orel b1 y1 ->
    agree (fun p (_ : unit) q => orel (fst p) (fst q) /\ srel (snd p) (snd q)) (fun p q => orel (fst p) (fst q) /\ srel (snd p) (snd q))
      (match nothrow (o_dtor C t w1) with
       | Ret (_, w') => (if e : bool then Exn (c1, (b1, w')) else Ret (c1, (b1, w'))) | Exn _ | Abort => Abort | Undef => Undef end)
      (match destroy_in A world1 here (o, w1) with
       | Got _ (_, w) => (if e then Thrown (x1, (y1, w)) else Got tt (x1, (y1, w)))
       | Thrown _ => Stopped | Stopped => Stopped | Wrong => Wrong end)).
  { intros t0 o Ho w0 c1 b1 x2 y2 e Hc1 Hb1. pose proof (destroy_rel C S A R I L M t0 o w0 Ho) as H.
    destruct (o_dtor C t0 w0) as [[c' w'] | | | ], (destroy_in A world1 here (o, w0)) as [[] [z q] | q | | ]; cbn in *; auto; try contradiction.
    subst q. destruct e; cbn; (split; [ exact Hc1 | now split ]). }
  pose proof (move_assignment_rel C S A R I L Q M b y a1 x1 w1 Hb H1) as H.
  destruct (o_massign C a1 (b, w1)) as [[a2 [b1 w2]] | [a2 [b1 w2]] | | ], (exec (move_assignment A) (x1, (y, w1))) as [r [x2 [y1 q]] | [x2 [y1 q]] | | ];
    cbn [agree] in H; try contradiction; try exact Logic.I; destruct H as (H3 & H4 & H5); cbn in H3, H4, H5; subst q.
  - pose proof (move_assignment_rel C S A R I L Q M t t' b1 y1 w2 Ht H4) as H.
    destruct (o_massign C b1 (t, w2)) as [[b2 [t2 w3]] | [b2 [t2 w3]] | | ], (exec (move_assignment A) (y1, (t', w2))) as [r' [y2 [t2' q]] | [y2 [t2' q]] | | ];
      cbn [agree] in H; try contradiction; try exact Logic.I; destruct H as (H6 & H7 & H8); cbn in H6, H7, H8; subst q.
    + exact (D t2 t2' H7 w3 a2 b2 x2 y2 false H3 H6).
    + exact (D t2 t2' H7 w3 a2 b2 x2 y2 true H3 H6).
  - exact (D t t' Ht w2 a2 b1 x2 y1 true H3 H4).
Qed.

Lemma o_ctor_rel : forall i j r w, oirel I i j ->
  agree (new_ (C := opt_cls C) (A := doc_option A) orel) (new_thrown (C := opt_cls C)) (o_ctor C i r w) (d_make (doc_option A) j w).
Proof.
  intros i j c w Hi. destruct i as [ | i | [i | ]], j as [ | j | [j | ]]; cbn in Hi; try contradiction; cbn.
  - destruct (default_rel C S A R L c) as (c' & -> & H). cbn. now split.
  - pose proof (build_rel C S A R I L M W W (ctor C i) c w (d_make A j w) eq (m_ctor _ _ _ _ _ M i j (c_raw c) w Hi)) as H.
    change (o_inplace C i c w) with (o_build C (ctor C i) c w).
    destruct (o_build C (ctor C i) c w) as [[r w'] | [r w'] | | ], (d_make A j w) as [b q | q | | ]; cbn in *; auto; try contradiction.
  - assert (H : agree (fun p (a : obj A) q => orel (fst p) (Some a) /\ snd p = q) (fun p q => snd p = q)
      (with_base C (o_dtor C) (o_construct C (ctor C i)) c w) (d_make A j w)).
    { apply (with_base_rel C S A R L) with (E := eq); [ intros c1 w1; apply (dtor_none C S A R L) | ].
      intros c0 H0. exact (init_in C S A R I L Q M c0 i j w H0 Hi). }
    unfold with_obj, arg_make. cbn.
    destruct (with_base C (o_dtor C) (o_construct C (ctor C i)) c w) as [[c' w'] | [c' w'] | | ], (d_make A j w) as [b q | q | | ];
      cbn in *; auto; try contradiction.
  - unfold with_base. destruct (default_rel C S A R L c) as (c' & -> & H). cbn. now split.
Qed.

Lemma o_asgn_rel : forall i j c t w, oirel I i j -> orel c t ->
  agree (fun p (_ : unit) q => stays (C := opt_cls C) (A := doc_option A) orel p q) (stays (C := opt_cls C) (A := doc_option A) orel)
    (o_asgn C i c w) (d_assign (doc_option A) j (t, w)).
Proof.
  intros i j c t w Hi Hc. destruct i as [ | i | [i | ]], j as [ | j | [j | ]]; cbn in Hi; try contradiction; cbn [doc_option d_assign fst snd].
  - cbn [o_asgn]. pose proof (reset_rel C S A R I L M c t w Hc) as H.
    destruct (o_reset C c w) as [[c' w'] | | | ], (destroy_in A world1 here (t, w)) as [[] [o q] | q | | ]; cbn in *; auto; try contradiction.
    destruct H as (H1 & _ & H2). now split.
  - pose proof (value_assignment_rel C S A R I L Q M i j c t w Hi Hc) as H.
    destruct (o_asgn C (IVal i) c w) as [[c' w'] | [c' w'] | | ], (exec (value_assignment A j) (t, w)) as [r q | q | | ]; cbn in *; auto; try contradiction.
  - cbn [o_asgn]. rewrite (orel_has C S A R L _ _ Hc). cbn [check]. destruct t as [a | ]; cbn.
    + unfold o_assign_value. rewrite (orel_alive C S A R _ _ Hc). unfold arg_assign. cbn.
      pose proof (m_asgn _ _ _ _ _ M i j (c_raw c) a w Hi (proj2 (proj2 Hc))) as H.
      destruct (asgn C i (c_raw c) w) as [[r w'] | [r w'] | | ];
        destruct (d_assign A j (a, w)) as [[] [a' q] | [a' q] | | ]; cbn in *; auto; try contradiction; destruct H as [H1 H2]; cbn in *.
      * assert (Ho := orel_set C S A R I M c a r a' Hc H1). rewrite (orel_has C S A R L _ _ Ho). cbn. now split.
      * split; [ now apply (orel_set C S A R I M c a) | exact H2 ].
    + unfold with_obj, arg_make. cbn. pose proof (init_in C S A R I L Q M c i j w Hc Hi) as H.
      destruct (o_construct C (ctor C i) c w) as [[c1 w1] | [c1 w1] | | ], (d_make A j w) as [b q | q | | ]; cbn in *; auto; try contradiction.
  - cbn [o_asgn]. pose proof (reset_rel C S A R I L M c t w Hc) as H. cbn. unfold destroy_in, on in *. cbn in *. destruct t as [a | ].
    + destruct (o_reset C c w) as [[c' w'] | | | ], (d_destroy A a w) as [[] q | q | | ]; cbn in *; auto; try contradiction.
      destruct H as (H1 & _ & H2). now split.
    + destruct (o_reset C c w) as [[c' w'] | | | ]; cbn in *; auto; try contradiction.
      destruct H as (H1 & _ & H2). now split.
Qed.

Theorem option_same : same (opt_cls C) (opt_sem C S) (doc_option A) orel (oirel I).
Proof.
  split.
  - intros r a H. apply H.
  - exact o_ctor_rel.
  - intros s a r w H. cbn in s, a, r. cbn [opt_cls cctor mctor cassign massign dtor doc_option d_copy d_move d_cassign d_massign d_destroy fst snd]. pose proof (new_option_rel C S A R I L Q M ByCopy r s a w H) as K. cbn [from_option category_of] in K.
    unfold lift in K. cbn [fst snd] in K.
    destruct (o_cctor C s r w) as [[c w'] | [c w'] | | ], (new_option A Lvalue (a, w)) as [o [x q] | [x q] | | ]; cbn in *; auto; try contradiction.
    + destruct K as (K1 & K2 & K3). now split.
    + exact (proj2 K).
  - intros s a r w H. cbn in s, a, r. cbn [opt_cls cctor mctor cassign massign dtor doc_option d_copy d_move d_cassign d_massign d_destroy fst snd]. pose proof (new_option_rel C S A R I L Q M ByMove r s a w H) as K. cbn [from_option category_of] in K.
    exact K.
  - intros i j r a w Hi Hr. exact (o_asgn_rel i j r a w Hi Hr).
  - intros s a r b w Hs Hr. cbn in s, a, r, b. cbn [opt_cls cctor mctor cassign massign dtor doc_option d_copy d_move d_cassign d_massign d_destroy fst snd]. pose proof (copy_assignment_rel C S A R I L Q M s a r b w Hs Hr) as K.
    destruct (o_cassign C s r w) as [[c w'] | [c w'] | | ], (exec (copy_assignment A) (b, (a, w))) as [o [x [y q]] | [x [y q]] | | ];
      cbn in *; auto; try contradiction; destruct K as (K1 & K2 & K3); now split.
  - intros s a r b w Hs Hr. cbn in s, a, r, b. cbn [opt_cls cctor mctor cassign massign dtor doc_option d_copy d_move d_cassign d_massign d_destroy fst snd]. pose proof (move_assignment_rel C S A R I L Q M s a r b w Hs Hr) as K.
    exact (agree_done _ _ _ _ _ _ _ K).
  - intros s a r b w Hs Hr. exact (std_swap_rel r b s a w Hr Hs).
  - intros r a w Hr. cbn in r, a. cbn [opt_cls cctor mctor cassign massign dtor doc_option d_copy d_move d_cassign d_massign d_destroy fst snd]. pose proof (destroy_rel C S A R I L M r a w Hr) as K.
    destruct (o_dtor C r w) as [[c w'] | | | ], (destroy_in A world1 here (a, w)) as [[] [x q] | q | | ]; cbn in *; auto; try contradiction.
  - intros r a w Ht Hr. cbn in *. unfold destroy_in, on. cbn. destruct a as [a | ]; cbn; [ | reflexivity ].
    now rewrite (m_td _ _ _ _ _ M _ _ w Ht (proj2 (proj2 Hr))).
  - intros s a w Ht Hs. cbn in s, a. pose proof (copy_constructor_rel C S A R I L Q M s a s w Hs) as K. cbn in Ht. unfold o_cctor in K. rewrite Ht in K.
    cbn [doc_option d_copy]. unfold new_option. cbn iota.
    destruct (exec (copy_constructor A) (None, (a, w))) as [r [o [x q]] | q | | ]; cbn in *; try contradiction.
    destruct K as (K1 & K2 & K3). subst. exists o. now split.
  - intros s a w Ht Hs. cbn in s, a. pose proof (move_constructor_rel C S A R I L Q M s a s w Hs) as K. cbn in Ht. unfold o_mctor in K. rewrite Ht in K.
    change (exists b a', built A (exec (move_constructor A) (None, (a, w))) = Got b (a', w) /\ orel s b /\ orel s a').
    destruct (exec (move_constructor A) (None, (a, w))) as [r [o [x q]] | q | | ]; cbn in *; try contradiction.
    destruct K as (K1 & K2 & K3). cbn in *. subst. exists o, x. split; [ reflexivity | now split ].
  - intros s a r b w _ Ht Hs Hr. cbn in s, a, r, b. pose proof (copy_assignment_rel C S A R I L Q M s a r b w Hs Hr) as K. cbn [opt_cls tca] in Ht.
    unfold o_cassign in K. rewrite Ht in K. cbn [doc_option d_cassign fst snd].
    destruct (exec (copy_assignment A) (b, (a, w))) as [u [o [x q]] | q | | ]; cbn in *; try contradiction.
    destruct K as (K1 & K2 & K3). subst. exists o. now split.
  - intros s a r b w _ Ht Hs Hr. cbn in s, a, r, b. pose proof (move_assignment_rel C S A R I L Q M s a r b w Hs Hr) as K. cbn [opt_cls tma] in Ht.
    unfold o_massign in K. rewrite Ht in K. 
    change (exists b' a', done (exec (move_assignment A) (b, (a, w))) = Got tt (b', (a', w)) /\ orel s b' /\ orel s a').
    destruct (exec (move_assignment A) (b, (a, w))) as [u [o [x q]] | q | | ]; cbn in *; try contradiction.
    destruct K as (K1 & K2 & K3). cbn in *. subst. exists o, x. split; [ reflexivity | now split ].
  - intros i j r a w Hs. discriminate Hs.
Qed.
End One.

Theorem nest_same : forall W (C : cls W) (S : sem C) (A : dcls W) (R : raw C -> obj A -> Prop) (I : init C -> darg A -> Prop),
  lawful C S -> steady C S -> same C S A R I ->
  forall n, same (nest_cls n C) (nest_sem n C S) (doc_nest n A) (nrel S R n) (nirel I n).
Proof.
  intros W C S A R I L N M n. induction n as [ | n IH ]; [ exact M | ].
  destruct (nest_lawful W n C S L N) as [Ln Nn].
  exact (option_same (nest_cls n C) (nest_sem n C S) (doc_nest n A) (nrel S R n) (nirel I n) Ln (steady_quiet _ _ Nn) IH).
Qed.

Lemma nest_all : forall W (C : cls W) (S : sem C) (A : dcls W) (R : raw C -> obj A -> Prop) (I : init C -> darg A -> Prop),
  lawful C S -> steady C S -> same C S A R I ->
  forall n, lawful (nest_cls n C) (nest_sem n C S) /\ quiet (nest_cls n C) (nest_sem n C S) /\
    same (nest_cls n C) (nest_sem n C S) (doc_nest n A) (nrel S R n) (nirel I n).
Proof.
  intros W C S A R I L N M n. destruct (nest_lawful W n C S L N) as [Ln Nn]. split; [ exact Ln | ].
  split; [ now apply steady_quiet | ]. exact (nest_same W C S A R I L N M n).
Qed.
