(** The code equivalents of zip and zip_with do what the model of the code does.

    A tuple of classes that are the same on both sides is the same on both sides. *)
From Coq Require Import NArith ZArith List Bool String Lia ZifyBool ZifyN.
From Verif Require Import Outcome Lifetime LifetimeSpec LifetimeFacts Api Tuple TupleSpec TupleFacts
  DocLang DocSnippets DocSource DocSpec DocFacts DocMembers DocAccess DocTuple DocTupleSpec.
From Verif Require ZipFacts.
Import ListNotations.
Open Scope list_scope.
Open Scope N_scope.

(** * Pairs *)
Section Pairs.
Context {A B X Y U T : Type} (P : A -> X -> Prop) (Q : B -> Y -> Prop) (Rt : U -> T -> Prop).

Definition pairwise (p : A * B) (q : X * Y) : Prop := P (fst p) (fst q) /\ Q (snd p) (snd q).

(** Both make an object, or both throw. *)
Definition makes {A X} (P : A -> X -> Prop) (f : A -> U -> out (A * U)) (g : T -> step T X) : Prop :=
  forall r u t, Rt u t -> agree (fun p x q => P (fst p) x /\ Rt (snd p) q) (fun p q => Rt (snd p) q) (f r u) (g t).
Definition drops {A X} (P : A -> X -> Prop) (f : A -> U -> out (A * U)) (g : X -> T -> step T unit) : Prop :=
  forall r x u t, P r x -> Rt u t -> agree (fun p _ q => Rt (snd p) q) (fun p q => Rt (snd p) q) (f r u) (g x t).

Lemma build2_rel : forall tf f df g dg f' df' g' dg', makes P f f' -> drops P df df' -> makes Q g g' -> drops Q dg dg' ->
  makes pairwise (build2 tf f df g dg) (both tf f' df' g' dg').
Proof.
  intros tf f df g dg f' df' g' dg' Hf Hdf Hg Hdg [a b] u t Hu. unfold build2, both, after_first, or_undo, on_fst, on_snd, pairwise. destruct tf; cbn [fst snd].
  - specialize (Hg b u t Hu). destruct (g b u) as [[b' u'] | [b' u'] | | ], (g' t) as [y t' | t' | | ]; cbn in *; auto; try contradiction.
    destruct Hg as [Hb Hu']. specialize (Hf a u' t' Hu').
    destruct (f a u') as [[a' v] | [a' v] | | ], (f' t') as [x s | s | | ]; cbn in *; auto; try contradiction.
    + destruct Hf as [Ha Hv]. auto.
    + specialize (Hdg b' y v s Hb Hf). destruct (dg b' v) as [[b3 v'] | [b3 v'] | | ], (dg' y s) as [z s' | s' | | ]; cbn in *; auto; contradiction.
  - specialize (Hf a u t Hu). destruct (f a u) as [[a' u'] | [a' u'] | | ], (f' t) as [x t' | t' | | ]; cbn in *; auto; try contradiction.
    destruct Hf as [Ha Hu']. specialize (Hg b u' t' Hu').
    destruct (g b u') as [[b' v] | [b' v] | | ], (g' t') as [y s | s | | ]; cbn in *; auto; try contradiction.
    + destruct Hg as [Hb Hv]. auto.
    + specialize (Hdf a' x v s Ha Hg). destruct (df a' v) as [[a3 v'] | [a3 v'] | | ], (df' x s) as [z s' | s' | | ]; cbn in *; auto; contradiction.
Qed.

(** The order of destruction. *)
Lemma drop2_rel : forall tf df dg df' dg', drops P df df' -> drops Q dg dg' ->
  drops pairwise (drop2 tf df dg)
    (fun x => if tf then one_by_one (fun w => must (df' (fst x) w)) (fun w => must (dg' (snd x) w))
              else one_by_one (fun w => must (dg' (snd x) w)) (fun w => must (df' (fst x) w))).
Proof.
  intros tf df dg df' dg' Hdf Hdg [a b] [x y] u t [Ha Hb] Hu. cbn [fst snd] in *. unfold drop2, one_by_one, on_fst, on_snd. destruct tf; cbn [fst snd].
  - specialize (Hdf a x u t Ha Hu). destruct (df a u) as [[a' u'] | [a' u'] | | ], (df' x t) as [z t' | t' | | ]; cbn in *; auto; try contradiction.
    specialize (Hdg b y u' t' Hb Hdf). destruct (dg b u') as [[b' v] | [b' v] | | ], (dg' y t') as [z' s | s | | ]; cbn in *; auto; contradiction.
  - specialize (Hdg b y u t Hb Hu). destruct (dg b u) as [[b' u'] | [b' u'] | | ], (dg' y t) as [z t' | t' | | ]; cbn in *; auto; try contradiction.
    specialize (Hdf a x u' t' Ha Hdg). destruct (df a u') as [[a' v] | [a' v] | | ], (df' x t') as [z' s | s | | ]; cbn in *; auto; contradiction.
Qed.
End Pairs.

Section Cons.
Context {W : Type} (sh : shape) (C D : cls W) (S : sem C) (T : sem D) (A B : dcls W).
Context (R : raw C -> obj A -> Prop) (I : init C -> darg A -> Prop) (R' : raw D -> obj B -> Prop) (I' : init D -> darg B -> Prop).
Hypothesis M : same C S A R I.
Hypothesis N : same D T B R' I'.
Notation RR := (pairwise R R').
Notation dc := (doc_cons (tail_first sh) A B).
Notation cc := (cons_cls sh C D).

Lemma drops_dtor : forall (C : cls W) S (A : dcls W) R I, same C S A R I -> drops (@eq W) R (dtor C) (d_destroy A).
Proof.
  intros C0 S0 A0 R0 I0 M0 r x u t H ->. exact (m_dtor _ _ _ _ _ M0 r x t H).
Qed.
(** With an object that stays. *)
Lemma drops_lift : forall X Y (Rs : X -> Y -> Prop) (C : cls W) S (A : dcls W) R I, same C S A R I ->
  drops (fun p (q : Y * W) => Rs (fst p) (fst q) /\ snd p = snd q) R (lift (dtor C)) (fun x => on (there DocLang.whole) (d_destroy A x)).
Proof.
  intros X Y Rs C0 S0 A0 R0 I0 M0 r x [u w] [t w'] H [Hs E]. cbn in *. subst w'. unfold lift, on. cbn.
  pose proof (m_dtor _ _ _ _ _ M0 r x w H) as K. 
  destruct (dtor C0 r w) as [[p q] | [p q] | | ], (d_destroy A0 x w) as [z z' | z' | | ]; cbn in *; auto.
Qed.

Lemma use_fst_rel : forall X Y X' Y' Z Z' (P1 : X -> X' -> Prop) (P2 : Y -> Y' -> Prop) (P : Z -> Z' -> Prop) f g,
  makes (fun p (q : X' * W) => P1 (fst p) (fst q) /\ snd p = snd q) P f g ->
  makes (fun p (q : (X' * Y') * W) => pairwise P1 P2 (fst p) (fst q) /\ snd p = snd q) P (use_fst (B := Y) f) (on head g).
Proof.
  intros X Y X' Y' Z Z' P1 P2 P f g H r [[a b] w] [[x y] w'] [[H1 H2] E]. cbn in *. subst w'.
  specialize (H r (a, w) (x, w) (conj H1 eq_refl)). unfold use_fst, on. cbn.
  destruct (f r (a, w)) as [[r' [a' v]] | [r' [a' v]] | | ], (g (x, w)) as [z [x' v'] | [x' v'] | | ]; cbn in *; auto; try contradiction.
  - destruct H as (K1 & K2 & K3). unfold pairwise. auto.
  - destruct H as (K1 & K2). unfold pairwise. auto.
Qed.
Lemma use_snd_rel : forall X Y X' Y' Z Z' (P1 : X -> X' -> Prop) (P2 : Y -> Y' -> Prop) (P : Z -> Z' -> Prop) f g,
  makes (fun p (q : Y' * W) => P2 (fst p) (fst q) /\ snd p = snd q) P f g ->
  makes (fun p (q : (X' * Y') * W) => pairwise P1 P2 (fst p) (fst q) /\ snd p = snd q) P (use_snd (A := X) f) (on tail g).
Proof.
  intros X Y X' Y' Z Z' P1 P2 P f g H r [[a b] w] [[x y] w'] [[H1 H2] E]. cbn in *. subst w'.
  specialize (H r (b, w) (y, w) (conj H2 eq_refl)). unfold use_snd, on. cbn.
  destruct (f r (b, w)) as [[r' [a' v]] | [r' [a' v]] | | ], (g (y, w)) as [z [x' v'] | [x' v'] | | ]; cbn in *; auto; try contradiction.
  - destruct H as (K1 & K2 & K3). unfold pairwise. auto.
  - destruct H as (K1 & K2). unfold pairwise. auto.
Qed.

Lemma make_rel : forall i j, I (fst i) (fst j) -> I' (snd i) (snd j) -> makes (@eq W) RR (ctor cc i) (d_make dc j).
Proof.
  intros i j H1 H2. apply build2_rel; try (eapply drops_dtor; eassumption).
  - intros r u t ->. exact (m_ctor _ _ _ _ _ M _ _ r t H1).
  - intros r u t ->. exact (m_ctor _ _ _ _ _ N _ _ r t H2).
Qed.
Lemma copy_rel : forall s x, RR s x -> makes (@eq W) RR (cctor cc s) (d_copy dc x).
Proof.
  intros s x [H1 H2]. apply build2_rel; try (eapply drops_dtor; eassumption).
  - intros r u t ->. exact (m_cctor _ _ _ _ _ M _ _ r t H1).
  - intros r u t ->. exact (m_cctor _ _ _ _ _ N _ _ r t H2).
Qed.
Lemma move_rel : makes (fun p (q : obj dc * W) => RR (fst p) (fst q) /\ snd p = snd q) RR (mctor cc) (d_move dc).
Proof.
  apply build2_rel; try (eapply drops_lift; eassumption).
  - apply use_fst_rel. intros r [a w] [x w'] [H E]. cbn in *. subst. exact (m_mctor _ _ _ _ _ M a x r w' H).
  - apply use_snd_rel. intros r [a w] [x w'] [H E]. cbn in *. subst. exact (m_mctor _ _ _ _ _ N a x r w' H).
Qed.
Lemma destroy2_rel : drops (@eq W) RR (dtor cc) (d_destroy dc).
Proof. apply drop2_rel; eapply drops_dtor; eassumption. Qed.

Ltac step H := match type of H with agree _ _ ?m ?n =>
  destruct m as [[? ?] | [? ?] | | ], n as [? [? ?] | [? ?] | | ]; cbn in *; auto; try contradiction end.
Ltac halves := repeat match goal with H : stays _ _ _ |- _ => destruct H; cbn in * | H : two_stay _ _ _ |- _ => destruct H as (? & ? & ?); cbn in * end; subst.

Lemma cons_same : same cc (cons_sem sh C D S T) dc RR (pairwise I I').
Proof.
  constructor.
  - intros r a [H1 H2]. split; [ exact (m_ok _ _ _ _ _ M _ _ H1) | exact (m_ok _ _ _ _ _ N _ _ H2) ].
  - intros i j r w [H1 H2]. exact (make_rel i j H1 H2 r w w eq_refl).
  - intros s a r w H. exact (copy_rel s a H r w w eq_refl).
  - intros s a r w H. exact (move_rel r (s, w) (a, w) (conj H eq_refl)).
  - intros i j [r1 r2] [x1 x2] w [H1 H2] [K1 K2]. cbn in *. unfold each2, on_fst, on_snd, one_by_one, on. cbn.
    pose proof (m_asgn _ _ _ _ _ M _ _ r1 x1 w H1 K1) as H. step H.
    + destruct H as [H3 H4]; cbn in *; subst. pose proof (m_asgn _ _ _ _ _ N _ _ r2 x2 w1 H2 K2) as H. step H.
      all: destruct H as [H5 H6]; cbn in *; subst; repeat split; auto.
    + destruct H as [H3 H4]; cbn in *; subst; repeat split; auto.
  - intros [s1 s2] [y1 y2] [r1 r2] [x1 x2] w [H1 H2] [K1 K2]. cbn in *. unfold each2, on_fst, on_snd, one_by_one, on. cbn.
    pose proof (m_cassign _ _ _ _ _ M _ _ r1 x1 w H1 K1) as H. step H.
    + destruct H as [H3 H4]; cbn in *; subst. pose proof (m_cassign _ _ _ _ _ N _ _ r2 x2 w1 H2 K2) as H. step H.
      all: destruct H as [H5 H6]; cbn in *; subst; repeat split; auto.
    + destruct H as [H3 H4]; cbn in *; subst; repeat split; auto.
  - intros [s1 s2] [y1 y2] [r1 r2] [x1 x2] w [H1 H2] [K1 K2]. cbn in *. unfold each2, on_fst, on_snd, use_fst, use_snd, one_by_one, on. cbn.
    pose proof (m_massign _ _ _ _ _ M _ _ r1 x1 w H1 K1) as H.
    destruct (massign C r1 (s1, w)) as [[a [b v]] | [a [b v]] | | ], (d_massign A (x1, (y1, w))) as [z [x [y q]] | [x [y q]] | | ]; cbn in *; auto; try contradiction.
    + destruct H as (H3 & H4 & H5); cbn in *; subst. pose proof (m_massign _ _ _ _ _ N _ _ r2 x2 q H2 K2) as H.
      destruct (massign D r2 (s2, q)) as [[a2 [b2 v2]] | [a2 [b2 v2]] | | ], (d_massign B (x2, (y2, q))) as [z2 [x' [y' q']] | [x' [y' q']] | | ]; cbn in *; auto; try contradiction.
      all: destruct H as (H6 & H7 & H8); cbn in *; subst; repeat split; auto.
    + destruct H as (H3 & H4 & H5); cbn in *; subst; repeat split; auto.
  - intros [s1 s2] [y1 y2] [r1 r2] [x1 x2] w [H1 H2] [K1 K2]. cbn in *. unfold each2, on_fst, on_snd, use_fst, use_snd, one_by_one, on. cbn.
    pose proof (m_swp _ _ _ _ _ M _ _ r1 x1 w H1 K1) as H.
    destruct (swp C r1 (s1, w)) as [[a [b v]] | [a [b v]] | | ], (d_swap A (x1, (y1, w))) as [z [x [y q]] | [x [y q]] | | ]; cbn in *; auto; try contradiction.
    + destruct H as (H3 & H4 & H5); cbn in *; subst. pose proof (m_swp _ _ _ _ _ N _ _ r2 x2 q H2 K2) as H.
      destruct (swp D r2 (s2, q)) as [[a2 [b2 v2]] | [a2 [b2 v2]] | | ], (d_swap B (x2, (y2, q))) as [z2 [x' [y' q']] | [x' [y' q']] | | ]; cbn in *; auto; try contradiction.
      all: destruct H as (H6 & H7 & H8); cbn in *; subst; repeat split; auto.
    + destruct H as (H3 & H4 & H5); cbn in *; subst; repeat split; auto.
  - intros r a w H. exact (destroy2_rel r a w w H eq_refl).
  - intros [r1 r2] [x1 x2] w E [K1 K2]. cbn in *. apply andb_prop in E. destruct E as [E1 E2]. unfold one_by_one.
    destruct (tail_first sh); cbn; rewrite ?(m_td _ _ _ _ _ M _ _ w E1 K1), ?(m_td _ _ _ _ _ N _ _ w E2 K2); cbn;
      rewrite ?(m_td _ _ _ _ _ M _ _ w E1 K1), ?(m_td _ _ _ _ _ N _ _ w E2 K2); reflexivity.
  - intros [r1 r2] [x1 x2] w E [K1 K2]. cbn in *. apply andb_prop in E. destruct E as [E1 E2].
    destruct (m_tcc _ _ _ _ _ M _ _ w E1 K1) as (b1 & Q1 & V1), (m_tcc _ _ _ _ _ N _ _ w E2 K2) as (b2 & Q2 & V2).
    exists (b1, b2). unfold both, after_first. destruct (tail_first sh); cbn; rewrite ?Q1, ?Q2; cbn; rewrite ?Q1, ?Q2; repeat split; auto.
  - intros [r1 r2] [x1 x2] w E [K1 K2]. cbn in *. apply andb_prop in E. destruct E as [E1 E2].
    destruct (m_tmc _ _ _ _ _ M _ _ w E1 K1) as (b1 & a1 & Q1 & V1 & U1), (m_tmc _ _ _ _ _ N _ _ w E2 K2) as (b2 & a2 & Q2 & V2 & U2).
    exists (b1, b2), (a1, a2). unfold both, after_first, on. destruct (tail_first sh); cbn; rewrite ?Q1, ?Q2; cbn; rewrite ?Q1, ?Q2; repeat split; auto.
  - intros [s1 s2] [y1 y2] [r1 r2] [x1 x2] w E E' [H1 H2] [K1 K2]. cbn in *. apply andb_prop in E. destruct E as [E1 E2].
    apply andb_prop in E'. destruct E' as [_ E']. apply andb_prop in E'. destruct E' as [E3 E4].
    destruct (m_tca _ _ _ _ _ M _ _ _ _ w E1 E3 H1 K1) as (b1 & Q1 & V1), (m_tca _ _ _ _ _ N _ _ _ _ w E2 E4 H2 K2) as (b2 & Q2 & V2).
    exists (b1, b2). unfold one_by_one, on. cbn. rewrite Q1. cbn. rewrite Q2. repeat split; auto.
  - intros [s1 s2] [y1 y2] [r1 r2] [x1 x2] w E E' [H1 H2] [K1 K2]. cbn in *. apply andb_prop in E. destruct E as [E1 E2].
    apply andb_prop in E'. destruct E' as [_ E']. apply andb_prop in E'. destruct E' as [E3 E4].
    destruct (m_tma _ _ _ _ _ M _ _ _ _ w E1 E3 H1 K1) as (b1 & a1 & Q1 & V1 & U1), (m_tma _ _ _ _ _ N _ _ _ _ w E2 E4 H2 K2) as (b2 & a2 & Q2 & V2 & U2).
    exists (b1, b2), (a1, a2). unfold one_by_one, on. cbn. rewrite Q1. cbn. rewrite Q2. repeat split; auto.
  - intros i j r a w E. discriminate E.
Qed.
End Cons.

(** * Tuples *)
Section Items.
Context {W : Type} (count : W -> Z) (sh : shape).
Notation Cs l := (map i_cls l).
Notation As l := (map i_doc l).
Notation good := (good count).

Lemma unit_same : same (unit_cls (W := W)) (unit_sem count) doc_unit (fun _ _ => True) (fun _ _ => True).
Proof.
  constructor; cbn; try (now intros); try (intros; repeat split; auto; fail).
  - intros. exists tt. auto.
  - intros s a w. exists tt, a. auto.
  - intros s a r b w. exists b. auto.
  - intros s a r b w. exists b, a. auto.
Qed.
Lemma tuple_same : forall (l : list (item W)), Forall good l ->
  same (tuple_cls sh (Cs l)) (tuple_sem count sh (Cs l) (isems l)) (doc_tuple (tail_first sh) (As l)) (tuple_rel sh l) (tuple_arg sh l).
Proof.
  induction 1 as [ | t l [_ Hs] _ IH ]; [ exact unit_same | ].
  exact (cons_same sh _ _ _ _ _ _ _ _ _ _ Hs IH).
Qed.
Lemma all_elements : forall (l : list (item W)), Forall good l -> every (TupleSpec.element count) (Cs l) (isems l).
Proof. induction 1 as [ | t l [He _] _ IH ]; cbn; auto. Qed.

Lemma rel_invs : forall (l : list (item W)) cs os, options_rel l cs os -> invs (Cs l) (isems l) cs.
Proof. induction l as [ | t l IH ]; cbn; [ auto | ]. intros [c cs] [o os] [H K]. split; [ apply H | exact (IH _ _ K) ]. Qed.
Lemma rel_alive : forall (l : list (item W)) cs os, options_rel l cs os ->
  all_alive (Cs l) cs = match gets (As l) os with Some _ => true | None => false end.
Proof.
  induction l as [ | t l IH ]; cbn; [ auto | ]. intros [c cs] [o os] [H K]. cbn in *. rewrite (IH _ _ K).
  destruct H as [_ H]. destruct o as [x | ]; [ destruct H as [-> _] | rewrite H ]; cbn; destruct (gets (As l) os); reflexivity.
Qed.
Lemma rel_gets : forall (l : list (item W)) cs os xs, options_rel l cs os -> gets (As l) os = Some xs -> objects_rel l (raws_of (Cs l) cs) xs.
Proof.
  induction l as [ | t l IH ]; cbn; [ auto | ]. intros [c cs] [o os] xs [H K] E. cbn in *. destruct H as [_ H].
  destruct o as [x | ]; [ | discriminate ]. destruct (gets (As l) os) as [ys | ] eqn:Ey; [ | discriminate ].
  injection E as <-. split; [ apply H | exact (IH _ _ _ K Ey) ].
Qed.
Lemma rel_puts : forall (l : list (item W)), Forall good l -> forall cs os xs rs ys, options_rel l cs os -> gets (As l) os = Some xs -> objects_rel l rs ys ->
  options_rel l (ZipFacts.put (Cs l) cs rs) (puts (As l) ys).
Proof.
  induction 1 as [ | t l [_ Hs] _ IH ]; cbn; [ auto | ]. intros [c cs] [o os] xs rs ys [H K] E [H1 H2]. cbn in *.
  destruct o as [x | ] eqn:Ex; [ | discriminate ]. destruct (gets (As l) os) as [zs | ] eqn:Ey; [ | discriminate ].
  split; [ | exact (IH _ _ _ _ _ K Ey H2) ]. cbn [fst snd]. exact (orel_set _ _ _ _ _ Hs c x _ _ H H1).
Qed.

(** ** zip_with *)
Section With.
Context (l : list (item W)) (G : Forall good l) (D : cls W) (T : sem D) (B : dcls W).
Context (R : raw D -> obj B -> Prop) (I : init D -> darg B -> Prop) (L : lawful D T) (M : same D T B R I).
Context (f : raw D -> raws (Cs l) * W -> out (raw D * (raws (Cs l) * W))) (g : objects (As l) * W -> step (objects (As l) * W) (obj B)).
Hypothesis F : same_function l D B R f g.

Lemma gets_rel : forall t cs os w xs, options_rel l cs os -> gets (As l) os = Some xs ->
  agree (fun p y q => R (fst p) y /\ options_rel l (fst (snd p)) (fst q) /\ snd (snd p) = snd q)
        (fun p q => options_rel l (fst (snd p)) (fst q) /\ snd (snd p) = snd q)
    (with_gets (Cs l) f t (cs, w)) (on_gets (As l) g (os, w)).
Proof.
  intros t cs os w xs H E. assert (Ha := rel_alive l cs os H). rewrite E in Ha.
  rewrite (ZipFacts.with_gets_alive count (Cs l) (isems l) _ f t cs w (all_elements l G) (rel_invs l cs os H) Ha).
  unfold on_gets. cbn [fst snd]. rewrite E. pose proof (F t _ xs w (rel_gets l cs os xs H E)) as K.
  destruct (f t (raws_of (Cs l) cs, w)) as [[t' [rs w']] | [t' [rs w']] | | ], (g (xs, w)) as [y [ys q] | [ys q] | | ]; cbn in *; auto; try contradiction.
  - destruct K as (K1 & K2 & K3). repeat split; auto. now apply (rel_puts l G cs os xs).
  - destruct K as (K2 & K3). repeat split; auto. now apply (rel_puts l G cs os xs).
Qed.

Lemma zip_with_rel : forall t d cs os w, options_rel l cs os ->
  agree (zipped l T R) (zip_thrown l) (a_zip_with (Cs l) D f t d (cs, w)) (returned (exec (zip_with (As l) B g) (os, w))).
Proof.
  intros t d cs os w H. unfold a_zip_with. cbn [fst].
  rewrite (ZipFacts.all_has_ok count (Cs l) (isems l) cs (all_elements l G) (rel_invs l cs os H)). cbn [check].
  assert (Ha := rel_alive l cs os H). rewrite Ha. unfold zip_with. cbn [exec if_else return_ eval etext all_have as_result none then_ fst].
  destruct (gets (As l) os) as [xs | ] eqn:E.
  - unfold via_temporary. pose proof (gets_rel t cs os w xs H E) as K.
    destruct (with_gets (Cs l) f t (cs, w)) as [[t' [cs' w']] | [t' [cs' w']] | | ], (on_gets (As l) g (os, w)) as [y [os' q] | [os' q] | | ];
      cbn in K |- *; auto; try contradiction.
    destruct K as (K1 & K2 & K3). subst q.
    pose proof (build_rel D T B R I L M _ _ (mctor D) d (t', w') (d_move B (y, w')) (stays R)
      (m_mctor _ _ _ _ _ M t' y (c_raw d) w' K1)) as K.
    destruct (o_build D (mctor D) d (t', w')) as [[d' [t2 w2]] | [d' [t2 w2]] | | ], (d_move B (y, w')) as [z [y2 q] | [y2 q] | | ];
      cbn in K |- *; auto; try contradiction.
    + destruct K as (K3 & K4 & K5). cbn in *. subst q. pose proof (m_dtor _ _ _ _ _ M t2 y2 w2 K4) as K.
      destruct (dtor D t2 w2) as [[t3 w3] | [t3 w3] | | ], (d_destroy B y2 w2) as [u q | q | | ]; cbn in *; auto; try contradiction.
      subst q. split; [ exact K3 | split; [ exact K2 | reflexivity ] ].
    + destruct K as (K4 & K5). cbn in *. subst q. pose proof (m_dtor _ _ _ _ _ M t2 y2 w2 K4) as K.
      destruct (dtor D t2 w2) as [[t3 w3] | [t3 w3] | | ], (d_destroy B y2 w2) as [u q | q | | ]; cbn in *; auto; try contradiction.
      subst q. split; [ exact K2 | reflexivity ].
  - destruct (none_rel D T B R L (cells (Cs l) * W) d (cs, w)) as (d' & -> & Hd). cbn. split; [ exact Hd | split; [ exact H | reflexivity ] ].
Qed.
End With.

(** ** zip *)
Lemma from_reference_rel : forall (t : item W), good t -> forall p,
  makes (fun s (q : obj (i_doc t) * W) => i_rel t (fst s) (fst q) /\ snd s = snd q) (i_rel t)
    (from_value (i_cls t) p) (from_reference (i_doc t) (category_of p)).
Proof.
  intros t [_ M] p r [a w] [x w'] [H E]. cbn in *. subst w'. pose proof (from_value_rel _ _ _ _ _ M p r a x w H) as K. destruct p; exact K.
Qed.
Lemma make_tuple_rel : forall (l : list (item W)), Forall good l -> forall ps,
  makes (fun s (q : objects (As l) * W) => objects_rel l (fst s) (fst q) /\ snd s = snd q) (tuple_rel sh l)
    (tuple_from sh (Cs l) ps) (make_tuple (tail_first sh) (As l) (map category_of ps)).
Proof.
  induction 1 as [ | t l Ht Hl IH ]; intros ps.
  - intros r s [q w] H. cbn. destruct s as [[] s]. cbn in *. auto.
  - cbn [map make_tuple tuple_from]. apply build2_rel.
    + replace (hd Lvalue (map category_of ps)) with (category_of (hd ByCopy ps)) by (now destruct ps).
      apply use_fst_rel. now apply from_reference_rel.
    + exact (drops_lift _ _ (pairwise (i_rel t) (objects_rel l)) _ _ _ _ _ (proj2 Ht)).
    + replace (tl (map category_of ps)) with (map category_of (tl ps)) by (now destruct ps).
      apply use_snd_rel. apply IH.
    + exact (drops_lift _ _ (pairwise (i_rel t) (objects_rel l)) _ _ _ _ _ (tuple_same l Hl)).
Qed.
Lemma zip_rel : forall (l : list (item W)) ps t d cs os w, Forall good l -> options_rel l cs os ->
  agree (zipped l (tuple_sem count sh (Cs l) (isems l)) (tuple_rel sh l)) (zip_thrown l)
    (a_zip sh (Cs l) ps t d (cs, w)) (returned (exec (DocTuple.zip (tail_first sh) (As l) (map category_of ps)) (os, w))).
Proof.
  intros l ps t d cs os w G H.
  refine (zip_with_rel l G (tuple_cls sh (Cs l)) (tuple_sem count sh (Cs l) (isems l)) _ _ _
    (proj1 (tuple_element count sh (Cs l) (isems l) (all_elements l G))) (tuple_same l G)
    (tuple_from sh (Cs l) ps) (make_tuple (tail_first sh) (As l) (map category_of ps)) _ t d cs os w H).
  intros r rs xs u K. exact (make_tuple_rel l G ps r (rs, u) (xs, u) (conj K eq_refl)).
Qed.
End Items.

Lemma text_zip : forall W (As : list (dcls W)),
  (forall tf cs, lines (DocTuple.zip tf As cs) = doc_1119) /\ (forall B g, lines (zip_with As B g) = doc_1154).
Proof. intros W As. split; reflexivity. Qed.
