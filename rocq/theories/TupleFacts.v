(** Tuples of lawful classes are lawful. *)
From Coq Require Import NArith ZArith Bool List Lia ZifyBool ZifyN.
From Verif Require Import Outcome Words Lifetime LifetimeSpec LifetimeFacts Api ApiSpec ApiFacts Tuple TupleSpec.
Import ListNotations.
Open Scope N_scope.

(** * Rules for the combinators *)
Lemma post_imp : forall A (B B' : Prop) (m : out A) (R R' E E' : A -> Prop),
  post B m R E -> (B -> B') -> (forall a, R a -> R' a) -> (forall a, E a -> E' a) -> post B' m R' E'.
Proof. intros A B B' [a|a| |] R R' E E'; cbn; auto. Qed.

Section Rules.
Context {A B X : Type}.

Lemma on_fst_post : forall (P : Prop) (f : A -> X -> out (A * X)) (r : A * B) w R E,
  post P (f (fst r) w) (fun p => R ((fst p, snd r), snd p)) (fun p => E ((fst p, snd r), snd p)) ->
  post P (on_fst f r w) R E.
Proof. intros P f r w R E. unfold on_fst. destruct (f (fst r) w) as [[a x]|[a x]| |]; auto. Qed.
Lemma on_snd_post : forall (P : Prop) (g : B -> X -> out (B * X)) (r : A * B) w R E,
  post P (g (snd r) w) (fun p => R ((fst r, fst p), snd p)) (fun p => E ((fst r, fst p), snd p)) ->
  post P (on_snd g r w) R E.
Proof. intros P g r w R E. unfold on_snd. destruct (g (snd r) w) as [[a x]|[a x]| |]; auto. Qed.
Lemma then_post : forall Y Z (P : Prop) (m : out (Y * Z)) k R E,
  post P m (fun q => post P (k (fst q) (snd q)) R E) E -> post P (then_ m k) R E.
Proof. intros Y Z P [[y z]|[y z]| |] k R E; auto. Qed.
Lemma undo_post : forall Y Z (P : Prop) (m : out (Y * Z)) undo R E,
  post P m R (fun q => post P (undo (fst q) (snd q)) E (fun _ => P)) -> post P (or_undo m undo) R E.
Proof.
  intros Y Z P [[y z]|[y z]| |] undo R E; cbn; auto.
  destruct (undo y z) as [p|p| |]; cbn; auto.
Qed.
Lemma nothrow_post : forall Y (P : Prop) (m : out Y) R E, post P m R (fun _ => P) -> post P (nothrow m) R E.
Proof. intros Y P [p|p| |] R E; cbn; auto. Qed.
End Rules.

Lemma use_fst_post : forall A B W Y (P : Prop) (f : Y -> A * W -> out (Y * (A * W))) y (sw : (A * B) * W) R E,
  post P (f y (fst (fst sw), snd sw))
    (fun p => R (fst p, ((fst (snd p), snd (fst sw)), snd (snd p))))
    (fun p => E (fst p, ((fst (snd p), snd (fst sw)), snd (snd p)))) ->
  post P (use_fst f y sw) R E.
Proof. intros A B W Y P f y sw R E. unfold use_fst. destruct (f y _) as [[a [b x]]|[a [b x]]| |]; auto. Qed.
Lemma use_snd_post : forall A B W Y (P : Prop) (f : Y -> B * W -> out (Y * (B * W))) y (sw : (A * B) * W) R E,
  post P (f y (snd (fst sw), snd sw))
    (fun p => R (fst p, ((fst (fst sw), fst (snd p)), snd (snd p))))
    (fun p => E (fst p, ((fst (fst sw), fst (snd p)), snd (snd p)))) ->
  post P (use_snd f y sw) R E.
Proof. intros A B W Y P f y sw R E. unfold use_snd. destruct (f y _) as [[a [b x]]|[a [b x]]| |]; auto. Qed.
Lemma lift_post : forall W A X (P : Prop) (f : A -> W -> out (A * W)) a (xw : X * W) R E,
  post P (f a (snd xw)) (fun p => R (fst p, (fst xw, snd p))) (fun p => E (fst p, (fst xw, snd p))) ->
  post P (lift f a xw) R E.
Proof. intros W A X P f a xw R E. unfold lift. destruct (f a (snd xw)) as [[b x]|[b x]| |]; auto. Qed.

(** * The two-part class *)
Section ConsFacts.
Context {W : Type} (sh : shape) (C D : cls W) (S : sem C) (T : sem D).
Hypothesis LC : lawful C S.
Hypothesis LD : lawful D T.
Hypothesis HC : whole C S.
Hypothesis HD : whole D T.
Hypothesis Hcnt : forall w, cnt S w = cnt T w.

Let P := stops S \/ stops T.

Lemma dtor_fst : forall B' (Q : Prop) (r : raw C * B') w (R : ((raw C * B') * W) -> Prop),
  (stops S -> Q) -> ok S (fst r) -> (forall x w', (cnt S w' + own S (fst r) = cnt S w)%Z -> R ((x, snd r), w')) ->
  post Q (on_fst (dtor C) r w) R (fun _ => Q).
Proof.
  intros B' Q r w R HQ Hr H. apply on_fst_post. eapply post_imp; [exact (l_dtor _ _ LC (fst r) w Hr)|exact HQ| |].
  - intros [x w']; cbn. apply H.
  - auto.
Qed.
Lemma dtor_snd : forall A' (Q : Prop) (r : A' * raw D) w (R : ((A' * raw D) * W) -> Prop),
  (stops T -> Q) -> ok T (snd r) -> (forall x w', (cnt T w' + own T (snd r) = cnt T w)%Z -> R ((fst r, x), w')) ->
  post Q (on_snd (dtor D) r w) R (fun _ => Q).
Proof.
  intros A' Q r w R HQ Hr H. apply on_snd_post. eapply post_imp; [exact (l_dtor _ _ LD (snd r) w Hr)|exact HQ| |].
  - intros [x w']; cbn. apply H.
  - auto.
Qed.

Ltac first_of lem := eapply post_imp; [exact lem|unfold P; tauto| |].

Lemma cons_build : forall f g r w (RC : raw C -> Prop) (RD : raw D -> Prop),
  (forall r w, post (stops S) (f r w) (fun p => ok S (fst p) /\ RC (fst p) /\ cnt S (snd p) = (cnt S w + own S (fst p))%Z)
                                      (fun p => cnt S (snd p) = cnt S w)) ->
  (forall r w, post (stops T) (g r w) (fun p => ok T (fst p) /\ RD (fst p) /\ cnt T (snd p) = (cnt T w + own T (fst p))%Z)
                                      (fun p => cnt T (snd p) = cnt T w)) ->
  post P (build2 (tail_first sh) f (dtor C) g (dtor D) r w)
    (fun p => (ok S (fst (fst p)) /\ ok T (snd (fst p))) /\ (RC (fst (fst p)) /\ RD (snd (fst p))) /\
              cnt T (snd p) = (cnt T w + (own S (fst (fst p)) + own T (snd (fst p))))%Z)
    (fun p => cnt T (snd p) = cnt T w).
Proof.
  intros f g [a b] w RC RD Hf Hg. unfold build2. destruct (tail_first sh).
  - apply then_post, on_snd_post. cbn [fst snd]. first_of (Hg b w); [|cbn; auto].
    intros [b1 w1] (G1 & G2 & G3); cbn [fst snd] in *. apply undo_post, on_fst_post. cbn [fst snd]. first_of (Hf a w1).
    + intros [a1 w2] (F1 & F2 & F3); cbn [fst snd] in *. rewrite !Hcnt in *. repeat split; auto. lia.
    + intros [a1 w2] F; cbn [fst snd] in *. apply dtor_snd; [unfold P; tauto|exact G1|]. cbn [fst snd]. intros x w3 Hx.
      rewrite !Hcnt in *. lia.
  - apply then_post, on_fst_post. cbn [fst snd]. first_of (Hf a w); [|cbn; intros p; rewrite !Hcnt; auto].
    intros [a1 w1] (F1 & F2 & F3); cbn [fst snd] in *. apply undo_post, on_snd_post. cbn [fst snd]. first_of (Hg b w1).
    + intros [b1 w2] (G1 & G2 & G3); cbn [fst snd] in *. rewrite !Hcnt in *. repeat split; auto. lia.
    + intros [b1 w2] G; cbn [fst snd] in *. apply dtor_fst; [unfold P; tauto|exact F1|]. cbn [fst snd]. intros x w3 Hx.
      rewrite !Hcnt in *. lia.
Qed.

(** Construction from objects kept in the world. *)
Lemma cons_build_from : forall (Y1 Y2 : Type) (ok1 : Y1 -> Prop) (ok2 : Y2 -> Prop) (own1 : Y1 -> Z) (own2 : Y2 -> Z)
  (f : raw C -> Y1 * W -> out (raw C * (Y1 * W))) (g : raw D -> Y2 * W -> out (raw D * (Y2 * W))) tf
  (RC : Y1 -> raw C -> Y1 -> Prop) (RD : Y2 -> raw D -> Y2 -> Prop),
  (forall r y w, ok1 y -> post (stops S) (f r (y, w))
     (fun p => ok S (fst p) /\ ok1 (fst (snd p)) /\ RC y (fst p) (fst (snd p)) /\
               (cnt S (snd (snd p)) + own1 y = cnt S w + own S (fst p) + own1 (fst (snd p)))%Z)
     (fun p => ok1 (fst (snd p)) /\ (cnt S (snd (snd p)) + own1 y = cnt S w + own1 (fst (snd p)))%Z)) ->
  (forall r y w, ok2 y -> post (stops T) (g r (y, w))
     (fun p => ok T (fst p) /\ ok2 (fst (snd p)) /\ RD y (fst p) (fst (snd p)) /\
               (cnt T (snd (snd p)) + own2 y = cnt T w + own T (fst p) + own2 (fst (snd p)))%Z)
     (fun p => ok2 (fst (snd p)) /\ (cnt T (snd (snd p)) + own2 y = cnt T w + own2 (fst (snd p)))%Z)) ->
  forall r y w, ok1 (fst y) -> ok2 (snd y) ->
  post P (build2 tf (use_fst f) (lift (dtor C)) (use_snd g) (lift (dtor D)) r (y, w))
    (fun p => ok S (fst (fst p)) /\ ok T (snd (fst p)) /\ ok1 (fst (fst (snd p))) /\ ok2 (snd (fst (snd p))) /\
              RC (fst y) (fst (fst p)) (fst (fst (snd p))) /\ RD (snd y) (snd (fst p)) (snd (fst (snd p))) /\
              (cnt T (snd (snd p)) + (own1 (fst y) + own2 (snd y)) =
               cnt T w + (own S (fst (fst p)) + own T (snd (fst p))) +
               (own1 (fst (fst (snd p))) + own2 (snd (fst (snd p)))))%Z)
    (fun p => ok1 (fst (fst (snd p))) /\ ok2 (snd (fst (snd p))) /\
              (cnt T (snd (snd p)) + (own1 (fst y) + own2 (snd y)) =
               cnt T w + (own1 (fst (fst (snd p))) + own2 (snd (fst (snd p)))))%Z).
Proof using LC LD Hcnt.
  intros Y1 Y2 ok1 ok2 own1 own2 f g tf RC RD Hf Hg [a b] [y1 y2] w H1 H2. cbn [fst snd] in *. unfold build2. destruct tf.
  - apply then_post, on_snd_post, use_snd_post. cbn [fst snd]. first_of (Hg b y2 w H2).
    2:{ intros [b1 [z w1]] (G1 & G2); cbn [fst snd] in *. repeat split; auto. lia. }
    intros [b1 [z1 w1]] (G1 & G2 & G3 & G4); cbn [fst snd] in *.
    apply undo_post, on_fst_post, use_fst_post. cbn [fst snd]. first_of (Hf a y1 w1 H1).
    + intros [a1 [u1 w2]] (F1 & F2 & F3 & F4); cbn [fst snd] in *. rewrite !Hcnt in *. repeat split; auto. lia.
    + intros [a1 [u1 w2]] (F1 & F2); cbn [fst snd] in *. apply on_snd_post, lift_post. cbn [fst snd].
      first_of (l_dtor _ _ LD b1 w2 G1); [|cbn; unfold P; tauto].
      intros [b2 w3]; cbn [fst snd]. intros Hd. rewrite !Hcnt in *. repeat split; auto. lia.
  - apply then_post, on_fst_post, use_fst_post. cbn [fst snd]. first_of (Hf a y1 w H1).
    2:{ intros [a1 [z w1]] (F1 & F2); cbn [fst snd] in *. rewrite !Hcnt in *. repeat split; auto. lia. }
    intros [a1 [u1 w1]] (F1 & F2 & F3 & F4); cbn [fst snd] in *.
    apply undo_post, on_snd_post, use_snd_post. cbn [fst snd]. first_of (Hg b y2 w1 H2).
    + intros [b1 [z1 w2]] (G1 & G2 & G3 & G4); cbn [fst snd] in *. rewrite !Hcnt in *. repeat split; auto. lia.
    + intros [b1 [z1 w2]] (G1 & G2); cbn [fst snd] in *. apply on_fst_post, lift_post. cbn [fst snd].
      first_of (l_dtor _ _ LC a1 w2 F1); [|cbn; unfold P; tauto].
      intros [a2 w3]; cbn [fst snd]. intros Hd. rewrite !Hcnt in *. repeat split; auto. lia.
Qed.

(** Assignment-like operations, one part after the other. *)
Lemma cons_each : forall f g r w (RC : raw C -> raw C -> Prop) (RD : raw D -> raw D -> Prop),
  (forall r w, ok S r -> post (stops S) (f r w)
     (fun p => ok S (fst p) /\ RC r (fst p) /\ (cnt S (snd p) + own S r = cnt S w + own S (fst p))%Z)
     (fun p => ok S (fst p) /\ (cnt S (snd p) + own S r = cnt S w + own S (fst p))%Z)) ->
  (forall r w, ok T r -> post (stops T) (g r w)
     (fun p => ok T (fst p) /\ RD r (fst p) /\ (cnt T (snd p) + own T r = cnt T w + own T (fst p))%Z)
     (fun p => ok T (fst p) /\ (cnt T (snd p) + own T r = cnt T w + own T (fst p))%Z)) ->
  ok S (fst r) -> ok T (snd r) ->
  post P (each2 f g r w)
    (fun p => (ok S (fst (fst p)) /\ ok T (snd (fst p))) /\ (RC (fst r) (fst (fst p)) /\ RD (snd r) (snd (fst p))) /\
              (cnt T (snd p) + (own S (fst r) + own T (snd r)) = cnt T w + (own S (fst (fst p)) + own T (snd (fst p))))%Z)
    (fun p => (ok S (fst (fst p)) /\ ok T (snd (fst p))) /\
              (cnt T (snd p) + (own S (fst r) + own T (snd r)) = cnt T w + (own S (fst (fst p)) + own T (snd (fst p))))%Z).
Proof using Hcnt.
  intros f g [a b] w RC RD Hf Hg H1 H2. cbn [fst snd] in *. unfold each2.
  apply then_post, on_fst_post. cbn [fst snd]. first_of (Hf a w H1).
  2:{ intros [a1 w1] (F1 & F2); cbn [fst snd] in *. rewrite !Hcnt in *. repeat split; auto. lia. }
  intros [a1 w1] (F1 & F2 & F3); cbn [fst snd] in *. apply on_snd_post. cbn [fst snd]. first_of (Hg b w1 H2).
  - intros [b1 w2] (G1 & G2 & G3); cbn [fst snd] in *. rewrite !Hcnt in *. repeat split; auto. lia.
  - intros [b1 w2] (G1 & G2); cbn [fst snd] in *. rewrite !Hcnt in *. repeat split; auto. lia.
Qed.

Lemma cons_each_with : forall (f : raw C -> raw C * W -> out (raw C * (raw C * W)))
  (g : raw D -> raw D * W -> out (raw D * (raw D * W))) r s w
  (RC : raw C -> raw C -> raw C -> raw C -> Prop) (RD : raw D -> raw D -> raw D -> raw D -> Prop),
  (forall r s w, ok S r -> ok S s -> post (stops S) (f r (s, w))
     (fun p => ok S (fst p) /\ ok S (fst (snd p)) /\ RC r s (fst p) (fst (snd p)) /\
               (cnt S (snd (snd p)) + own S r + own S s = cnt S w + own S (fst p) + own S (fst (snd p)))%Z)
     (fun p => ok S (fst p) /\ ok S (fst (snd p)) /\
               (cnt S (snd (snd p)) + own S r + own S s = cnt S w + own S (fst p) + own S (fst (snd p)))%Z)) ->
  (forall r s w, ok T r -> ok T s -> post (stops T) (g r (s, w))
     (fun p => ok T (fst p) /\ ok T (fst (snd p)) /\ RD r s (fst p) (fst (snd p)) /\
               (cnt T (snd (snd p)) + own T r + own T s = cnt T w + own T (fst p) + own T (fst (snd p)))%Z)
     (fun p => ok T (fst p) /\ ok T (fst (snd p)) /\
               (cnt T (snd (snd p)) + own T r + own T s = cnt T w + own T (fst p) + own T (fst (snd p)))%Z)) ->
  ok S (fst r) -> ok T (snd r) -> ok S (fst s) -> ok T (snd s) ->
  post P (each2 (use_fst f) (use_snd g) r (s, w))
    (fun p => (ok S (fst (fst p)) /\ ok T (snd (fst p))) /\ (ok S (fst (fst (snd p))) /\ ok T (snd (fst (snd p)))) /\
              RC (fst r) (fst s) (fst (fst p)) (fst (fst (snd p))) /\ RD (snd r) (snd s) (snd (fst p)) (snd (fst (snd p))) /\
              (cnt T (snd (snd p)) + (own S (fst r) + own T (snd r)) + (own S (fst s) + own T (snd s)) =
               cnt T w + (own S (fst (fst p)) + own T (snd (fst p))) +
               (own S (fst (fst (snd p))) + own T (snd (fst (snd p)))))%Z)
    (fun p => (ok S (fst (fst p)) /\ ok T (snd (fst p))) /\ (ok S (fst (fst (snd p))) /\ ok T (snd (fst (snd p)))) /\
              (cnt T (snd (snd p)) + (own S (fst r) + own T (snd r)) + (own S (fst s) + own T (snd s)) =
               cnt T w + (own S (fst (fst p)) + own T (snd (fst p))) +
               (own S (fst (fst (snd p))) + own T (snd (fst (snd p)))))%Z).
Proof using Hcnt.
  intros f g [a b] [c d] w RC RD Hf Hg H1 H2 H3 H4. cbn [fst snd] in *. unfold each2.
  apply then_post, on_fst_post, use_fst_post. cbn [fst snd]. first_of (Hf a c w H1 H3).
  2:{ intros [a1 [c1 w1]] (F1 & F2 & F3); cbn [fst snd] in *. rewrite !Hcnt in *. repeat split; auto. lia. }
  intros [a1 [c1 w1]] (F1 & F2 & F3 & F4); cbn [fst snd] in *. apply on_snd_post, use_snd_post. cbn [fst snd].
  first_of (Hg b d w1 H2 H4).
  - intros [b1 [d1 w2]] (G1 & G2 & G3 & G4); cbn [fst snd] in *. rewrite !Hcnt in *. repeat split; auto. lia.
  - intros [b1 [d1 w2]] (G1 & G2 & G3); cbn [fst snd] in *. rewrite !Hcnt in *. repeat split; auto. lia.
Qed.

Lemma pair_eq : forall A B (a a' : A) (b b' : B), a = a' -> b = b' -> (a, b) = (a', b').
Proof. intros. now subst. Qed.

Theorem cons_lawful : lawful (cons_cls sh C D) (cons_sem sh C D S T).
Proof.
  constructor;
  cbn [raw init td tcc tca tmc tma scalar ctor cctor mctor asgn cassign massign self_cassign self_massign swp self_swp dtor
       lmax lget lset cons_cls V ok val denotes mv selfmv own cnt stops cons_sem]; fold P.
  - intros i r w. eapply post_imp.
    + apply cons_build with (RC := fun x => denotes S (fst i) (val S x)) (RD := fun x => denotes T (snd i) (val T x));
        [apply (h_ctor _ _ HC)|apply (h_ctor _ _ HD)].
    + auto.
    + intros [[a b] w']; cbn. intros H. left. exact H.
    + auto.
  - intros s r w [H1 H2]. eapply post_imp.
    + apply cons_build with (RC := fun x => val S x = val S (fst s)) (RD := fun x => val T x = val T (snd s)).
      * intros r1 w1. apply (l_cctor _ _ LC); exact H1.
      * intros r1 w1. apply (l_cctor _ _ LD); exact H2.
    + auto.
    + intros [[a b] w']; cbn. intros (K1 & [K2 K3] & K4). split; [exact K1|]. split; [now apply pair_eq|exact K4].
    + auto.
  - intros s r w [H1 H2]. eapply post_imp.
    + apply cons_build_from with (ok1 := ok S) (ok2 := ok T) (own1 := own S) (own2 := own T)
        (RC := fun y x y' => val S x = val S y /\ mv S (val S y) (val S y'))
        (RD := fun y x y' => val T x = val T y /\ mv T (val T y) (val T y')); [| |exact H1|exact H2].
      * intros r1 y w1 Hy. first_of (l_mctor _ _ LC y r1 w1 Hy); [|auto]. intros p (K1 & K2 & K3 & K4 & K5). auto.
      * intros r1 y w1 Hy. first_of (l_mctor _ _ LD y r1 w1 Hy); [|auto]. intros p (K1 & K2 & K3 & K4 & K5). auto.
    + auto.
    + intros [[a b] [[c d] w']]; cbn. intros (K1 & K2 & K3 & K4 & [K5 K5'] & [K6 K6'] & K7).
      repeat split; auto. now apply pair_eq.
    + intros [[a b] [[c d] w']]; cbn. tauto.
  - intros i r w [H1 H2]. eapply post_imp.
    + apply cons_each with (RC := fun _ x => denotes S (fst i) (val S x)) (RD := fun _ x => denotes T (snd i) (val T x));
        [apply (h_asgn _ _ HC)|apply (h_asgn _ _ HD)|exact H1|exact H2].
    + auto.
    + intros [[a b] w']; cbn. intros H. left. exact H.
    + auto.
  - intros s r w [H1 H2] [H3 H4]. eapply post_imp.
    + apply cons_each with (RC := fun _ x => val S x = val S (fst s)) (RD := fun _ x => val T x = val T (snd s)); [| |exact H3|exact H4].
      * intros r1 w1 Hr. now apply (l_cassign _ _ LC).
      * intros r1 w1 Hr. now apply (l_cassign _ _ LD).
    + auto.
    + intros [[a b] w']; cbn. intros (K1 & [K2 K3] & K4). split; [exact K1|]. split; [now apply pair_eq|exact K4].
    + auto.
  - intros s r w [H1 H2] [H3 H4]. eapply post_imp.
    + apply cons_each_with with
        (RC := fun _ y x y' => val S x = val S y /\ mv S (val S y) (val S y'))
        (RD := fun _ y x y' => val T x = val T y /\ mv T (val T y) (val T y')); [| |exact H3|exact H4|exact H1|exact H2].
      * intros r1 y w1 Hr Hy. first_of (l_massign _ _ LC y r1 w1 Hy Hr); [|auto]. intros p (K1 & K2 & K3 & K4 & K5). auto.
      * intros r1 y w1 Hr Hy. first_of (l_massign _ _ LD y r1 w1 Hy Hr); [|auto]. intros p (K1 & K2 & K3 & K4 & K5). auto.
    + auto.
    + intros [[a b] [[c d] w']]; cbn. intros ([K1 K2] & [K3 K4] & [K5 K5'] & [K6 K6'] & K7).
      repeat split; auto. now apply pair_eq.
    + auto.
  - intros r w [H1 H2]. eapply post_imp.
    + apply cons_each with (RC := fun y x => val S x = val S y) (RD := fun y x => val T x = val T y); [| |exact H1|exact H2].
      * intros r1 w1 Hr. now apply (l_self_cassign _ _ LC).
      * intros r1 w1 Hr. now apply (l_self_cassign _ _ LD).
    + auto.
    + intros [[a b] w']; cbn. intros (K1 & [K2 K3] & K4). split; [exact K1|]. split; [now apply pair_eq|exact K4].
    + auto.
  - intros r w [H1 H2]. eapply post_imp.
    + apply cons_each with (RC := fun y x => selfmv S (val S y) (val S x)) (RD := fun y x => selfmv T (val T y) (val T x)); [| |exact H1|exact H2].
      * intros r1 w1 Hr. now apply (l_self_massign _ _ LC).
      * intros r1 w1 Hr. now apply (l_self_massign _ _ LD).
    + auto.
    + auto.
    + auto.
  - intros r s w [H1 H2] [H3 H4]. eapply post_imp.
    + apply cons_each_with with
        (RC := fun y1 y2 x1 x2 => val S x1 = val S y2 /\ val S x2 = val S y1)
        (RD := fun y1 y2 x1 x2 => val T x1 = val T y2 /\ val T x2 = val T y1); [| |exact H1|exact H2|exact H3|exact H4].
      * intros r1 y w1 Hr Hy. first_of (l_swp _ _ LC r1 y w1 Hr Hy); [|auto]. intros p (K1 & K2 & K3 & K4 & K5). auto.
      * intros r1 y w1 Hr Hy. first_of (l_swp _ _ LD r1 y w1 Hr Hy); [|auto]. intros p (K1 & K2 & K3 & K4 & K5). auto.
    + auto.
    + intros [[a b] [[c d] w']]; cbn. intros (K1 & K2 & [K3 K4] & [K5 K6] & K7).
      split; [exact K1|]. split; [exact K2|]. split; [now apply pair_eq|]. split; [now apply pair_eq|exact K7].
    + auto.
  - intros r w [H1 H2]. eapply post_imp.
    + apply cons_each with (RC := fun y x => val S x = val S y) (RD := fun y x => val T x = val T y); [| |exact H1|exact H2].
      * intros r1 w1 Hr. now apply (l_self_swp _ _ LC).
      * intros r1 w1 Hr. now apply (l_self_swp _ _ LD).
    + auto.
    + intros [[a b] w']; cbn. intros (K1 & [K2 K3] & K4). split; [exact K1|]. split; [now apply pair_eq|exact K4].
    + auto.
  - intros [a b] w [H1 H2]. cbn [fst snd] in *. unfold drop2. destruct (tail_first sh).
    + apply then_post, nothrow_post. apply dtor_fst; [unfold P; tauto|exact H1|]. cbn [fst snd]. intros x w1 Hx.
      apply nothrow_post. apply dtor_snd; [unfold P; tauto|exact H2|]. cbn [fst snd]. intros y w2 Hy. rewrite !Hcnt in *. lia.
    + apply then_post, nothrow_post. apply dtor_snd; [unfold P; tauto|exact H2|]. cbn [fst snd]. intros x w1 Hx.
      apply nothrow_post. apply dtor_fst; [unfold P; tauto|exact H1|]. cbn [fst snd]. intros y w2 Hy. rewrite !Hcnt in *. lia.
  - intros l r. destruct (head_carries C D); cbn [fst snd]; [apply (l_level _ _ LC)|apply (l_level _ _ LD)].
  - intros r Hm [H1 H2]. destruct (head_carries C D); [now apply (l_ok_level _ _ LC)|now apply (l_ok_level _ _ LD)].
  - intros r. destruct (head_carries C D); [apply (l_bound _ _ LC)|apply (l_bound _ _ LD)].
  - destruct (head_carries C D); [apply (l_max_bound _ _ LC)|apply (l_max_bound _ _ LD)].
  - intros H. apply andb_prop in H. destruct H as [K1 K2]. now rewrite (l_tcc_td _ _ LC K1), (l_tcc_td _ _ LD K2).
  - intros H. apply andb_prop in H. destruct H as [K1 K2]. now rewrite (l_tmc_td _ _ LC K1), (l_tmc_td _ _ LD K2).
  - discriminate.
  - intros r H [H1 H2]. apply andb_prop in H. destruct H as [K1 K2].
    rewrite (l_td_own _ _ LC _ K1 H1), (l_td_own _ _ LD _ K2 H2). reflexivity.
  - intros v H. apply andb_prop in H. destruct H as [K1 K2]. split; [now apply (l_tmc_mv _ _ LC)|now apply (l_tmc_mv _ _ LD)].
  - intros v H H'. apply andb_prop in H, H'. destruct H as [K1 K2], H' as [_ H']. apply andb_prop in H'. destruct H' as [K3 K4].
    split; [now apply (l_tma_selfmv _ _ LC)|now apply (l_tma_selfmv _ _ LD)].
  - discriminate.
  - discriminate.
Qed.

Theorem cons_whole : whole (cons_cls sh C D) (cons_sem sh C D S T).
Proof.
  constructor;
  cbn [raw init ctor asgn cons_cls V ok val denotes own cnt stops cons_sem]; fold P.
  - intros i r w. apply cons_build with (RC := fun x => denotes S (fst i) (val S x)) (RD := fun x => denotes T (snd i) (val T x));
      [apply (h_ctor _ _ HC)|apply (h_ctor _ _ HD)].
  - intros i r w [H1 H2].
    apply cons_each with (RC := fun _ x => denotes S (fst i) (val S x)) (RD := fun _ x => denotes T (snd i) (val T x));
      [apply (h_asgn _ _ HC)|apply (h_asgn _ _ HD)|exact H1|exact H2].
Qed.

Lemma cons_steady : steady C S -> steady D T -> steady (cons_cls sh C D) (cons_sem sh C D S T).
Proof.
  intros [N1 N2 N3] [M1 M2 M3]. constructor; cbn [raw init ctor cctor mctor cons_cls ok cons_sem].
  - intros i [a b] w p. unfold build2, then_, or_undo, on_fst, on_snd. cbn [fst snd]. destruct (tail_first sh).
    + destruct (ctor D (snd i) b w) as [[b1 w1]|[b1 w1]| |] eqn:E; try discriminate; [|now destruct (M1 _ _ _ _ E)].
      cbn [fst snd]. destruct (ctor C (fst i) a w1) as [[a1 w2]|[a1 w2]| |] eqn:E'; try discriminate. now destruct (N1 _ _ _ _ E').
    + destruct (ctor C (fst i) a w) as [[b1 w1]|[b1 w1]| |] eqn:E; try discriminate; [|now destruct (N1 _ _ _ _ E)].
      cbn [fst snd]. destruct (ctor D (snd i) b w1) as [[a1 w2]|[a1 w2]| |] eqn:E'; try discriminate. now destruct (M1 _ _ _ _ E').
  - intros s [a b] w p [H1 H2]. unfold build2, then_, or_undo, on_fst, on_snd. cbn [fst snd]. destruct (tail_first sh).
    + destruct (cctor D (snd s) b w) as [[b1 w1]|[b1 w1]| |] eqn:E; try discriminate; [|now destruct (M2 _ _ _ _ H2 E)].
      cbn [fst snd]. destruct (cctor C (fst s) a w1) as [[a1 w2]|[a1 w2]| |] eqn:E'; try discriminate. now destruct (N2 _ _ _ _ H1 E').
    + destruct (cctor C (fst s) a w) as [[b1 w1]|[b1 w1]| |] eqn:E; try discriminate; [|now destruct (N2 _ _ _ _ H1 E)].
      cbn [fst snd]. destruct (cctor D (snd s) b w1) as [[a1 w2]|[a1 w2]| |] eqn:E'; try discriminate. now destruct (M2 _ _ _ _ H2 E').
  - intros [s1 s2] [a b] w p [H1 H2]. cbn [fst snd] in *. unfold build2, then_, or_undo, on_fst, on_snd, use_fst, use_snd. cbn [fst snd]. destruct (tail_first sh).
    + destruct (mctor D b (s2, w)) as [[b1 [y1 w1]]|[b1 [y1 w1]]| |] eqn:E; try discriminate; [|now destruct (M3 _ _ _ _ H2 E)].
      cbn [fst snd]. destruct (mctor C a (s1, w1)) as [[a1 [y2 w2]]|[a1 [y2 w2]]| |] eqn:E'; try discriminate. now destruct (N3 _ _ _ _ H1 E').
    + destruct (mctor C a (s1, w)) as [[b1 [y1 w1]]|[b1 [y1 w1]]| |] eqn:E; try discriminate; [|now destruct (N3 _ _ _ _ H1 E)].
      cbn [fst snd]. destruct (mctor D b (s2, w1)) as [[a1 [y2 w2]]|[a1 [y2 w2]]| |] eqn:E'; try discriminate. now destruct (M3 _ _ _ _ H2 E').
Qed.
End ConsFacts.

Lemma unit_lawful : forall W (count : W -> Z), lawful unit_cls (unit_sem count).
Proof.
  intros W count.
  constructor; cbn; intros; repeat match goal with |- context [post _ _ _ _] => cbn end; auto; try lia; try discriminate;
    repeat split; auto; try lia; try (unfold umax_base; lia).
Qed.
Lemma unit_whole : forall W (count : W -> Z), whole unit_cls (unit_sem count).
Proof. intros W count. constructor; cbn; intros; repeat split; lia. Qed.
Lemma unit_steady : forall W (count : W -> Z), steady unit_cls (unit_sem count).
Proof. intros W count. constructor; cbn; discriminate. Qed.

Lemma opt_whole : forall W (C : cls W) S, lawful C S -> quiet C S -> whole (opt_cls C) (opt_sem C S).
Proof.
  intros W C S L Q. constructor; cbn -[o_ctor o_asgn].
  - intros i r w. apply ctor_ok; [exact L|]. intros; apply (q_ctor _ _ Q).
  - intros i r w Hr. eapply post_mono; [apply (asgn_ok C S L); [intros; apply (q_ctor _ _ Q)|exact Hr]| |]; cbn; intros p H; [exact H|].
    split; apply H.
Qed.

Section Lists.
Context {W : Type} (count : W -> Z) (sh : shape).

Lemma tuple_element : forall Cs (Ss : sems Cs), every (element count) Cs Ss ->
  element count (tuple_cls sh Cs) (tuple_sem count sh Cs Ss).
Proof.
  induction Cs as [|C Cs IH]; intros Ss H; cbn [tuple_cls tuple_sem].
  - split; [apply unit_lawful|]. split; [apply unit_whole|reflexivity].
  - destruct H as [(H1 & H2 & H3) H]. destruct (IH _ H) as (K1 & K2 & K3).
    assert (E : forall w, cnt (fst Ss) w = cnt (tuple_sem count sh Cs (snd Ss)) w) by (intros w; now rewrite H3, K3).
    split; [now apply cons_lawful|]. split; [now apply cons_whole|exact K3].
Qed.
Lemma tuple_steady : forall Cs (Ss : sems Cs), every (@steady W) Cs Ss -> steady (tuple_cls sh Cs) (tuple_sem count sh Cs Ss).
Proof.
  induction Cs as [|C Cs IH]; intros Ss H; cbn [tuple_cls tuple_sem]; [apply unit_steady|].
  destruct H as [H1 H2]. apply cons_steady; auto.
Qed.
Lemma options_elements : forall Cs (Ss : sems Cs), every (element count) Cs Ss -> every (@quiet W) Cs Ss ->
  every (element count) (opts Cs) (osems Cs Ss).
Proof.
  induction Cs as [|C Cs IH]; intros Ss H Q; cbn; [exact I|].
  destruct H as [(H1 & H2 & H3) H], Q as [Q1 Q2]. split; [|now apply IH].
  split; [now apply opt_lawful|]. split; [now apply opt_whole|exact H3].
Qed.
End Lists.

Section Carrier.
Context {W : Type} (sh : shape).
Lemma tuple_lmax_ge : forall (Cs : list (cls W)) j, lmax (nth j Cs unit_cls) <= lmax (tuple_cls sh Cs).
Proof.
  induction Cs as [|C Cs IH]; intros [|j]; cbn [nth tuple_cls cons_cls lmax unit_cls]; try lia; unfold head_carries.
  - destruct (lmax (tuple_cls sh Cs) <=? lmax C) eqn:E; lia.
  - specialize (IH j). destruct (lmax (tuple_cls sh Cs) <=? lmax C) eqn:E; lia.
Qed.
Lemma tuple_lmax_some : forall Cs : list (cls W), exists j, lmax (tuple_cls sh Cs) = lmax (nth j Cs unit_cls).
Proof.
  induction Cs as [|C Cs (j & IH)]; cbn [tuple_cls cons_cls lmax]; [now exists 0%nat|].
  unfold head_carries. destruct (lmax (tuple_cls sh Cs) <=? lmax C); [now exists 0%nat|now exists (S j)].
Qed.
Lemma tuple_carrier : forall (Cs : list (cls W)) k, first_most k Cs ->
  lmax (tuple_cls sh Cs) = lmax (nth k Cs unit_cls) /\
  (forall r, lget (tuple_cls sh Cs) r = level_in sh k Cs r) /\
  (forall l r, lset (tuple_cls sh Cs) l r = with_level sh k l Cs r).
Proof.
  induction Cs as [|C Cs IH]; intros k (K1 & K2 & K3); [cbn in K1; lia|].
  destruct (tuple_lmax_some Cs) as (m & Hm). destruct k as [|k].
  - assert (E : head_carries C (tuple_cls sh Cs) = true) by (unfold head_carries; specialize (K2 (S m)); cbn [nth] in K2; lia).
    cbn [tuple_cls cons_cls lmax lget lset nth level_in with_level]. rewrite E. auto.
  - assert (F : first_most k Cs).
    { split; [cbn in K1; lia|]. split; [intros j; apply (K2 (S j))|intros j J; apply (K3 (S j)); lia]. }
    destruct (IH k F) as (I1 & I2 & I3).
    assert (E : head_carries C (tuple_cls sh Cs) = false).
    { unfold head_carries. rewrite I1. specialize (K3 0%nat ltac:(lia)). cbn [nth] in K3. lia. }
    cbn [tuple_cls cons_cls lmax lget lset nth level_in with_level]. rewrite E.
    split; [exact I1|]. split; [intros r; apply I2|intros l r; now rewrite I3].
Qed.
End Carrier.
