(** Consequences of the specifications of the functional members. *)
From Coq Require Import NArith ZArith Bool List Lia ZifyBool ZifyN.
From Verif Require Import Outcome Words Lifetime LifetimeSpec LifetimeFacts Api ApiSpec ApiFacts ApiLaws ConvFacts.
Import ListNotations.
Open Scope N_scope.

Section One.
Context {W : Type} (C : cls W) (S : sem C).
Hypothesis L : lawful C S.

Lemma take_if_once : forall nrvo d c w, inv C S c ->
  (c_alive c = true -> calls_once (fun f => o_take_if C nrvo f d (c, w)) (c_raw c) w) /\
  (c_alive c = false -> never_calls (fun f => o_take_if C nrvo f d (c, w))).
Proof.
  intros nrvo d c w Hi. split; intros Ha.
  - destruct (with_value_once C S L _ c (false, w) Hi Ha) as (k & H1 & H2 & H3 & H4).
    exists (fun m => match k m with
                     | Ret (c', (b, w')) =>
                         if b : bool then o_take C nrvo d (c', w') else o_none C d (c', w')
                     | Exn (c', (_, w')) => Exn (d, (c', w'))
                     | Abort => Abort
                     | Undef => Undef
                     end).
    rewrite H1, H2. repeat split; auto.
    + intros e. destruct (H3 e) as [(c' & b & w') ->]. eauto.
    + intros f. unfold o_take_if. rewrite (has_ok C S L c Hi), Ha. cbn. now rewrite H4.
  - intros f f'. unfold o_take_if. now rewrite (has_ok C S L c Hi), Ha.
Qed.

(** none as the identity of or_else. *)
Lemma or_else_none_right : forall p d c w, quiet_pass C S p -> inv C S c ->
  post (stops S) (a_or_else C p (o_none C) d (c, w))
    (fun q => inv C S (fst q) /\ oval C S (fst q) = oval C S c)
    (fun _ => True).
Proof.
  intros p d c w Qp Hi.
  assert (F : makes (opt_sem C S) (o_none C) (fun v => v = None)).
  { intros c0 w0. destruct (none_ok C S L W c0 w0) as (c' & -> & Hc & Ha). cbn. split; [exact Hc|].
    split; [now apply oval_dead|]. now rewrite (dead_own C S c' Ha), Z.add_0_r. }
  eapply post_mono; [apply (or_else_ok C S L p _ _ d c w Qp F Hi)| |]; cbn; auto.
  intros q (H1 & _ & H2 & _). split; [exact H1|]. destruct (oval C S c); [tauto|]. tauto.
Qed.

Lemma or_else_none_left : forall p f d c w, inv C S c -> c_alive c = false ->
  a_or_else C p f d (c, w) = lift f d (c, w).
Proof. intros p f d c w Hi Ha. unfold a_or_else. cbn [fst]. now rewrite (has_ok C S L c Hi), Ha. Qed.

(** make_option(value) and make_option<T>(args...): 3329-3342. *)
Lemma make_option_ok : forall i d w,
  post (stops S) (o_build C (ctor C i) d w)
    (fun p => inv C S (fst p) /\ (exists v, oval C S (fst p) = Some v /\ denotes S i v) /\
              cnt S (snd p) = (cnt S w + oown C S (fst p))%Z)
    (fun p => cnt S (snd p) = cnt S w).
Proof.
  intros i d w.
  eapply post_mono; [eapply (build_ok C S L W (ctor C i) d w (stops S)
    (fun r w' => denotes S i (val S r) /\ cnt S w' = (cnt S w + own S r)%Z) (fun w' => cnt S w' = cnt S w)); auto| |].
  - eapply post_mono; [apply (l_ctor C S L i (c_raw d) w)| |]; cbn; auto; tauto.
  - cbn. intros [c' w'] (H1 & H2 & H3 & H4). cbn [fst snd] in *. split; [exact H1|].
    split; [exists (val S (c_raw c')); split; [now apply oval_alive|exact H3]|]. now rewrite (oown_alive C S c' H2).
  - auto.
Qed.

Lemma some_alive : forall c v, oval C S c = Some v -> c_alive c = true.
Proof. intros c v. unfold oval. destruct (c_alive c); congruence. Qed.

Lemma oval_cases : forall c, (c_alive c = true /\ exists v, oval C S c = Some v) \/ (c_alive c = false /\ oval C S c = None).
Proof. intros c. unfold oval. destruct (c_alive c); eauto. Qed.

Lemma value_or_keeps : forall p i r c w, inv C S c -> keeps_engagement C S c (a_value_or C p i r (c, w)).
Proof.
  intros p i r c w Hi. eapply post_mono; [apply (value_or_ok C S L p i r c w Hi)| |]; cbn; auto; [|tauto].
  intros q (H1 & H2). split; [exact H1|]. destruct (oval_cases c) as [[Ha [v Hv]]|[Ha Hv]]; rewrite Hv in H2; rewrite Ha.
  - destruct H2 as (_ & _ & v' & _ & H3). now apply some_alive in H3.
  - destruct H2 as [-> _]. exact Ha.
Qed.

Lemma or_else_keeps : forall p f F d c w, quiet_pass C S p -> makes (opt_sem C S) f F -> inv C S c ->
  keeps_engagement C S c (a_or_else C p f d (c, w)).
Proof.
  intros p f F d c w Qp HF Hi. eapply post_mono; [apply (or_else_ok C S L p f F d c w Qp HF Hi)| |]; cbn; auto; [|tauto].
  intros q (_ & H1 & H2 & _). split; [exact H1|]. destruct (oval_cases c) as [[Ha [v Hv]]|[Ha Hv]]; rewrite Hv in H2; rewrite Ha.
  - destruct H2 as (_ & v' & _ & H3). now apply some_alive in H3.
  - destruct H2 as [_ ->]. exact Ha.
Qed.

Lemma filter_keeps : forall p f R d c w, asks S f R -> inv C S c -> keeps_engagement C S c (a_filter C p f d (c, w)).
Proof.
  intros p f R d c w HF Hi. eapply post_mono; [apply (filter_ok C S L p f R d c w HF Hi)| |]; cbn; auto.
  - intros q (_ & H1 & H2 & _). split; [exact H1|]. destruct (oval_cases c) as [[Ha [v Hv]]|[Ha Hv]]; rewrite Hv in H2; rewrite Ha.
    + destruct H2 as [(v1 & v2 & _ & _ & _ & H3)|(v1 & _ & _ & H3)]; now apply some_alive in H3.
    + destruct H2 as [_ ->]. exact Ha.
  - intros q (H1 & H2 & H3 & _). split; [exact H1|congruence].
Qed.
End One.

Section Two.
Context {W : Type} (C D : cls W) (S : sem C) (T : sem D).
Hypothesis L : lawful C S.
Hypothesis LD : lawful D T.

Lemma map_keeps : forall f R d c w, attempts S T f R -> inv C S c ->
  post (stops S \/ stops T) (a_map C D f d (c, w))
    (fun q => inv C S (fst (snd q)) /\ c_alive (fst (snd q)) = c_alive c)
    (fun q => inv C S (fst (snd q)) /\ c_alive (fst (snd q)) = c_alive c).
Proof.
  intros f R d c w HF Hi. eapply post_mono; [apply (map_ok C D S T L LD f R d c w HF Hi)| |]; cbn; auto.
  - intros q (_ & H1 & H2 & _). split; [exact H1|].
    destruct (oval_cases C S c) as [[Ha [v Hv]]|[Ha Hv]]; rewrite Hv in H2; rewrite Ha.
    + destruct H2 as (u & v' & _ & _ & H3). now apply some_alive in H3.
    + destruct H2 as [_ ->]. exact Ha.
  - intros q (H1 & H2 & H3 & _). split; [exact H1|congruence].
Qed.

Lemma and_then_keeps : forall f R d c w, produces S (opt_sem D T) f R -> inv C S c ->
  post (stops S \/ stops T) (a_and_then C D f d (c, w))
    (fun q => inv C S (fst (snd q)) /\ c_alive (fst (snd q)) = c_alive c)
    (fun q => inv C S (fst (snd q)) /\ c_alive (fst (snd q)) = c_alive c).
Proof.
  intros f R d c w HF Hi. eapply post_mono; [apply (and_then_ok C D S T L LD f R d c w HF Hi)| |]; cbn; auto.
  - intros q (_ & H1 & H2 & _). split; [exact H1|].
    destruct (oval_cases C S c) as [[Ha [v Hv]]|[Ha Hv]]; rewrite Hv in H2; rewrite Ha.
    + destruct H2 as (v' & _ & H3). now apply some_alive in H3.
    + destruct H2 as [_ ->]. exact Ha.
  - intros q (H1 & H2 & H3 & _). split; [exact H1|congruence].
Qed.

(** A class without reserved patterns to run into: the conversion always builds a proper value. *)
Lemma attempts_produces : forall f R, ~ stops T -> attempts S T f R -> produces S T f R.
Proof.
  intros f R N H d r w Hr. eapply post_mono; [apply (H d r w Hr)| |]; cbn; auto. intros p [H1|[H1 _]]; tauto.
Qed.
End Two.

(** Composition of casts is the cast of the composition, for the effects as well: [after] builds the
    intermediate object, converts it, and destroys it. *)
Lemma cast_compose : forall W (C D E : cls W) (S : sem C) (T : sem D) (U : sem E),
  lawful C S -> lawful D T -> lawful E U -> ~ stops T -> ~ stops U ->
  (forall w, cnt T w = cnt S w) -> (forall w, cnt U w = cnt T w) ->
  forall conv conv' d e c w, inv C S c -> c_alive e = false ->
  let f := fun r sw => lift (ctor D (conv (fst sw))) r sw in
  let g := fun r sw => lift (ctor E (conv' (fst sw))) r sw in
  map_map C D E f g d e (c, w) = a_map C E (after C D E f g (c_raw d)) e (c, w).
Proof.
  intros W C D E S T U L LD LE NT NU S1 S2 conv conv' d e c w Hi He f g.
  eapply (map_compose C D E S T U L LD LE); eauto.
  - apply (attempts_produces C D S T); [exact NT|]. apply (cast_attempts C D S T LD S1).
  - apply (attempts_produces D E T U); [exact NU|]. apply (cast_attempts D E T U LE S2).
Qed.
