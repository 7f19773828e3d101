(** Every program over options of a lawful class does what the program over mathematical optionals
    does, keeps every option healthy and accounts for every object. *)
From Coq Require Import NArith ZArith Bool List Lia ZifyBool ZifyN Arith.
From Verif Require Import Outcome Words Lifetime LifetimeSpec LifetimeFacts History HistorySpec.
Import ListNotations.

(** Lists. *)
Lemma put_same : forall A (l : list A) x v a, nth_error l x = Some a -> nth_error (put l x v) x = Some v.
Proof. induction l as [|b l IH]; intros [|x] v a H; cbn in *; try discriminate; eauto. Qed.

Lemma put_other : forall A (l : list A) x y v, x <> y -> nth_error (put l x v) y = nth_error l y.
Proof.
  induction l as [|b l IH]; intros x y v H; [reflexivity|].
  destruct x as [|x], y as [|y]; cbn; try reflexivity; [congruence|]. apply IH. congruence.
Qed.

Lemma put_id : forall A (l : list A) x a, nth_error l x = Some a -> put l x a = l.
Proof. induction l as [|b l IH]; intros [|x] a H; cbn in *; try congruence. f_equal. now apply IH. Qed.

Lemma put_put : forall A (l : list A) x a b, put (put l x a) x b = put l x b.
Proof. induction l as [|c l IH]; intros [|x] a b; cbn; try reflexivity. f_equal. apply IH. Qed.

Lemma map_put : forall A B (f : A -> B) (l : list A) x v, map f (put l x v) = put (map f l) x (f v).
Proof. induction l as [|c l IH]; intros [|x] v; cbn; try reflexivity. f_equal. apply IH. Qed.

Lemma length_put : forall A (l : list A) x v, length (put l x v) = length l.
Proof. induction l as [|c l IH]; intros [|x] v; cbn; congruence. Qed.

Lemma Forall_put : forall A (P : A -> Prop) (l : list A) x v, Forall P l -> P v -> Forall P (put l x v).
Proof.
  induction l as [|c l IH]; intros [|x] v H Hv; cbn; auto; inversion H; subst; constructor; auto.
Qed.

Section Facts.
Context {W : Type} (C : cls W) (Sm : sem C).
Hypothesis L : lawful C Sm.
Notation inv := (inv C Sm).
Notation oval := (oval C Sm).
Notation oown := (oown C Sm).
Notation cnt := (cnt Sm).
Notation values := (values C Sm).
Notation owned := (owned C Sm).
Notation healthy := (healthy C Sm).
Notation at_ := (at_ C Sm).
Notation free_ := (free_ C Sm).
Notation set_ := (set_ C Sm).

Lemma slot_nth : forall (l : vars C) x c, slot l x = Some c -> nth_error l x = Some (Some c).
Proof. intros l x c H. unfold slot in H. destruct (nth_error l x) as [[c'|]|]; congruence. Qed.

Lemma nth_slot : forall (l : vars C) x c, nth_error l x = Some (Some c) -> slot l x = Some c.
Proof. intros l x c H. unfold slot. now rewrite H. Qed.

Lemma slot_at : forall l x c, slot l x = Some c -> at_ (values l) x (oval c).
Proof.
  intros l x c H. apply slot_nth in H. unfold HistorySpec.at_, HistorySpec.values. rewrite nth_error_map, H. reflexivity.
Qed.

Lemma free_nth : forall (l : vars C) x, free l x = true -> nth_error l x = Some None.
Proof. intros l x H. unfold free in H. destruct (nth_error l x) as [[c'|]|]; congruence. Qed.

Lemma free_at : forall l x, free l x = true -> free_ (values l) x.
Proof.
  intros l x H. apply free_nth in H. unfold HistorySpec.free_, HistorySpec.values. rewrite nth_error_map, H. reflexivity.
Qed.

Lemma healthy_slot : forall l x c, healthy l -> slot l x = Some c -> inv c.
Proof.
  intros l x c H Hs. apply slot_nth in Hs. apply nth_error_In in Hs.
  unfold HistorySpec.healthy in H. rewrite Forall_forall in H. exact (H _ Hs).
Qed.

Lemma healthy_put : forall l x c, healthy l -> inv c -> healthy (put l x (Some c)).
Proof. intros l x c H Hc. now apply Forall_put. Qed.

Lemma healthy_put_none : forall l x, healthy l -> healthy (put l x None).
Proof. intros l x H. apply Forall_put; [exact H|exact I]. Qed.

Lemma values_put : forall l x c, values (put l x (Some c)) = set_ (values l) x (oval c).
Proof. intros. unfold HistorySpec.values. now rewrite map_put. Qed.

Lemma owned_put : forall l x s v, nth_error l x = Some s ->
  (owned (put l x v) + slot_own C Sm s = owned l + slot_own C Sm v)%Z.
Proof.
  unfold HistorySpec.owned; induction l as [|a l IH]; intros [|x] s v H; cbn in *; try discriminate.
  - injection H as ->. lia.
  - specialize (IH x s v H). lia.
Qed.

Lemma owned_slot : forall l x c c', slot l x = Some c ->
  (owned (put l x (Some c')) + oown c = owned l + oown c')%Z.
Proof. intros l x c c' H. apply slot_nth in H. exact (owned_put l x (Some c) (Some c') H). Qed.

Lemma owned_free : forall l x c', free l x = true -> owned (put l x (Some c')) = (owned l + oown c')%Z.
Proof. intros l x c' H. apply free_nth in H. pose proof (owned_put l x None (Some c') H) as E. cbn in E. lia. Qed.

Lemma slot_put_other : forall (l : vars C) x y v, x <> y -> slot (put l y v) x = slot l x.
Proof. intros l x y v H. unfold slot. rewrite put_other; auto. Qed.

Lemma free_put_other : forall (l : vars C) x y v, x <> y -> free (put l y v) x = free l x.
Proof. intros l x y v H. unfold free. rewrite put_other; auto. Qed.

Lemma free_slot_ne : forall (l : vars C) x y c, free l x = true -> slot l y = Some c -> x <> y.
Proof. intros l x y c H Hs E. subst. apply free_nth in H. apply slot_nth in Hs. congruence. Qed.

Lemma at_id : forall a x v, at_ a x v -> set_ a x v = a.
Proof. intros a x v H. now apply put_id. Qed.

(** What one step promises. *)
Definition spost (l : vars C) (w : W) (B : Prop) (R E : avars C Sm -> Prop) (so : sout C) : Prop :=
  match so with
  | SRet l' w' => healthy l' /\ R (values l') /\ (cnt w' - owned l' = cnt w - owned l)%Z
  | SThrow l' w' => healthy l' /\ E (values l') /\ (cnt w' - owned l' = cnt w - owned l)%Z
  | SAbort => B
  | SUndef => False
  | SBad => True
  end.

Lemma on1_ok : forall l w x m (B : Prop) (R E : avars C Sm -> Prop),
  healthy l ->
  (forall c, slot l x = Some c -> inv c -> post B (m c w)
    (fun p => inv (fst p) /\ R (set_ (values l) x (oval (fst p))) /\ (cnt (snd p) + oown c = cnt w + oown (fst p))%Z)
    (fun p => inv (fst p) /\ E (set_ (values l) x (oval (fst p))) /\ (cnt (snd p) + oown c = cnt w + oown (fst p))%Z)) ->
  spost l w B R E (on1 C l w x m).
Proof.
  intros l w x m B R E Hl H. unfold on1. destruct (slot l x) as [c|] eqn:Hx; [|exact I].
  specialize (H c eq_refl (healthy_slot _ _ _ Hl Hx)).
  destruct (m c w) as [[c' w']|[c' w']| |]; cbn in *; auto; destruct H as (H1 & H2 & H3);
    (split; [now apply healthy_put|]; split; [now rewrite values_put|]);
    pose proof (owned_slot l x c c' Hx); lia.
Qed.

Lemma new1_ok : forall l w x m (B : Prop) (R E : avars C Sm -> Prop),
  healthy l ->
  (free l x = true -> post B (m w)
    (fun p => inv (fst p) /\ R (set_ (values l) x (oval (fst p))) /\ cnt (snd p) = (cnt w + oown (fst p))%Z)
    (fun p => E (values l) /\ cnt (snd p) = cnt w)) ->
  spost l w B R E (new1 C l w x m).
Proof.
  intros l w x m B R E Hl H. unfold new1. destruct (free l x) eqn:Hx; [|exact I]. specialize (H eq_refl).
  destruct (m w) as [[c' w']|[c' w']| |]; cbn in *; auto.
  - destruct H as (H1 & H2 & H3). split; [now apply healthy_put|]. split; [now rewrite values_put|].
    pose proof (owned_free l x c' Hx). lia.
  - destruct H as (H1 & H2). split; [exact Hl|]. split; [exact H1|]. lia.
Qed.

Lemma new2_ok : forall l w x y m (B : Prop) (R E : avars C Sm -> Prop),
  healthy l ->
  (forall d, free l x = true -> slot l y = Some d -> inv d -> post B (m (d, w))
    (fun p => inv (fst p) /\ inv (fst (snd p)) /\
              R (set_ (set_ (values l) y (oval (fst (snd p)))) x (oval (fst p))) /\
              (cnt (snd (snd p)) + oown d = cnt w + oown (fst p) + oown (fst (snd p)))%Z)
    (fun p => inv (fst (snd p)) /\ E (set_ (values l) y (oval (fst (snd p)))) /\
              (cnt (snd (snd p)) + oown d = cnt w + oown (fst (snd p)))%Z)) ->
  spost l w B R E (new2 C l w x y m).
Proof.
  intros l w x y m B R E Hl H. unfold new2. destruct (free l x) eqn:Hx; [|exact I].
  destruct (slot l y) as [d|] eqn:Hy; [|exact I].
  specialize (H d eq_refl eq_refl (healthy_slot _ _ _ Hl Hy)).
  pose proof (free_slot_ne _ _ _ _ Hx Hy) as Hne.
  destruct (m (d, w)) as [[c' [d' w']]|[c' [d' w']]| |]; cbn in *; auto.
  - destruct H as (H1 & H2 & H3 & H4). split; [apply healthy_put; [now apply healthy_put|exact H1]|].
    split; [now rewrite !values_put|].
    pose proof (owned_slot l y d d' Hy). pose proof (owned_free (put l y (Some d')) x c') as Hf.
    rewrite free_put_other in Hf by exact Hne. specialize (Hf Hx). lia.
  - destruct H as (H1 & H2 & H3). split; [now apply healthy_put|]. split; [now rewrite values_put|].
    pose proof (owned_slot l y d d' Hy). lia.
Qed.

Lemma on2_ok : forall l w x y m (B : Prop) (R E : avars C Sm -> Prop),
  x <> y -> healthy l ->
  (forall c d, slot l x = Some c -> slot l y = Some d -> inv c -> inv d -> post B (m c (d, w))
    (fun p => inv (fst p) /\ inv (fst (snd p)) /\
              R (set_ (set_ (values l) y (oval (fst (snd p)))) x (oval (fst p))) /\
              (cnt (snd (snd p)) + oown c + oown d = cnt w + oown (fst p) + oown (fst (snd p)))%Z)
    (fun p => inv (fst p) /\ inv (fst (snd p)) /\
              E (set_ (set_ (values l) y (oval (fst (snd p)))) x (oval (fst p))) /\
              (cnt (snd (snd p)) + oown c + oown d = cnt w + oown (fst p) + oown (fst (snd p)))%Z)) ->
  spost l w B R E (on2 C l w x y m).
Proof.
  intros l w x y m B R E Hne Hl H. unfold on2. destruct (slot l x) as [c|] eqn:Hx; [|exact I].
  destruct (slot l y) as [d|] eqn:Hy; [|exact I].
  specialize (H c d eq_refl eq_refl (healthy_slot _ _ _ Hl Hx) (healthy_slot _ _ _ Hl Hy)).
  destruct (m c (d, w)) as [[c' [d' w']]|[c' [d' w']]| |]; cbn in *; auto;
    destruct H as (H1 & H2 & H3 & H4);
    (split; [apply healthy_put; [now apply healthy_put|exact H1]|]; split; [now rewrite !values_put|]);
    pose proof (owned_slot l y d d' Hy); pose proof (owned_slot (put l y (Some d')) x c c') as Hf;
    rewrite slot_put_other in Hf by exact Hne; specialize (Hf Hx); lia.
Qed.

Lemma post_weaken : forall A (B B' : Prop) (m : out A) R E, post B m R E -> (B -> B') -> post B' m R E.
Proof. intros A B B' [a|a| |] R E H HB; cbn in *; auto. Qed.

Lemma deref_ok : forall A (B : Prop) s (k : raw C -> out A) R E, inv s ->
  (c_alive s = true -> ok Sm (c_raw s) -> post B (k (c_raw s)) R E) ->
  post (c_alive s = false \/ B) (deref C s k) R E.
Proof.
  intros A B s k R E Hs H. unfold deref. rewrite (has_ok C Sm L s Hs). cbn [check].
  destruct (c_alive s) eqn:Es; [|left; reflexivity].
  eapply post_weaken; [apply H; [reflexivity|now apply Hs]|auto].
Qed.

Lemma same_alive : forall c c' : cell C, c_alive c' = c_alive c -> same_state C Sm (oval c) (oval c').
Proof.
  intros c c' H. unfold same_state, LifetimeSpec.oval. rewrite H. destruct (c_alive c); split; congruence.
Qed.

Lemma dead_at : forall l x c, slot l x = Some c -> c_alive c = false -> at_ (values l) x None.
Proof. intros l x c H E. apply slot_at in H. now rewrite (oval_dead C Sm c E) in H. Qed.

Lemma alive_at : forall l x c, slot l x = Some c -> c_alive c = true -> at_ (values l) x (Some (val Sm (c_raw c))).
Proof. intros l x c H E. apply slot_at in H. now rewrite (oval_alive C Sm c E) in H. Qed.

Ltac fin := repeat match goal with |- _ /\ _ => split end;
  try assumption; try reflexivity; try (apply slot_at; assumption); try (apply alive_at; assumption); try (apply free_at; assumption).

Lemma take_if_ok : forall nrvo p (pr : V Sm -> bool -> V Sm -> Prop) g s w, quiet_move C Sm ->
  (forall r w, ok Sm r -> post (stops Sm) (p r w)
      (fun q => ok Sm (fst q) /\ pr (val Sm r) (fst (snd q)) (val Sm (fst q)) /\
                (cnt (snd (snd q)) + own Sm r = cnt w + own Sm (fst q))%Z)
      (fun q => ok Sm (fst q) /\ (cnt (snd (snd q)) + own Sm r = cnt w + own Sm (fst q))%Z)) ->
  inv s ->
  post (stops Sm) (o_take_if C nrvo p g (s, w))
    (fun q => inv (fst q) /\ inv (fst (snd q)) /\
       match oval s with
       | None => oval (fst q) = None /\ oval (fst (snd q)) = None
       | Some v => exists b v', pr v b v' /\
           if b then oval (fst q) = Some v' /\ oval (fst (snd q)) = None
           else oval (fst q) = None /\ oval (fst (snd q)) = Some v'
       end /\
       (cnt (snd (snd q)) + oown s = cnt w + oown (fst q) + oown (fst (snd q)))%Z)
    (fun q => inv (fst (snd q)) /\ c_alive s = true /\ (nrvo = true -> c_alive (fst (snd q)) = true) /\
       (cnt (snd (snd q)) + oown s = cnt w + oown (fst (snd q)))%Z).
Proof.
  intros nrvo p pr g s w Qm Hp Hs. unfold o_take_if. rewrite (has_ok C Sm L s Hs). cbn [check].
  destruct (default_ok C Sm L g) as (c0 & -> & Hc0 & Ha0).
  destruct (c_alive s) eqn:Es.
  2: { cbn. rewrite (oval_dead C Sm _ Es), (oval_dead C Sm _ Ha0), (dead_own C Sm _ Ha0). fin. lia. }
  unfold o_with_value. rewrite (has_ok C Sm L s Hs), Es. cbn [check snd].
  pose proof (Hp (c_raw s) w (proj1 Hs Es)) as H.
  destruct (p (c_raw s) w) as [[r [b w']]|[r [b w']]| |]; cbn [post fst snd] in *; auto.
  - destruct H as (H1 & H2 & H3).
    assert (Hi : inv (mkcell r (c_flag s) true)) by now apply inv_set with (c := s).
    assert (Ho : oown (mkcell r (c_flag s) true) = own Sm r) by reflexivity.
    rewrite (oval_alive C Sm _ Es). rewrite (oown_alive C Sm _ Es).
    destruct b.
    + eapply post_mono; [apply (take_ok C Sm L nrvo g _ w' Qm Hi)| |]; cbn [fst snd].
      * intros q (T1 & T2 & T3 & T4 & T5). fin.
        -- exists true, (val Sm r). split; [exact H2|]. split; [exact T2|exact T4].
        -- rewrite Ho in T5. lia.
      * intros q (T1 & T2 & T3 & T4). fin. rewrite Ho in T3. lia.
    + cbn. fin.
      * exists false, (val Sm r). split; [exact H2|]. split; [now apply oval_dead|reflexivity].
      * rewrite (dead_own C Sm _ Ha0). try rewrite Ho. cbn in *. lia.
  - destruct H as (H1 & H2).
    assert (Hi : inv (mkcell r (c_flag s) true)) by now apply inv_set with (c := s).
    rewrite (oown_alive C Sm _ Es). fin.
Qed.

Theorem step_ok : forall o l w, healthy l -> fair C Sm o -> gentle C Sm o ->
  spost l w (stops Sm \/ misuse C Sm o (values l)) (returns C Sm o (values l)) (throws C Sm o (values l)) (step C Sm o l w).
Proof.
  intros o l w Hl Hf Hg.
  assert (weak : forall A (m : out A) R E, post (stops Sm) m R E -> post (stops Sm \/ misuse C Sm o (values l)) m R E).
  { intros A m R E H. eapply post_weaken; [exact H|auto]. }
  destruct o as [x i g|x y g|x y g|nrvo x y g|nrvo p pr x y g|x|x i|x y|x y|x|x i|x i|x y|x y|x y|x f fr];
    cbn [step returns throws fair gentle] in *.
  - (* New *)
    apply new1_ok; [exact Hl|]. intros Hx. apply weak.
    eapply post_mono; [apply (ctor_ok C Sm L i g w); intros i' ->; exact Hg| |]; cbn.
    + intros p (H1 & H2 & H3). fin. exists (oval (fst p)). fin.
    + intros p H. fin.
  - (* NewCopy *)
    destruct (slot l y) as [s|] eqn:Hy; [|exact I].
    apply new1_ok; [exact Hl|]. intros Hx. apply weak.
    eapply post_mono; [apply (cctor_ok C Sm L s g w Hg (healthy_slot _ _ _ Hl Hy))| |]; cbn.
    + intros p (H1 & H2 & H3). fin. rewrite H2. eexists. split; [apply slot_at; exact Hy|reflexivity].
    + intros p H. fin.
  - (* NewMove *)
    apply new2_ok; [exact Hl|]. intros d Hx Hy Hd. apply weak.
    eapply post_mono; [apply (mctor_ok C Sm L d g w Hg Hd)| |]; cbn.
    + intros p (H1 & H2 & H3 & H4 & H5). fin. rewrite H2.
      eexists. eexists. split; [apply slot_at; exact Hy|]. split; [exact H4|reflexivity].
    + intros p (H1 & H2 & H3 & H4). fin. rewrite (oval_alive C Sm _ H3).
      eexists. eexists. split; [apply alive_at; eassumption|reflexivity].
  - (* NewTake *)
    apply new2_ok; [exact Hl|]. intros d Hx Hy Hd. apply weak.
    eapply post_mono; [apply (take_ok C Sm L nrvo g d w Hg Hd)| |]; cbn.
    + intros p (H1 & H2 & H3 & H4 & H5). fin. rewrite H2, H4.
      eexists. split; [apply slot_at; exact Hy|reflexivity].
    + intros p (H1 & H2 & H3 & H4). fin.
      destruct nrvo; (split; [now apply free_at|]).
      * rewrite (oval_alive C Sm _ (H4 eq_refl)). eexists. eexists. split; [apply alive_at; eassumption|reflexivity].
      * eexists. eexists. split; [apply alive_at; eassumption|reflexivity].
  - (* NewTakeIf *)
    apply new2_ok; [exact Hl|]. intros d Hx Hy Hd. apply weak.
    eapply post_mono; [apply (take_if_ok nrvo p pr g d w Hg Hf Hd)| |]; cbn.
    + intros q (H1 & H2 & H3 & H4). fin.
      pose proof (slot_at _ _ _ Hy) as Hat. destruct (oval d) as [v|] eqn:Ev.
      * destruct H3 as (b & v' & Hpr & Hb). right. destruct b; destruct Hb as [-> ->]; [left|right]; exists v, v'; fin.
      * destruct H3 as [-> ->]. left. split; [exact Hat|]. now rewrite (at_id _ _ _ Hat).
    + intros q (H1 & H2 & H3 & H4). fin.
      eexists. eexists. split; [apply alive_at; eassumption|]. split; [|reflexivity].
      intros En. rewrite (oval_alive C Sm _ (H3 En)). discriminate.
  - (* Destroy *)
    destruct (slot l x) as [c|] eqn:Hx; [|exact I].
    pose proof (dtor_ok C Sm L c w (healthy_slot _ _ _ Hl Hx)) as H.
    destruct (o_dtor C c w) as [[c' w']|[c' w']| |]; cbn in *; auto; try contradiction.
    destruct H as [_ H]. fin.
    + now apply healthy_put_none.
    + exists (oval c). split; [now apply slot_at|]. unfold HistorySpec.values. now rewrite map_put.
    + pose proof (owned_put l x (Some c) None (slot_nth _ _ _ Hx)) as E. cbn in E. lia.
  - (* Assign *)
    apply on1_ok; [exact Hl|]. intros c Hx Hc. apply weak.
    eapply post_mono; [apply (asgn_ok C Sm L i c w); [intros i' [-> | ->]; exact Hg|exact Hc]| |]; cbn.
    + intros p (H1 & H2 & H3). fin. exists (oval c), (oval (fst p)). fin.
    + intros p (H1 & H2 & H3). fin. exists (oval c), (oval (fst p)). fin; [now apply same_alive].
  - (* CopyAssign *)
    destruct (Nat.eqb_spec x y) as [<-|Hne].
    + apply on1_ok; [exact Hl|]. intros c Hx Hc. apply weak.
      eapply post_mono; [apply (self_cassign_ok C Sm L c w Hc)| |]; cbn.
      * intros p (H1 & H2 & H3). rewrite H2. fin. exists (oval c), (oval c). fin.
      * intros p (H1 & H2 & H3 & H4). fin. exists (oval c), (oval (fst p)), (val Sm (c_raw c)).
        fin; [apply same_alive; congruence].
    + destruct (slot l y) as [s|] eqn:Hy; [|exact I].
      apply on1_ok; [exact Hl|]. intros c Hx Hc. apply weak.
      eapply post_mono; [apply (cassign_ok C Sm L s c w Hg (healthy_slot _ _ _ Hl Hy) Hc)| |]; cbn.
      * intros p (H1 & H2 & H3). rewrite H2. fin. exists (oval c), (oval s). fin.
      * intros p (H1 & H2 & H3 & H4). fin. exists (oval c), (oval (fst p)), (val Sm (c_raw s)).
        fin; [now apply same_alive].
  - (* MoveAssign *)
    destruct (Nat.eqb_spec x y) as [<-|Hne].
    + apply on1_ok; [exact Hl|]. intros c Hx Hc. apply weak.
      eapply post_mono; [apply (self_massign_ok C Sm L c w Hc)| |]; cbn.
      * intros p (H1 & H2 & H3). fin. left. split; [reflexivity|]. exists (oval c), (oval (fst p)). fin.
      * intros p (H1 & H2 & H3 & H4). fin. exists (oval c), (oval (fst p)), (val Sm (c_raw c)), (val Sm (c_raw (fst p))).
        fin; [apply same_alive; congruence| |].
        -- intros _. now apply oval_alive.
        -- unfold HistorySpec.set_. now rewrite put_put.
    + apply on2_ok; [exact Hne|exact Hl|]. intros c d Hx Hy Hc Hd. apply weak.
      eapply post_mono; [apply (massign_ok C Sm L d c w Hg Hd Hc)| |]; cbn.
      * intros p (H1 & H2 & H3 & H4 & H5). fin. right. split; [exact Hne|].
        exists (oval c), (oval d), (oval (fst (snd p))). fin; [now rewrite H2].
      * intros p (H1 & H2 & H3 & H4 & H5 & H6). fin.
        exists (oval c), (oval (fst p)), (val Sm (c_raw d)), (val Sm (c_raw (fst (snd p)))).
        fin; [now apply same_alive|congruence|].
        now rewrite (oval_alive C Sm _ H5).
  - (* Reset *)
    apply on1_ok; [exact Hl|]. intros c Hx Hc. apply weak.
    eapply post_mono; [apply (reset_ok C Sm L c w Hc)| |intros p []]; cbn.
    intros p (H1 & H2 & H3). rewrite (oval_dead C Sm _ H2), (dead_own C Sm _ H2). fin; [|lia].
    exists (oval c). fin.
  - (* Emplace *)
    apply on1_ok; [exact Hl|]. intros c Hx Hc. apply weak.
    eapply post_mono; [apply (emplace_ok C Sm L i c w Hg Hc)| |]; cbn.
    + intros p (H1 & (v & H2 & H2') & H3). rewrite H2. fin. exists (oval c), v. fin.
    + intros p (H1 & H2 & H3). rewrite H2. fin. exists (oval c). fin.
  - (* TryEmplace *)
    apply on1_ok; [exact Hl|]. intros c Hx Hc. apply weak.
    pose proof (slot_at _ _ _ Hx) as Hat.
    eapply post_mono; [apply (try_emplace_ok C Sm L i c w Hg Hc)| |]; cbn.
    + intros p (H1 & H2 & H3). fin. destruct (oval c) as [v|] eqn:Ev.
      * destruct H2 as [-> _]. left. exists v. split; [exact Hat|]. now apply at_id.
      * destruct H2 as (v & -> & Hd). right. fin. exists v. fin.
    + intros p (H1 & H2 & H3 & H4). fin.
      * now rewrite H2 in Hat.
      * rewrite H3. rewrite H2 in Hat. now apply at_id.
  - (* EmplaceFrom *)
    destruct (Nat.eqb_spec x y) as [E|Hne]; [contradiction|].
    destruct (slot l y) as [s|] eqn:Hy; [|exact I]. pose proof (healthy_slot _ _ _ Hl Hy) as Hs.
    apply on1_ok; [exact Hl|]. intros c Hx Hc.
    eapply post_weaken; [apply deref_ok with (B := stops Sm); [exact Hs|]; intros Es Hok|].
    + eapply post_mono; [apply (emplace_copy_ok C Sm L (c_raw s) c w Hg Hok Hc)| |]; cbn.
      * intros p (H1 & H2 & H3). rewrite H2. fin. exists (oval c), (val Sm (c_raw s)). fin.
      * intros p (H1 & H2 & H3). rewrite H2. fin. exists (oval c), (val Sm (c_raw s)). fin.
    + intros [Es|B]; [right|now left]. cbn. eapply dead_at; eauto.
  - (* SetFrom *)
    destruct (Nat.eqb_spec x y) as [<-|Hne].
    + apply on1_ok; [exact Hl|]. intros c Hx Hc.
      eapply post_weaken; [apply deref_ok with (B := stops Sm); [exact Hc|]; intros Es Hok|].
      * eapply post_mono; [apply (set_self_ok C Sm L c w Hg Hc Es)| |]; cbn.
        -- intros p (H1 & H2 & H3). rewrite H2, (oval_alive C Sm _ Es). fin. exists (oval c), (val Sm (c_raw c)). fin.
        -- intros p (H1 & H2 & H3). fin. exists (oval c), (oval (fst p)), (val Sm (c_raw c)).
           fin; [apply same_alive; congruence].
      * intros [Es|B]; [right|now left]. cbn. eapply dead_at; eauto.
    + destruct (slot l y) as [s|] eqn:Hy; [|exact I]. pose proof (healthy_slot _ _ _ Hl Hy) as Hs.
      apply on1_ok; [exact Hl|]. intros c Hx Hc.
      eapply post_weaken; [apply deref_ok with (B := stops Sm); [exact Hs|]; intros Es Hok|].
      * eapply post_mono; [apply (set_from_ok C Sm L (c_raw s) c w Hg Hok Hc)| |]; cbn.
        -- intros p (H1 & H2 & H3). rewrite H2. fin. exists (oval c), (val Sm (c_raw s)). fin.
        -- intros p (H1 & H2 & H3). fin. exists (oval c), (oval (fst p)), (val Sm (c_raw s)).
           fin; [now apply same_alive].
      * intros [Es|B]; [right|now left]. cbn. eapply dead_at; eauto.
  - (* Swap *)
    destruct (Nat.eqb_spec x y) as [<-|Hne].
    + apply on1_ok; [exact Hl|]. intros c Hx Hc. apply weak.
      eapply post_mono; [apply (self_swap_ok C Sm L c w Hc)| |]; cbn.
      * intros p (H1 & H2 & H3). rewrite H2. fin. exists (oval c), (oval c). fin.
        unfold HistorySpec.set_. now rewrite put_put.
      * intros p (H1 & H2 & H3 & H4). fin. exists (oval c), (oval (fst p)), (oval c), (oval (fst p)).
        fin; try (apply same_alive; congruence).
        unfold HistorySpec.set_. now rewrite put_put.
    + apply on2_ok; [exact Hne|exact Hl|]. intros c d Hx Hy Hc Hd. apply weak.
      eapply post_mono; [apply (swap_ok C Sm L c d w Hg Hc Hd)| |]; cbn.
      * intros p (H1 & H2 & H3 & H4 & H5). fin. exists (oval c), (oval d). fin; [now rewrite H3, H4].
      * intros p (H1 & H2 & H3 & H4 & H5). fin. exists (oval c), (oval (fst p)), (oval d), (oval (fst (snd p))).
        fin; [now apply same_alive|now apply same_alive|congruence].
  - (* Update *)
    apply on1_ok; [exact Hl|]. intros c Hx Hc.
    eapply post_weaken; [eapply post_mono; [apply with_value_ok with (B := stops Sm)
      (R := fun r w' => fr (val Sm (c_raw c)) (val Sm r) /\ (cnt w' + own Sm (c_raw c) = cnt w + own Sm r)%Z)
      (E := fun r w' => (cnt w' + own Sm (c_raw c) = cnt w + own Sm r)%Z); [exact L|exact Hc|]| |]|]; cbn.
    + intros Ec. exact (Hf (c_raw c) w (proj1 Hc Ec)).
    + intros p (H1 & H2 & H3 & H4 & H5). rewrite (oval_alive C Sm _ H3), (oown_alive C Sm _ H1), (oown_alive C Sm _ H3). fin.
      exists (val Sm (c_raw c)), (val Sm (c_raw (fst p))). fin.
    + intros p (H1 & H2 & H3 & H4). rewrite (oval_alive C Sm _ H3), (oown_alive C Sm _ H1), (oown_alive C Sm _ H3). fin.
      exists (val Sm (c_raw c)), (val Sm (c_raw (fst p))). fin.
    + intros [Es|B]; [right|now left]. eapply dead_at; eauto.
Qed.

(** Whole programs. *)
Theorem run_ok : forall os l w, healthy l -> Forall (fair C Sm) os -> Forall (gentle C Sm) os ->
  match run C Sm os l w with
  | HDone ks l' w' => healthy l' /\ runs C Sm os ks (values l) (values l') /\ (cnt w' - owned l' = cnt w - owned l)%Z
  | HAbort ks => stops Sm \/
      exists os1 o os2 a, os = os1 ++ o :: os2 /\ runs C Sm os1 ks (values l) a /\ misuse C Sm o a
  | HUndef => False
  | HBad => True
  end.
Proof.
  induction os as [|o os IH]; intros l w Hl Hf Hg.
  - cbn. auto.
  - inversion Hf as [|o' os' Ho Hos]; subst. inversion Hg as [|o' os' Hog Hosg]; subst. cbn [run].
    pose proof (step_ok o l w Hl Ho Hog) as H.
    assert (next : forall (k : bool) l1 w1, healthy l1 -> (if k then throws C Sm o (values l) (values l1) else returns C Sm o (values l) (values l1)) ->
      (cnt w1 - owned l1 = cnt w - owned l)%Z ->
      match match run C Sm os l1 w1 with
            | HDone ks l'' w'' => HDone (k :: ks) l'' w''
            | HAbort ks => HAbort (k :: ks)
            | h => h
            end with
      | HDone ks l' w' => healthy l' /\ runs C Sm (o :: os) ks (values l) (values l') /\ (cnt w' - owned l' = cnt w - owned l)%Z
      | HAbort ks => stops Sm \/
          exists os1 o1 os2 a, o :: os = os1 ++ o1 :: os2 /\ runs C Sm os1 ks (values l) a /\ misuse C Sm o1 a
      | HUndef => False
      | HBad => True
      end).
    { intros k l1 w1 Hl1 Hk Hc. specialize (IH l1 w1 Hl1 Hos Hosg).
      destruct (run C Sm os l1 w1) as [ks l2 w2|ks| |]; auto.
      - destruct IH as (I1 & I2 & I3). split; [exact I1|]. split; [|lia]. cbn. exists (values l1). split; assumption.
      - destruct IH as [B|(os1 & o1 & os2 & a & E & R1 & M)]; [now left|right].
        exists (o :: os1), o1, os2, a. split; [cbn; now rewrite E|]. split; [|exact M]. cbn. exists (values l1). split; assumption. }
    destruct (step C Sm o l w) as [l1 w1|l1 w1| | |]; cbn in H; auto.
    + destruct H as (H1 & H2 & H3). exact (next false l1 w1 H1 H2 H3).
    + destruct H as (H1 & H2 & H3). exact (next true l1 w1 H1 H2 H3).
    + destruct H as [B|M]; [now left|right]. exists [], o, os, (values l). cbn. auto.
Qed.

Lemma quiet_gentle : quiet C Sm -> forall o, gentle C Sm o.
Proof.
  intros [Q1 Q2 Q3] [x [|i|[i|]] g|x y g|x y g|nrvo x y g|nrvo p pr x y g|x|x [|i|[i|]]|x y|x y|x|x i|x i|x y|x y|x y|x f fr];
    cbn; auto.
Qed.

Lemma flag_quiet : lmax C = 0%N -> quiet C Sm.
Proof. intros H. constructor; red; intros; lia. Qed.

End Facts.
