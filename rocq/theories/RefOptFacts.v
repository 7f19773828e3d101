(** Programs over reference options follow the bindings of their specification. *)
From Coq Require Import NArith Bool List Lia ZifyBool ZifyN.
From Verif Require Import Outcome RefOpt RefOptSpec.
Import ListNotations.
Open Scope N_scope.

Lemma r_has_meaning : forall p, r_has p = match meaning p with Some _ => true | None => false end.
Proof. intros p. unfold r_has, meaning, nullptr. now destruct (p =? 0). Qed.

Lemma meaning_some : forall p a, meaning p = Some a -> p = a /\ a <> 0.
Proof. intros p a. unfold meaning. destruct (p =? 0) eqn:E; [discriminate|]. injection 1 as <-. split; [reflexivity|lia]. Qed.

Lemma meaning_none : forall p, meaning p = None -> p = 0.
Proof. intros p. unfold meaning. destruct (p =? 0) eqn:E; [lia|discriminate]. Qed.

Lemma meaning_nonnull : forall a, a <> 0 -> meaning a = Some a.
Proof. intros a H. unfold meaning. destruct (a =? 0) eqn:E; [lia|reflexivity]. Qed.

Lemma r_get_meaning : forall p, r_get p = match meaning p with Some a => Ok a | None => Verify end.
Proof. intros p. unfold r_get. rewrite r_has_meaning. unfold meaning. now destruct (p =? 0). Qed.

Lemma r_get_unchecked_get : forall p, r_get_unchecked p = r_get p.
Proof. reflexivity. Qed.

Section Sim.
Context {V : Type}.
Implicit Types (e : vars) (b : bindings) (h : heap V).

Lemma set_same : forall e b x p q, (forall y, option_map meaning (e y) = b y) -> meaning p = q ->
  forall y, option_map meaning (set_var x p e y) = bind_to x q b y.
Proof. intros e b x p q H Hp y. unfold set_var, bind_to. destruct (Nat.eqb y x); cbn; [now rewrite Hp|apply H]. Qed.

Lemma same_intro : forall e b h p q x, (forall y, option_map meaning (e y) = b y) -> meaning p = q ->
  same_world (set_var x p e, h) (bind_to x q b, h).
Proof. intros. split; cbn; [now apply set_same|reflexivity]. Qed.

Lemma same_intro2 : forall e b h p q x p' q' x', (forall y, option_map meaning (e y) = b y) -> meaning p = q -> meaning p' = q' ->
  same_world (set_var x p (set_var x' p' e), h) (bind_to x q (bind_to x' q' b), h).
Proof. intros. split; cbn; [|reflexivity]. apply set_same; [|assumption]. now apply set_same. Qed.

Lemma on_given : forall e b x (k : ptr -> res (rstate V)) (k' : binding -> res (world V)),
  (forall y, option_map meaning (e y) = b y) -> (forall p, same_res (k p) (k' (meaning p))) ->
  same_res (on e x k) (given b x k').
Proof.
  intros e b x k k' H Hk. unfold on, given. rewrite <- (H x). destruct (e x) as [p|]; cbn; auto.
Qed.

Lemma step_ok : forall (c : rcall V) s t, proper c -> same_world s t -> same_res (rstep c s) (spec_step c t).
Proof.
  intros c [e h] [b h2] P [Hv Hh]. cbn [fst snd] in Hv, Hh. subst h2.
  destruct c; cbn [rstep spec_step proper] in *.
  - now apply same_intro.
  - apply same_intro; [exact Hv|now apply meaning_nonnull].
  - apply same_intro; [exact Hv|]. unfold r_from_nullable, meaning, nullptr, r_default, nullptr, r_in_place, ref_to_ptr.
    now destruct (a =? 0) eqn:E; rewrite ?E.
  - apply on_given; [exact Hv|]. intros p. now apply same_intro.
  - apply on_given; [exact Hv|]. intros p. unfold r_conv. rewrite r_has_meaning, r_get_meaning.
    destruct (meaning p) as [a|] eqn:E; cbn.
    + apply same_intro; [exact Hv|]. apply meaning_some in E. apply meaning_nonnull. now apply P.
    + now apply same_intro.
  - apply on_given; [exact Hv|]. intros p. cbn. now apply same_intro2.
  - apply on_given; [exact Hv|]. intros p. unfold r_take_if. rewrite r_has_meaning, r_get_meaning.
    destruct (meaning p) as [a|] eqn:E; cbn.
    + destruct (f a h) as [[[|] h']| |]; cbn; auto; now apply same_intro2.
    + now apply same_intro2.
  - apply on_given; [exact Hv|]. intros p. unfold r_filter. rewrite r_has_meaning, r_get_meaning.
    destruct (meaning p) as [a|] eqn:E; cbn.
    + pose proof (meaning_some _ _ E) as [_ Ha].
      destruct (f a h) as [[[|] h']| |]; cbn; auto; apply same_intro; auto. now apply meaning_nonnull.
    + now apply same_intro.
  - apply on_given; [exact Hv|]. intros p. unfold r_map. rewrite r_has_meaning, r_get_meaning.
    destruct (meaning p) as [a|] eqn:E; cbn.
    + destruct (f a h) as [[q h']| |] eqn:Ef; cbn; auto. apply same_intro; [exact Hv|]. apply meaning_nonnull.
      eapply P, Ef.
    + now apply same_intro.
  - apply on_given; [exact Hv|]. intros p. unfold r_and_then. rewrite r_has_meaning, r_get_meaning.
    destruct (meaning p) as [a|] eqn:E; cbn.
    + destruct (f a h) as [[q h']| |] eqn:Ef; cbn; auto. now apply same_intro.
    + now apply same_intro.
  - apply on_given; [exact Hv|]. intros p. unfold r_or_else. rewrite r_has_meaning.
    destruct (meaning p) as [a|] eqn:E; cbn.
    + now apply same_intro.
    + destruct (f h) as [[q h']| |]; cbn; auto. now apply same_intro.
  - apply on_given; [exact Hv|]. intros p. apply on_given; [exact Hv|]. intros q. apply same_intro; [exact Hv|].
    unfold r_or. rewrite r_has_meaning. destruct (meaning p) eqn:E; [exact E|reflexivity].
  - apply on_given; [exact Hv|]. intros p. apply on_given; [exact Hv|]. intros q. apply same_intro; [exact Hv|].
    unfold r_and. rewrite r_has_meaning. destruct (meaning p) eqn:E; reflexivity.
  - apply on_given; [exact Hv|]. intros p. apply on_given; [exact Hv|]. intros q. apply same_intro; [exact Hv|].
    unfold r_xor. rewrite !r_has_meaning. destruct (meaning p) eqn:E, (meaning q) eqn:F; cbn; auto.
  - apply on_given; [exact Hv|]. intros p. now apply same_intro.
  - apply on_given; [exact Hv|]. intros p. apply same_intro; [exact Hv|now apply meaning_nonnull].
  - apply on_given; [exact Hv|]. intros p. apply on_given; [exact Hv|]. intros q. now apply same_intro.
  - apply on_given; [exact Hv|]. intros p. apply on_given; [exact Hv|]. intros q.
    unfold r_assign_conv. rewrite r_has_meaning, r_get_meaning.
    destruct (meaning q) as [a|] eqn:E; cbn.
    + apply same_intro; [exact Hv|]. apply meaning_some in E. apply meaning_nonnull. now apply P.
    + now apply same_intro.
  - apply on_given; [exact Hv|]. intros p. unfold r_emplace. cbn zeta. rewrite r_get_meaning.
    unfold r_construct, ref_to_ptr. rewrite (meaning_nonnull a P). cbn. apply same_intro; [exact Hv|now apply meaning_nonnull].
  - apply on_given; [exact Hv|]. intros p. unfold r_try_emplace. cbn zeta. rewrite r_has_meaning, r_get_meaning.
    unfold r_construct, ref_to_ptr. destruct (meaning p) as [x'|] eqn:E; cbn.
    + rewrite E. cbn. now apply same_intro.
    + rewrite (meaning_nonnull a P). cbn. apply same_intro; [exact Hv|now apply meaning_nonnull].
  - apply on_given; [exact Hv|]. intros p. apply on_given; [exact Hv|]. intros q. apply same_intro; [exact Hv|].
    unfold r_or_assign. rewrite r_has_meaning. destruct (meaning p) eqn:E; [exact E|reflexivity].
  - apply on_given; [exact Hv|]. intros p. apply on_given; [exact Hv|]. intros q.
    unfold r_swap. rewrite !r_has_meaning, !r_get_meaning.
    destruct (meaning p) as [a|] eqn:E, (meaning q) as [a'|] eqn:F; cbn; apply same_intro2; auto.
    + apply meaning_some in E as [_ E]. now apply meaning_nonnull.
    + apply meaning_some in F as [_ F]. now apply meaning_nonnull.
  - apply on_given; [exact Hv|]. intros p. unfold r_inspect. rewrite r_has_meaning, r_get_meaning.
    destruct (meaning p) as [a|] eqn:E; cbn; [|split; auto].
    destruct (f a h) as [[q h']| |]; cbn; auto. split; auto.
  - apply on_given; [exact Hv|]. intros p. rewrite r_get_meaning.
    destruct (meaning p) as [a|] eqn:E; cbn; auto. unfold write. destruct (h a); cbn; auto. split; cbn; auto.
Qed.

Theorem run_ok : forall (cs : list (rcall V)) s t, Forall proper cs -> same_world s t ->
  same_res (rrun cs s) (spec_run cs t).
Proof.
  induction cs as [|c cs IH]; intros s t P H; cbn; [exact H|].
  inversion P; subst. pose proof (step_ok c s t H2 H) as K.
  destruct (rstep c s), (spec_step c t); cbn in *; auto; contradiction.
Qed.

(** Silent programs leave the heap alone; no other hypothesis. *)
Lemma on_heap : forall e x (k : ptr -> res (rstate V)) s', on e x k = Ok s' -> exists p, k p = Ok s'.
Proof. intros e x k s'. unfold on. destruct (e x); [eauto|discriminate]. Qed.

Lemma rbind_ok : forall A B (m : res A) (k : A -> res B) y, rbind m k = Ok y -> exists x, m = Ok x /\ k x = Ok y.
Proof. intros A B [a| |] k y; cbn; try discriminate. eauto. Qed.

Theorem silent_step : forall (c : rcall V) s s', silent c -> rstep c s = Ok s' -> snd s' = snd s.
Proof.
  intros c [e h] s' Hs. destruct c; cbn [rstep silent] in *; try contradiction; intros H;
    repeat match goal with
           | H : on _ _ _ = Ok _ |- _ => apply on_heap in H as [? H]
           | H : rbind _ _ = Ok _ |- _ => apply rbind_ok in H as (? & _ & H)
           | H : context [r_take ?p] |- _ => cbn in H
           end; injection H as <-; reflexivity.
Qed.

Theorem silent_run : forall (cs : list (rcall V)) s s', Forall silent cs -> rrun cs s = Ok s' -> snd s' = snd s.
Proof.
  induction cs as [|c cs IH]; intros s s' P H; cbn in H; [now injection H as <-|].
  inversion P as [|? ? Pc Pcs]; subst. apply rbind_ok in H as (s1 & H1 & H). rewrite (IH _ _ Pcs H). now apply (silent_step c).
Qed.

(** *x = v changes the object x refers to and nothing else; every alias sees it. *)
Lemma write_step : forall x v e h p, e x = Some p ->
  rstep (RWrite x v) (e, h) =
  match meaning p with
  | None => Verify
  | Some a => match h a with
              | Some _ => Ok (e, store a v h)
              | None => UB
              end
  end.
Proof.
  intros x v e h p Hp. cbn. unfold on. rewrite Hp, r_get_meaning. destruct (meaning p) as [a|]; cbn; [|reflexivity].
  unfold write. now destruct (h a).
Qed.

(** Nothing but an access to an empty option ends in a failed check. *)
Theorem checked_only : forall (c : rcall V) e h, proper c -> unchecked c -> rstep c (e, h) <> Verify.
Proof.
  intros c e h P U.
  assert (K := step_ok c (e, h) (fun x => option_map meaning (e x), h) P (conj (fun _ => eq_refl) eq_refl)).
  intros E. rewrite E in K. destruct c; cbn [spec_step unchecked proper] in *; try contradiction;
    unfold given, ask in K; cbn in K;
    repeat match type of K with
           | context [option_map meaning (e ?x)] => destruct (e x); cbn in K; try contradiction
           | context [match meaning ?p with _ => _ end] => destruct (meaning p); cbn in K; try contradiction
           | context [match ?g ?p h with _ => _ end] =>
               let E := fresh "F" in destruct (g p h) as [[? ?]| |] eqn:E; cbn in K; try contradiction
           | context [rmap _ (?g h)] => let E := fresh "F" in destruct (g h) as [[? ?]| |] eqn:E; cbn in K; try contradiction
           | context [if ?b then _ else _] => destruct b; cbn in K; try contradiction
           end;
    match goal with
    | F : _ = Verify, U : forall a h, _ <> Verify |- _ => exact (U _ _ F)
    | F : _ = Verify, U : forall h, _ <> Verify |- _ => exact (U _ F)
    end.
Qed.
End Sim.

(** C40 for pointers. *)
Lemma nullable_round_trip : forall p, r_ptr_or_null (r_from_nullable p) = Ok p.
Proof.
  intros p. unfold r_ptr_or_null, r_from_nullable, r_has, r_get, r_has, r_default, r_in_place, ref_to_ptr, nullptr.
  destruct (p =? 0) eqn:E; cbn; [f_equal; lia|]. now rewrite E.
Qed.

Lemma nullable_from_option : forall p q, r_ptr_or_null p = Ok q -> r_from_nullable q = p.
Proof.
  intros p q. unfold r_ptr_or_null, r_from_nullable, r_has, r_get, r_has, r_default, r_in_place, ref_to_ptr, nullptr.
  destruct (p =? 0) eqn:E; cbn; injection 1 as <-; cbn; [lia|]. now rewrite E.
Qed.

Lemma ptr_or_null_total : forall p, r_ptr_or_null p = Ok p.
Proof.
  intros p. unfold r_ptr_or_null, r_has, r_get, r_has, nullptr. destruct (p =? 0) eqn:E; cbn; [f_equal; lia|reflexivity].
Qed.

Lemma r_access : forall p,
  (r_has p = true -> r_get p = Ok p /\ r_get_unchecked p = Ok p /\ r_ptr_or_null p = Ok p /\ forall d, r_value_or d p = Ok p) /\
  (r_has p = false -> r_get p = Verify /\ r_get_unchecked p = Verify /\ r_ptr_or_null p = Ok 0 /\ forall d, r_value_or d p = Ok d).
Proof.
  intros p. unfold r_get_unchecked, r_ptr_or_null, r_value_or, r_get, r_has, nullptr.
  destruct (p =? 0) eqn:E; cbn; split; intros; try discriminate; repeat split.
Qed.

(** The hash of a reference option. *)
Lemma r_hash_ok : forall h p, r_hash h p = Ok (h p).
Proof. intros h p. unfold r_hash. now rewrite ptr_or_null_total. Qed.
