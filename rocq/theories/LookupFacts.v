(** Lookups stay in bounds and refer to the right element. *)
From Coq Require Import NArith Bool List Lia ZifyBool ZifyN ZifyNat.
From Verif Require Import Outcome Words Lifetime LifetimeSpec LifetimeFacts Api ApiSpec ApiFacts ApiLaws Observe ObserveFacts Lookup.
Import ListNotations.
Open Scope N_scope.

Lemma nth_in : forall A (l : list A) i, (i < length l)%nat <-> exists x, nth_error l i = Some x.
Proof.
  intros A l i. rewrite <- nth_error_Some. destruct (nth_error l i); split; intros; eauto; try congruence.
  now destruct H.
Qed.

Theorem at_ok : forall A (c : list A) i,
  (forall x, nth_error c (N.to_nat i) = Some x -> at_ c i = Ok (Some i)) /\
  (nth_error c (N.to_nat i) = None -> at_ c i = Ok None).
Proof.
  intros A c i. unfold at_, subscript, size. split.
  - intros x H. assert (N.to_nat i < length c)%nat by (apply nth_in; eauto).
    destruct (N.of_nat (length c) <=? i) eqn:E; [lia|]. destruct (i <? N.of_nat (length c)) eqn:E'; [reflexivity|lia].
  - intros H. apply nth_error_None in H. destruct (N.of_nat (length c) <=? i) eqn:E; [reflexivity|lia].
Qed.

Theorem at_in_bounds : forall A (c : list A) i, exists o, at_ c i = Ok o /\ (o = None \/ exists x, nth_error c (N.to_nat i) = Some x).
Proof.
  intros A c i. destruct (at_ok A c i) as [H1 H2]. destruct (nth_error c (N.to_nat i)) as [x|] eqn:E.
  - exists (Some i). split; [now apply (H1 x)|right; eauto].
  - exists None. auto.
Qed.

Lemma nth_last : forall A (l : list A) x d, nth_error (x :: l) (length l) = Some (last (x :: l) d).
Proof. induction l as [|y l IH]; intros x d; [reflexivity|]. exact (IH y d). Qed.

Theorem front_back_ok : forall A (c : list A),
  match c with
  | [] => at_front c = Ok None /\ at_back c = Ok None
  | x :: l => at_front c = Ok (Some 0) /\
      exists i, at_back c = Ok (Some i) /\ nth_error c (N.to_nat i) = Some (last c x) /\ N.succ i = size c
  end.
Proof.
  intros A [|x l]; [split; reflexivity|]. split; [reflexivity|].
  exists (N.of_nat (length l)). unfold at_back, back, size. cbn [length].
  destruct (N.of_nat (S (length l)) =? 0) eqn:E; [lia|]. cbn [rmap]. split; [do 2 f_equal; lia|]. split; [|lia].
  rewrite Nat2N.id. apply nth_last.
Qed.

(** What the containers promise of find(): the position of an entry with an equivalent key, or
    end() if there is none. *)
Definition finds {K E} (same : K -> E -> bool) (find : list E -> K -> N) (c : list E) : Prop :=
  forall k, (exists x, nth_error c (N.to_nat (find c k)) = Some x /\ same k x = true) \/
            (find c k = size c /\ forall x, In x c -> same k x = false).

Theorem lookup_ok : forall K E (same : K -> E -> bool) find c k, finds same find c ->
  (exists i x, lookup find c k = Ok (Some i) /\ nth_error c (N.to_nat i) = Some x /\ same k x = true) \/
  (lookup find c k = Ok None /\ forall x, In x c -> same k x = false).
Proof.
  intros K E same find c k H. unfold lookup. cbn zeta. destruct (H k) as [(x & Hx & Hk)|[He Hn]].
  - left. assert (N.to_nat (find c k) < length c)%nat by (apply nth_in; eauto). unfold entry, size in *.
    destruct (find c k =? N.of_nat (length c)) eqn:E1; [lia|]. destruct (find c k <? N.of_nat (length c)) eqn:E2; [|lia].
    exists (find c k), x. auto.
  - right. rewrite He, N.eqb_refl. auto.
Qed.

Theorem lookup_iff : forall K E (same : K -> E -> bool) find c k, finds same find c ->
  ((exists i, lookup find c k = Ok (Some i)) <-> exists x, In x c /\ same k x = true) /\
  (lookup find c k = Ok None <-> forall x, In x c -> same k x = false).
Proof.
  intros K E same find c k H. destruct (lookup_ok K E same find c k H) as [(i & x & H1 & H2 & H3)|[H1 H2]]; rewrite H1.
  - apply nth_error_In in H2. split; split; intros G; eauto; try discriminate. rewrite (G x H2) in H3. discriminate.
  - split; split; intros G; auto.
    + destruct G as [i G]. discriminate.
    + destruct G as (x & Gi & Gs). rewrite (H2 x Gi) in Gs. discriminate.
Qed.

(** * Tuples and variants *)

Lemma find_type_nth : forall t ts i, find_type t ts = Some i -> nth_error ts i = Some t.
Proof.
  induction ts as [|u ts IH]; intros i; cbn; [discriminate|]. destruct (Nat.eqb t u) eqn:E.
  - injection 1 as <-. cbn. f_equal. apply PeanoNat.Nat.eqb_eq in E. auto.
  - destruct (find_type t ts) as [j|]; cbn; [|discriminate]. injection 1 as <-. cbn. now apply IH.
Qed.

Lemma find_type_in : forall t ts, In t ts -> exists i, find_type t ts = Some i.
Proof.
  induction ts as [|u ts IH]; intros H; cbn in *; [tauto|]. destruct (Nat.eqb t u) eqn:E; [eauto|].
  destruct H as [->|H]; [rewrite PeanoNat.Nat.eqb_refl in E; discriminate|]. destruct (IH H) as [i ->]. cbn. eauto.
Qed.

(** get<T>: the one position that has type T. *)
Lemma type_index_ok : forall t ts i, type_index t ts = Some i ->
  nth_error ts i = Some t /\ forall j, nth_error ts j = Some t -> j = i.
Proof.
  intros t ts i. unfold type_index. destruct (Nat.eqb _ 1) eqn:E; [|discriminate]. intros H.
  split; [now apply find_type_nth|]. apply PeanoNat.Nat.eqb_eq in E. revert i H E.
  induction ts as [|u ts IH]; intros i H E j Hj; [now destruct j|]. cbn in H, E.
  destruct (PeanoNat.Nat.eq_dec u t) as [->|N].
  - rewrite PeanoNat.Nat.eqb_refl in H. injection H as <-. destruct j as [|j]; [reflexivity|]. exfalso. cbn in Hj.
    apply nth_error_In in Hj. apply (count_occ_In PeanoNat.Nat.eq_dec) in Hj. lia.
  - destruct (Nat.eqb t u) eqn:F; [apply PeanoNat.Nat.eqb_eq in F; congruence|].
    destruct (find_type t ts) as [k|] eqn:G; [|discriminate]. injection H as <-.
    destruct j as [|j]; [cbn in Hj; congruence|]. f_equal. now apply (IH k eq_refl E).
Qed.

Lemma type_index_unique : forall t ts, count_occ PeanoNat.Nat.eq_dec ts t = 1%nat -> exists i, type_index t ts = Some i.
Proof.
  intros t ts H. unfold type_index. rewrite H. cbn. apply find_type_in. apply (count_occ_In PeanoNat.Nat.eq_dec). lia.
Qed.

Section Get.
Context {W : Type} {C : cls W} (S : sem C).
Hypothesis L : lawful C S.

Theorem get_index_ok : forall n i c, inv C S c -> (i < n)%nat ->
  get_index n i c = Ret (if c_alive c then Some i else None).
Proof.
  intros n i c Hi Hn. unfold get_index. destruct (Nat.ltb i n) eqn:E; [|apply PeanoNat.Nat.ltb_ge in E; lia].
  rewrite (has_ok C S L c Hi). cbn. destruct (c_alive c) eqn:Ha; [|reflexivity].
  now rewrite (operand_ok W C S L c _ _ Hi Ha).
Qed.

Theorem get_type_ok : forall t ts c, inv C S c -> count_occ PeanoNat.Nat.eq_dec ts t = 1%nat ->
  exists i, get_type t ts c = Ret (if c_alive c then Some i else None) /\ nth_error ts i = Some t /\
            forall j, nth_error ts j = Some t -> j = i.
Proof.
  intros t ts c Hi Ht. destruct (type_index_unique t ts Ht) as [i H]. exists i. unfold get_type. rewrite H.
  destruct (type_index_ok t ts i H) as [H1 H2]. split; [|auto]. apply get_index_ok; [exact Hi|].
  apply nth_in. eauto.
Qed.
End Get.

Theorem variant_get_ok : forall n i v, (i < n)%nat ->
  variant_get n i v = Ret (match v with Some j => if Nat.eqb i j then Some i else None | None => None end).
Proof.
  intros n i v H. unfold variant_get. destruct (Nat.ltb i n) eqn:E; [|apply PeanoNat.Nat.ltb_ge in E; lia].
  destruct v as [j|]; cbn; [|reflexivity]. now destruct (Nat.eqb i j).
Qed.

Theorem variant_get_type_ok : forall t ts v, count_occ PeanoNat.Nat.eq_dec ts t = 1%nat ->
  (forall j, v = Some j -> (j < length ts)%nat) ->
  exists i, variant_get_type t ts v =
              Ret (match v with
                   | Some j => match nth_error ts j with
                               | Some u => if Nat.eqb u t then Some i else None
                               | None => None
                               end
                   | None => None
                   end) /\
            nth_error ts i = Some t.
Proof.
  intros t ts v Ht Hv. destruct (type_index_unique t ts Ht) as [i H]. exists i. unfold variant_get_type. rewrite H.
  destruct (type_index_ok t ts i H) as [H1 H2]. split; [|exact H1].
  rewrite variant_get_ok by (apply nth_in; eauto). f_equal. destruct v as [j|]; [|reflexivity].
  destruct (nth_error ts j) as [u|] eqn:E.
  - destruct (Nat.eqb u t) eqn:F.
    + apply PeanoNat.Nat.eqb_eq in F. subst u. rewrite (H2 j E). now rewrite PeanoNat.Nat.eqb_refl.
    + destruct (Nat.eqb i j) eqn:G; [|reflexivity]. apply PeanoNat.Nat.eqb_eq in G. subst j. rewrite H1 in E. injection E as <-.
      now rewrite PeanoNat.Nat.eqb_refl in F.
  - exfalso. apply nth_error_None in E. specialize (Hv j eq_refl). lia.
Qed.
