(** The model of the lifetimes does not hide a wrong use: the object that an option claims to contain does not live. *)
From Coq Require Import NArith Bool List Arith.
From Verif Require Import Outcome Words Lifetime LifetimeSpec History.
Import ListNotations.
Open Scope N_scope.

Section Dead.
Context {W : Type} (C : cls W) (Sm : sem C).
Variables (l : vars C) (w : W) (x : nat) (c : cell C).
Hypotheses (X : slot l x = Some c) (H : o_has C c = Ok true) (D : c_alive c = false).

Lemma deref_dead A (k : raw C -> out A) : deref C c k = Undef.
Proof. unfold deref. rewrite H. cbn [check]. now rewrite D. Qed.
Lemma update_dead f fr : step C Sm (Update x f fr) l w = SUndef.
Proof. cbn [step]. unfold on1, o_with_value. rewrite X, H. cbn [check]. now rewrite D. Qed.
Lemma from_dead y d : slot l y = Some d ->
  step C Sm (EmplaceFrom y x) l w = SUndef /\ step C Sm (SetFrom y x) l w = SUndef.
Proof.
  intros Y. cbn [step]. destruct (Nat.eqb y x) eqn:E.
  - apply Nat.eqb_eq in E. subst y. unfold on1. rewrite X. now rewrite !deref_dead.
  - rewrite X. unfold on1. rewrite Y. now rewrite !deref_dead.
Qed.
Lemma end_dead : td C = false -> step C Sm (Destroy x) l w = SUndef /\ step C Sm (Reset x) l w = SUndef.
Proof.
  intros T. cbn [step]. unfold on1, o_dtor, o_reset, destroy_value. rewrite X, T, H. cbn [check]. rewrite D. now split.
Qed.
Lemma copy_dead y g : tcc C = false -> lmax C = 0 -> free l y = true -> step C Sm (NewCopy y x g) l w = SUndef.
Proof.
  intros T M F. cbn [step]. rewrite X. unfold new1. rewrite F. unfold o_cctor. rewrite T. unfold with_base, o_default, traits. rewrite M.
  cbn [N.eqb negb]. rewrite H. cbn [check]. now rewrite D.
Qed.
End Dead.

Lemma dead_use W (C : cls W) (Sm : sem C) (l : vars C) w x c :
  slot l x = Some c -> o_has C c = Ok true -> c_alive c = false ->
  (forall f fr, step C Sm (Update x f fr) l w = SUndef) /\
  (forall y d, slot l y = Some d -> step C Sm (EmplaceFrom y x) l w = SUndef /\ step C Sm (SetFrom y x) l w = SUndef) /\
  (td C = false -> step C Sm (Destroy x) l w = SUndef /\ step C Sm (Reset x) l w = SUndef) /\
  (forall y g, tcc C = false -> lmax C = 0 -> free l y = true -> step C Sm (NewCopy y x g) l w = SUndef).
Proof.
  intros X H D. split; [|split; [|split]]; intros.
  - eapply update_dead; eassumption.
  - eapply from_dead; eassumption.
  - eapply end_dead; eassumption.
  - eapply copy_dead; eassumption.
Qed.
(** Constructing over an object that lives, and has a destructor. *)
Lemma leak_seen W (C : cls W) (mk : raw C -> W -> out (raw C * W)) c w : c_alive c = true -> td C = false -> o_construct C mk c w = Undef.
Proof. intros A T. unfold o_construct. now rewrite A, T. Qed.

(** Assignments and moves. *)
Lemma reset_dead W (C : cls W) c w : td C = false -> o_has C c = Ok true -> c_alive c = false -> o_reset C c w = Undef.
Proof. intros T H D. unfold o_reset, destroy_value. rewrite T, H. cbn [check]. now rewrite D. Qed.
Lemma dead_assign W (C : cls W) (Sm : sem C) (l : vars C) w x c :
  slot l x = Some c -> o_has C c = Ok true -> c_alive c = false -> td C = false ->
  (forall i, scalar C = false -> step C Sm (Assign x i) l w = SUndef) /\
  (forall y d b, slot l y = Some d -> o_has C d = Ok b ->
     step C Sm (CopyAssign x y) l w = SUndef /\ step C Sm (CopyAssign y x) l w = SUndef /\
     step C Sm (MoveAssign x y) l w = SUndef /\ step C Sm (MoveAssign y x) l w = SUndef) /\
  (forall y g, tmc C = false -> lmax C = 0 -> free l y = true -> step C Sm (NewMove y x g) l w = SUndef).
Proof.
  intros X H D T. assert (R : forall w, o_reset C c w = Undef) by (intros; now apply reset_dead).
  split; [|split].
  - intros i S. cbn [step]. unfold on1. rewrite X. destruct i as [|i|[i|]]; cbn [o_asgn]; rewrite ?S, ?R, ?H; cbn [check]; unfold o_assign_value; rewrite ?D; reflexivity.
  - intros y d b Y B.
    assert (T1 : tcc C && (tca C && td C) = false) by (rewrite T; now rewrite !andb_false_r).
    assert (T2 : tmc C && (tma C && td C) = false) by (rewrite T; now rewrite !andb_false_r).
    cbn [step]. rewrite (Nat.eqb_sym y x). destruct (Nat.eqb x y) eqn:E.
    + apply Nat.eqb_eq in E. subst y. unfold on1, o_self_cassign, o_self_massign. rewrite X, T1, T2, H. cbn [check]. rewrite D. now repeat split.
    + rewrite X, Y. unfold on1, on2. rewrite X, Y. unfold o_cassign, o_massign. rewrite T1, T2. cbn [fst]. rewrite H, B. cbn [check].
      destruct b; cbn [check]; rewrite ?H, ?B; cbn [check]; rewrite ?D, ?R.
      * rewrite andb_false_r. cbn [andb]. repeat split. destruct (c_alive d); [|reflexivity]. unfold from_cell. now rewrite D.
      * unfold lift. cbn [fst snd]. rewrite R. repeat split. unfold o_construct, from_cell. rewrite D. now destruct (c_alive d && negb (td C)).
  - intros y g M L F. cbn [step]. unfold new2. rewrite F, X. unfold o_mctor. rewrite M. unfold with_base, o_default, traits. rewrite L. cbn [N.eqb negb fst].
    rewrite H. cbn [check]. unfold o_construct, from_cell. cbn [c_alive andb]. now rewrite D.
Qed.

(** swap, take and take_if. *)
Lemma dead_swap W (C : cls W) (Sm : sem C) (l : vars C) w x c :
  slot l x = Some c -> o_has C c = Ok true -> c_alive c = false ->
  (forall y d b, slot l y = Some d -> o_has C d = Ok b -> step C Sm (Swap x y) l w = SUndef /\ step C Sm (Swap y x) l w = SUndef) /\
  (forall nrvo p pr y g, free l y = true -> step C Sm (NewTakeIf nrvo p pr y x g) l w = SUndef) /\
  (forall nrvo y g, free l y = true -> td C = false -> lmax C = 0 -> step C Sm (NewTake nrvo y x g) l w = SUndef).
Proof.
  intros X H D. split; [|split].
  - intros y d b Y B. cbn [step]. rewrite (Nat.eqb_sym y x). destruct (Nat.eqb x y) eqn:E.
    + unfold on1, o_self_swap. apply Nat.eqb_eq in E. subst y. rewrite X, H. cbn [check]. rewrite D. now split.
    + unfold on2. rewrite X, Y. unfold o_swap. rewrite H, B. cbn [check negb andb]. destruct b; cbn [negb andb].
      * rewrite D, andb_false_r. now split.
      * unfold o_construct, from_cell. rewrite D. destruct (c_alive d && negb (td C)); now split.
  - intros nrvo p pr y g F. cbn [step]. unfold new2. rewrite F, X. unfold o_take_if, o_with_value. rewrite H. cbn [check]. now rewrite D.
  - intros nrvo y g F T L. cbn [step]. unfold new2. rewrite F, X. unfold o_take, o_mctor. destruct (tmc C).
    + cbn [fst]. now rewrite (reset_dead W C c w T H D).
    + unfold with_base, o_default, traits. rewrite L. cbn [N.eqb negb fst]. rewrite H. cbn [check]. unfold o_construct, from_cell. cbn [c_alive andb]. now rewrite D.
Qed.
