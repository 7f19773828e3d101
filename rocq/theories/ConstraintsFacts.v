(** The constraints of constructors and assignments against the documentation, and the choice between them. *)
From Coq Require Import Bool List Arith Lia.
From Verif Require Import Constraints ConstraintsSpec.
Import ListNotations.

(** * Types *)

Scheme ctype_mut := Induction for ctype Sort Prop
with name_mut := Induction for name Sort Prop.

Lemma refq_eqb_true a b : refq_eqb a b = true <-> a = b.
Proof. destruct a, b; cbn; split; congruence. Qed.

Lemma same_true : forall a b, same a b = true <-> a = b.
Proof.
  apply (ctype_mut (fun a => forall b, same a b = true <-> a = b)
                   (fun x => forall y, same_name x y = true <-> x = y)).
  - intros r c v x IH [r' c' v' y]. cbn. rewrite !andb_true_iff, refq_eqb_true, !eqb_true_iff, IH.
    split; [intros [[[-> ->] ->] ->]; reflexivity|intros [= -> -> -> ->]; auto].
  - intros n [m| | | |]; cbn; rewrite ?Nat.eqb_eq; split; congruence.
  - intros [| | | |]; cbn; split; congruence.
  - intros [| | | |]; cbn; split; congruence.
  - intros t IH [| | |u|]; cbn; rewrite ?IH; split; congruence.
  - intros t IH [| | | |u]; cbn; rewrite ?IH; split; congruence.
Qed.

Lemma same_refl a : same a a = true.
Proof. apply same_true. reflexivity. Qed.

Lemma same_sym a b : same a b = same b a.
Proof. apply eq_true_iff_eq. rewrite !same_true. split; congruence. Qed.

Lemma remove_cv_object t : is_reference t = false -> remove_cv t = remove_cvref t.
Proof. destruct t as [[] c v b]; cbn; congruence. Qed.

Lemma option_of_option t : is_option (option_of t) = true.
Proof. reflexivity. Qed.

Lemma remove_cvref_object t : is_reference (remove_cvref t) = false.
Proof. destruct t; reflexivity. Qed.

Lemma wrapper_ok t u : is_reference t = false ->
  same_reference_wrapper t u =
  same u (plain (WrapperOf (remove_const t))) || same u (plain (WrapperOf t)).
Proof.
  intros Ht. destruct t as [[] c v b]; try discriminate. destruct u as [r c' v' y].
  unfold plain. destruct r; [|reflexivity|reflexivity].
  destruct c'; [reflexivity|]. destruct v'; [reflexivity|]. destruct y as [| | |x|x]; try reflexivity.
  change (same (ct NoRef c v b) x || same (ct NoRef c v b) (add_const x) =
    same x (ct NoRef false v b) || same x (ct NoRef c v b)).
  apply eq_true_iff_eq. rewrite !orb_true_iff, !same_true. split.
  - intros [<-|H]; [auto|]. destruct x as [[] cx vx bx]; cbn in H; try discriminate.
    injection H as -> -> ->. destruct cx; auto.
  - intros [->| ->]; [|auto]. destruct c; [right|left]; reflexivity.
Qed.

Section Laws.
Context (L : lang).

Lemma binds_ok t u : binds L t u = can_bind L t u.
Proof.
  unfold binds, can_bind. rewrite wrapper_ok by (destruct t; reflexivity). f_equal.
  destruct (ptr_convertible _ _ _); cbn [andb]; [|reflexivity].
  destruct t as [[] ? ? ?], u as [[] ? ? ?]; reflexivity.
Qed.

Lemma made_ok t args : made_of L t args = initializable L t args.
Proof.
  unfold made_of, initializable.
  destruct (cxx20 L), (constructible L t args), (aggregate L t), (braces L t args); reflexivity.
Qed.
Lemma made_from_ok t u : made_from_option L t u = constructible_from_option L t u.
Proof.
  unfold made_from_option, constructible_from_option, categories. cbn [existsb].
  repeat match goal with |- context [constructible L t ?q] => destruct (constructible L t q); cbn [orb]; rewrite ?orb_true_r; try reflexivity end.
  rewrite orb_false_r, !orb_assoc. reflexivity.
Qed.
Lemma assigned_from_ok t u : assigned_from_option L t u = assignable_from_option L t u.
Proof. unfold assigned_from_option, assignable_from_option, categories. cbn [existsb]. rewrite orb_false_r, !orb_assoc. reflexivity. Qed.
Lemma doc_value_ctor_eq t u : doc_value_ctor L t u =
  if is_reference t then
    negb (same (remove_cvref u) (option_of t)) && negb (same (remove_cvref u) in_place_t) &&
    negb (is_option (remove_cvref u)) && can_bind L t u
  else
    initializable L t [u] && negb (same (remove_cvref u) (option_of t)) &&
    negb (same (remove_cvref u) in_place_t) &&
    (negb (same (remove_cvref t) (plain Bool)) || negb (is_option (remove_cvref u))).
Proof. unfold doc_value_ctor. rewrite made_ok. reflexivity. Qed.
Lemma doc_option_ctor_eq t u q : doc_option_ctor L t u q =
  if is_reference t then negb (same t u) && can_bind L t u
  else initializable L t [q] && negb (same t u) &&
       (same (remove_cvref t) (plain Bool) || negb (constructible_from_option L t u)).
Proof. unfold doc_option_ctor. rewrite made_ok, made_from_ok. reflexivity. Qed.

Lemma constructible_initializable t args : constructible L t args = true -> initializable L t args = true.
Proof. intros H. unfold initializable. rewrite H. destruct (cxx20 L), (aggregate L t); reflexivity. Qed.

(** The constructor from a value: enabled and explicit as documented. *)
Lemma value_ctor_ok t u : forall ex,
  value_ctor L ex t u = doc_value_ctor L t u && Bool.eqb (doc_value_explicit L t u) ex.
Proof.
  intros ex. rewrite doc_value_ctor_eq. unfold value_ctor, value_ctor_policy, doc_value_explicit.
  destruct (is_reference t) eqn:Ht; cbn [negb andb].
  - rewrite binds_ok. destruct (is_option (remove_cvref u)) eqn:Ho.
    + rewrite ?andb_false_r. cbn. rewrite ?andb_false_r. reflexivity.
    + assert (H : same (remove_cvref u) (option_of t) = false).
      { apply not_true_iff_false. rewrite same_true. intros E. rewrite E in Ho. discriminate. }
      rewrite H. cbn [negb andb]. rewrite ?andb_true_r.
      destruct (same (remove_cvref u) in_place_t); cbn; [reflexivity|].
      destruct (can_bind L t u), ex; reflexivity.
  - rewrite remove_cv_object by exact Ht.
    destruct (same (remove_cvref u) (option_of t)); [rewrite ?andb_false_r; reflexivity|].
    destruct (same (remove_cvref u) in_place_t); [rewrite ?andb_false_r; reflexivity|].
    cbn [negb andb].
    destruct (negb (same (remove_cvref t) (plain Bool)) || negb (is_option (remove_cvref u)));
      [|rewrite ?andb_false_r; reflexivity].
    cbn. rewrite ?andb_true_r. destruct (initializable L t [u]), (convertible L u t), ex; reflexivity.
Qed.

(** The converting constructors for objects: enabled and explicit as documented. *)
Lemma option_ctor_ok t u q : is_reference t = false -> forall ex,
  option_ctor L ex t u q = doc_option_ctor L t u q && Bool.eqb (doc_option_explicit L t q) ex.
Proof.
  intros Ht ex. rewrite doc_option_ctor_eq. unfold option_ctor, option_ctor_policy, doc_option_explicit.
  rewrite Ht, (same_sym t u). cbn [negb andb].
  destruct (same u t); [cbn; rewrite ?andb_false_r; reflexivity|].
  destruct (initializable L t [q]); cbn; [|reflexivity]. rewrite remove_cv_object by exact Ht.
  destruct (convertible L q t), ex; cbn; rewrite ?andb_true_r, ?andb_false_r; reflexivity.
Qed.

(** For references they never take part: the class that the check chooses has no such member. *)
Lemma option_ctor_reference ex t u q : is_reference t = true -> option_ctor L ex t u q = false.
Proof.
  intros Ht. unfold option_ctor, option_ctor_policy. rewrite Ht.
  destruct (negb (same u t) && binds L t u); reflexivity.
Qed.

Lemma in_place_reference t tag a : is_reference t = true -> in_place_ctor L t tag [a] = true.
Proof. intros H. unfold in_place_ctor. rewrite H. reflexivity. Qed.
Lemma in_place_iff t tag args : in_place_ctor L t tag args = true <->
  (is_reference t = true /\ exists a, args = [a]) \/
  (is_reference t = false /\ same tag in_place_t = true /\ initializable L t args = true).
Proof.
  unfold in_place_ctor. destruct (is_reference t).
  - split.
    + intros H. left. split; [reflexivity|]. destruct args as [|a [|b args]]; try discriminate H. now exists a.
    + intros [(_ & a & ->)|(H & _)]; [reflexivity|discriminate].
  - rewrite andb_true_iff. split; [auto|]. intros [(H & _)|(_ & H)]; [discriminate|exact H].
Qed.

Lemma value_assign_ok t u : value_assign L t u = doc_value_assign L t u.
Proof. unfold value_assign, doc_value_assign. rewrite binds_ok, made_ok. reflexivity. Qed.

Lemma option_assign_ok t u q : option_assign L t u q = doc_option_assign L t u q.
Proof.
  unfold option_assign, option_assign_policy, doc_option_assign. rewrite binds_ok, made_ok, made_from_ok, assigned_from_ok, (same_sym t u).
  destruct (is_reference t).
  - destruct (negb (same u t) && can_bind L t u); reflexivity.
  - destruct (negb (same u t) && initializable L t [q] && assignable L (lref t) q); cbn; reflexivity.
Qed.

(** The constructor from two or more arguments: as documented, except that std::in_place_t is left to the
    constructor made for it. *)
Lemma args_ctor_ok t first second rest :
  args_ctor L t first second rest =
  doc_args_ctor L t first (second :: rest) && negb (same (remove_cvref first) in_place_t).
Proof.
  unfold args_ctor, doc_args_ctor. rewrite made_ok. destruct (is_reference t); [reflexivity|].
  cbn [negb andb].
  assert (H : constructible L t (first :: second :: rest) || initializable L t (first :: second :: rest)
              = initializable L t (first :: second :: rest)).
  { destruct (constructible L t (first :: second :: rest)) eqn:E; [|reflexivity].
    rewrite (constructible_initializable _ _ E). reflexivity. }
  rewrite H. destruct (initializable _ _ _), (same _ (option_of t)), (same _ in_place_t); reflexivity.
Qed.

(** * Construction from another option *)

Lemma initializable_constructible t args : cxx20 L = true \/ aggregate L t = false ->
  initializable L t args = constructible L t args.
Proof.
  unfold initializable. intros [-> | ->]; [reflexivity|]. cbn [andb]. destruct (cxx20 L); reflexivity.
Qed.

Lemma value_ctor_constructs t u k : declval_law L -> cxx20 L = true \/ aggregate L t = false ->
  is_reference t = false -> by_value L t u k = true ->
  constructible_from_option L t u = true /\ same (remove_cvref t) (plain Bool) = false.
Proof.
  intros D A Ht. unfold by_value. rewrite !value_ctor_ok, doc_value_ctor_eq, Ht.
  rewrite orb_true_iff, !andb_true_iff. intros H.
  assert (H' : initializable L t [deduced k (option_of u)] = true /\
    (negb (same (remove_cvref t) (plain Bool)) || negb (is_option (remove_cvref (deduced k (option_of u))))) = true)
    by (destruct H as [[[[[? ?] ?] ?] ?]|[[[[? ?] ?] ?] ?]]; auto).
  destruct H' as [H1 H2]. split.
  - rewrite (initializable_constructible _ _ A) in H1. unfold constructible_from_option.
    destruct k; cbn [deduced] in H1.
    + rewrite H1. reflexivity.
    + rewrite H1, orb_true_r. reflexivity.
    + rewrite (proj1 (D t (option_of u) eq_refl)), H1, ?orb_true_r. reflexivity.
    + unfold const_rref. rewrite (proj1 (D t (add_const (option_of u)) eq_refl)), H1, ?orb_true_r. reflexivity.
  - replace (is_option (remove_cvref (deduced k (option_of u)))) with true in H2 by (destruct k; reflexivity).
    rewrite orb_false_r in H2. apply negb_true_iff in H2. exact H2.
Qed.

(** The constructor from a value and the converting ones do not compete. *)
Lemma never_both t u k : declval_law L -> cxx20 L = true \/ aggregate L t = false -> is_reference t = false ->
  by_value L t u k = true -> by_copy L t u = false /\ by_move L t u = false.
Proof.
  intros D A Ht H. destruct (value_ctor_constructs t u k D A Ht H) as [Hc Hb].
  assert (Hq : forall ex q, option_ctor L ex t u q = false).
  { intros ex q. rewrite option_ctor_ok by exact Ht. rewrite doc_option_ctor_eq, Ht, Hb, Hc.
    rewrite !andb_false_r. reflexivity. }
  unfold by_copy, by_move. rewrite !Hq. auto.
Qed.

(** Nor do the assignments, whatever T is. *)
Lemma never_both_assign t u k : declval_law L -> is_reference t = false ->
  value_assign L t (deduced k (option_of u)) = true -> forall q, option_assign L t u q = false.
Proof.
  intros D Ht H q. rewrite value_assign_ok in H. unfold doc_value_assign in H. rewrite Ht in H.
  apply andb_true_iff in H as [_ H].
  rewrite option_assign_ok. unfold doc_option_assign. rewrite made_ok, made_from_ok, assigned_from_ok, Ht.
  enough (assignable_from_option L t u = true) as -> by apply andb_false_r.
  unfold assignable_from_option. destruct k; cbn [deduced] in H.
  - rewrite H. reflexivity.
  - rewrite H, orb_true_r. reflexivity.
  - rewrite (proj2 (D (lref t) (option_of u) eq_refl)), H, ?orb_true_r. reflexivity.
  - unfold const_rref. rewrite (proj2 (D (lref t) (add_const (option_of u)) eq_refl)), H, ?orb_true_r. reflexivity.
Qed.

(** T that can be made from an option<U> is; otherwise the contents are converted. *)
Lemma choice_value t u k : declval_law L -> cxx20 L = true \/ aggregate L t = false -> is_reference t = false ->
  choose L t u k = FromValue <-> by_value L t u k = true.
Proof.
  intros D A Ht. pose proof (never_both t u k D A Ht) as N.
  destruct (by_value L t u k) eqn:E.
  - destruct (N eq_refl) as [N1 N2]. unfold choose. rewrite N1, N2. destruct k; rewrite E; tauto.
  - unfold choose. rewrite E. destruct k, (by_copy L t u), (by_move L t u); split; congruence.
Qed.
End Laws.
