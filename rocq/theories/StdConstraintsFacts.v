(** option<T> takes the arguments that std::optional<T> takes; a = {} is different. *)
From Coq Require Import NArith ZArith Bool List Lia.
From Verif Require Import Outcome Words Constraints Lifetime LifetimeSpec LifetimeFacts Braces StdConstraints.
Import ListNotations.

Section Facts.
Context (L : lang).

Lemma initializable_or : forall t args, initializable L t args = true ->
  constructible L t args = true \/ only_braces L t args.
Proof.
  intros t args. unfold initializable, only_braces.
  destruct (cxx20 L), (constructible L t args), (aggregate L t), (braces L t args); cbn; auto 10.
Qed.

Lemma initializable_std : forall t args, ~ only_braces L t args -> initializable L t args = constructible L t args.
Proof.
  intros t args H. destruct (initializable L t args) eqn:E.
  - destruct (initializable_or t args E); [congruence|contradiction].
  - unfold initializable in E. destruct (cxx20 L), (constructible L t args), (aggregate L t), (braces L t args); cbn in *; congruence.
Qed.

Lemma bool_std : forall t, is_reference t = false -> same (remove_cv t) (plain Bool) = cv_bool t.
Proof. intros [[| |] c v b] H; try discriminate. destruct b; reflexivity. Qed.

Lemma any_std : forall t u, constructible_from_option L t u = converts_from_any_cvref L t (option_of u).
Proof.
  intros t u. unfold constructible_from_option, converts_from_any_cvref, some_of.
  destruct (constructible L t [lref (option_of u)]), (constructible L t [const_lref (option_of u)]),
    (constructible L t [rref (option_of u)]), (constructible L t [const_rref (option_of u)]),
    (convertible L (lref (option_of u)) t), (convertible L (const_lref (option_of u)) t),
    (convertible L (rref (option_of u)) t), (convertible L (const_rref (option_of u)) t); reflexivity.
Qed.

Theorem value_ctor_std : forall t u ex, is_reference t = false -> ~ only_braces L t [u] ->
  value_ctor L ex t u = std_value_ctor L t u && Bool.eqb (std_explicit L u t) ex.
Proof.
  intros t u ex Ht Hb. unfold value_ctor, value_ctor_policy, std_value_ctor, std_explicit. rewrite Ht, (bool_std t Ht).
  destruct (same (remove_cvref u) (option_of t)), (same (remove_cvref u) in_place_t), (cv_bool t), (is_option (remove_cvref u));
    cbn; rewrite ?andb_false_r, ?andb_true_r; try reflexivity;
    rewrite (initializable_std _ _ Hb); destruct (convertible L u t), ex, (constructible L t [u]); reflexivity.
Qed.

Theorem option_ctor_std : forall t u q ex, is_reference t = false -> ~ only_braces L t [q] -> same u t = false ->
  option_ctor L ex t u q = std_option_ctor L t u q && Bool.eqb (std_explicit L q t) ex.
Proof.
  intros t u q ex Ht Hb Hs. unfold option_ctor, option_ctor_policy, std_option_ctor, std_explicit.
  rewrite Ht, Hs, (initializable_std _ _ Hb). cbn [negb andb]. destruct (constructible L t [q]); [|reflexivity].
  cbn [constructor_is_explicit enabled andb]. rewrite (bool_std t Ht), any_std.
  destruct (cv_bool t), (converts_from_any_cvref L t (option_of u)), (convertible L q t), ex; reflexivity.
Qed.

Theorem value_assign_std : forall t u d, is_reference t = false -> ~ only_braces L t [u] ->
  value_assign L t u = std_value_assign L d t u || d && std_value_assign L false t u.
Proof.
  intros t u d Ht Hb. unfold value_assign, std_value_assign. rewrite Ht, (initializable_std _ _ Hb).
  destruct (same (remove_cvref u) (option_of t)), d, (constructible L t [u]), (assignable L (lref t) u); reflexivity.
Qed.

Theorem option_assign_std : forall t u q, is_reference t = false -> ~ only_braces L t [q] -> same u t = false ->
  option_assign L t u q = std_option_assign L t u q.
Proof.
  intros t u q Ht Hb Hs. unfold option_assign, option_assign_policy, std_option_assign.
  rewrite Ht, Hs, (initializable_std _ _ Hb). cbn [negb andb].
  destruct (constructible L t [q]); [|reflexivity]. destruct (assignable L (lref t) q); [|reflexivity].
  cbn [andb assignment enabled]. rewrite any_std. reflexivity.
Qed.

(** Nothing that std::optional takes is refused. *)
Theorem std_accepted : forall t u, is_reference t = false ->
  (std_value_ctor L t u = true -> value_ctor L (std_explicit L u t) t u = true) /\
  (forall q, same u t = false -> std_option_ctor L t u q = true -> option_ctor L (std_explicit L q t) t u q = true) /\
  (forall d, std_value_assign L d t u = true -> value_assign L t u = true) /\
  (forall q, same u t = false -> std_option_assign L t u q = true -> option_assign L t u q = true).
Proof.
  intros t u Ht. repeat split.
  - intros H. assert (Hc : constructible L t [u] = true)
      by (unfold std_value_ctor in H; destruct (constructible L t [u]); [reflexivity|discriminate]).
    rewrite value_ctor_std; [rewrite H; apply Bool.eqb_reflx|exact Ht|]. intros (_ & _ & Hn & _). congruence.
  - intros q Hs H. assert (Hc : constructible L t [q] = true)
      by (unfold std_option_ctor in H; destruct (constructible L t [q]); [reflexivity|discriminate]).
    rewrite option_ctor_std; [rewrite H; apply Bool.eqb_reflx|exact Ht| |exact Hs]. intros (_ & _ & Hn & _). congruence.
  - intros d H. rewrite (value_assign_std t u d Ht); [now rewrite H|].
    unfold std_value_assign in H. intros (_ & _ & Hn & _). rewrite Hn, andb_false_r in H. discriminate.
  - intros q Hs H. rewrite option_assign_std; [exact H|exact Ht| |exact Hs].
    unfold std_option_assign in H. intros (_ & _ & Hn & _). rewrite Hn in H. discriminate.
Qed.
End Facts.

(** * Empty braces *)

Lemma chosen_value : forall X value t,
  chosen_for X value t =
  Some (match to_param X (rref (remove_cv t)) with Identity => if value then FromValueOf else Moving | _ => Moving end).
Proof.
  intros X value t. unfold chosen_for. cbn [find]. unfold best, viable, beats. cbn [conversion forallb andb orb negb].
  destruct (to_param X (rref (remove_cv t))), value; reflexivity.
Qed.

Theorem brace_choice_object : forall X t, is_reference t = false ->
  brace_choice X t =
  Some (if scalar_type X (remove_cv t) && value_assign (bl X) t (remove_cv t) then FromValueOf else Moving).
Proof.
  intros X [[| |] c v b] Ht; try discriminate. unfold brace_choice. rewrite chosen_value. cbn.
  unfold to_object. destruct (scalar_type X (ct NoRef false false b)), (brace_class X (ct NoRef false false b));
    cbn [andb]; try reflexivity; destruct (negb _ && _ && _); reflexivity.
Qed.

Theorem brace_choice_std : forall X t, is_reference t = false -> remove_cv t = t -> std_brace_choice X t = Some Moving.
Proof.
  intros X t Ht Hcv. unfold std_brace_choice. rewrite chosen_value, Hcv.
  assert (E : same t (remove_cvref t) = true).
  { destruct t as [[| |] c v b]; try discriminate. cbn in Hcv. injection Hcv as <- <-.
    assert (Hn : forall b, same_name b b = true) by
      (fix IH 1; intros [n| | |[r c v b']|[r c v b']]; cbn; rewrite ?PeanoNat.Nat.eqb_refl, ?Bool.eqb_reflx, ?IH; auto; destruct r; reflexivity).
    cbn. now rewrite Hn. }
  unfold std_decayed. rewrite E, andb_true_r.
  assert (Er : to_param X (rref t) = to_object X t) by (destruct t as [[| |] c v b]; try discriminate; reflexivity).
  rewrite Er. unfold to_object. destruct (scalar_type X t); cbn [negb].
  - unfold std_value_assign. cbn [negb]. rewrite andb_false_r. reflexivity.
  - destruct (brace_class X t); reflexivity.
Qed.

Theorem brace_choice_reference : forall X r c v b, r <> NoRef ->
  brace_choice X (ct r c v b) =
  Some (if scalar_type X (ct NoRef c v b) && value_assign (bl X) (ct r c v b) (ct r c v b) &&
           match r with RRef => true | _ => c && negb v end
        then FromValueOf else Moving).
Proof.
  intros X r c v b Hr. unfold brace_choice. rewrite chosen_value.
  destruct r; [contradiction| |]; cbn [remove_cv rref to_param].
  - destruct c, v; cbn [andb negb]; rewrite ?andb_false_r; try reflexivity. unfold to_object.
    destruct (scalar_type X (ct NoRef true false b)), (brace_class X (ct NoRef true false b)); cbn [andb]; try reflexivity;
      rewrite ?andb_true_r; reflexivity.
  - unfold to_object. destruct (scalar_type X (ct NoRef c v b)), (brace_class X (ct NoRef c v b)); cbn [andb]; try reflexivity;
      rewrite ?andb_true_r; reflexivity.
Qed.

(** What the chosen functions do. *)
Section Effect.
Context {W : Type} (C : cls W) (Sm : sem C).
Hypothesis L : lawful C Sm.

Theorem braces_move : forall i0 tmp c w, quiet_move C Sm -> inv C Sm c ->
  post (stops Sm) (assign_braces C i0 (Some Moving) tmp c w)
    (fun p => inv C Sm (fst p) /\ o_has C (fst p) = Ok false) (fun _ => False).
Proof.
  intros i0 tmp c w Q Hc. unfold assign_braces. destruct (default_ok C Sm L tmp) as (t0 & -> & Ht & Ha).
  pose proof (massign_ok C Sm L t0 c w Q Ht Hc) as H.
  destruct (o_massign C c (t0, w)) as [[c' [t1 w']]|[c' [t1 w']]| |]; cbn in H |- *; auto.
  - destruct H as (H1 & H2 & H3 & _ & _).
    assert (Hn : o_has C c' = Ok false).
    { rewrite (has_ok C Sm L c' H1). rewrite (oval_dead C Sm t0 Ha) in H2. unfold oval in H2.
      destruct (c_alive c'); [discriminate|reflexivity]. }
    pose proof (dtor_ok C Sm L t1 w' H3) as D. destruct (o_dtor C t1 w') as [[t2 w'']|[t2 w'']| |]; cbn in D |- *; auto; contradiction.
  - destruct H as (_ & _ & H & _). congruence.
Qed.

Theorem braces_value : forall i0 tmp c w, quiet_init C i0 -> inv C Sm c ->
  post (stops Sm) (assign_braces C i0 (Some FromValueOf) tmp c w)
    (fun p => inv C Sm (fst p) /\ o_has C (fst p) = Ok true /\ exists v, oval C Sm (fst p) = Some v /\ denotes Sm i0 v)
    (fun p => inv C Sm (fst p) /\ o_has C (fst p) = o_has C c).
Proof.
  intros i0 tmp c w Q Hc. cbn [assign_braces].
  eapply post_mono; [apply (asgn_ok C Sm L (IVal i0) c w); [intros i' [E|E]; [injection E as <-; exact Q|discriminate]|exact Hc]| |].
  - intros p (H1 & (v & H2 & H3) & _). split; [exact H1|]. split; [|exists v; now split].
    rewrite (has_ok C Sm L _ H1). unfold oval in H2. destruct (c_alive (fst p)); [reflexivity|discriminate].
  - intros p (H1 & H2 & _). split; [exact H1|]. rewrite (has_ok C Sm L _ H1), (has_ok C Sm L _ Hc). now rewrite H2.
Qed.
End Effect.
