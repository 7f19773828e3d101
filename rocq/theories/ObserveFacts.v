(** Comparisons, hash and stream operators meet their specifications. *)
From Coq Require Import NArith ZArith Bool List Lia.
From Verif Require Import Outcome Words Lifetime LifetimeSpec LifetimeFacts Api ApiSpec ApiFacts ApiLaws Observe ObserveSpec.
Import ListNotations.
Open Scope N_scope.

Lemma operand_ok : forall W (C : cls W) (S : sem C), lawful C S -> forall c A (k : raw C -> out A),
  inv C S c -> c_alive c = true -> operand c k = k (c_raw c).
Proof.
  intros W C S L c A k Hi Ha. unfold operand.
  destruct (access_ok C S L c Hi) as [H _]. now destruct (H Ha) as (-> & _).
Qed.

Section Compare.
Context {W W' : Type} {C : cls W} {D : cls W'} (S : sem C) (T : sem D).
Hypothesis L : lawful C S.
Hypothesis LD : lawful D T.

(** Which operator is used, for operators that may throw. *)
Lemma compare_ok : forall op bop l r, inv C S l -> inv D T r ->
  c_compare op bop l r =
  if c_alive l && c_alive r then op (c_raw l) (c_raw r) else Ret (bop (c_alive l) (c_alive r)).
Proof.
  intros op bop l r Hl Hr. unfold c_compare. rewrite (has_ok C S L l Hl), (has_ok D T LD r Hr). cbn.
  destruct (c_alive l) eqn:El; cbn; [|reflexivity]. destruct (c_alive r) eqn:Er; cbn; [|reflexivity].
  rewrite (operand_ok W C S L l _ _ Hl El). now rewrite (operand_ok W' D T LD r _ _ Hr Er).
Qed.

Theorem operator_used : forall op l r, inv C S l -> inv D T r ->
  let want b := if c_alive l && c_alive r then op (c_raw l) (c_raw r) else Ret b in
  let (x, y) := (c_alive l, c_alive r) in
  c_eq op l r = want (Bool.eqb x y) /\ c_ne op l r = want (xorb x y) /\ c_lt op l r = want (negb x && y)%bool /\
  c_le op l r = want (negb x || y)%bool /\ c_gt op l r = want (x && negb y)%bool /\ c_ge op l r = want (x || negb y)%bool.
Proof.
  intros op l r Hl Hr. pose proof (fun bop => compare_ok op bop l r Hl Hr) as H.
  repeat split; (etransitivity; [apply H|]); destruct (c_alive l), (c_alive r); reflexivity.
Qed.

Lemma compare_lift : forall q op bop f l r, computes S T op f ->
  (forall a b, (a && b)%bool = false -> bop a b = of_comparison q (if a then Gt else if b then Lt else Eq)) ->
  inv C S l -> inv D T r -> c_compare op bop l r = Ret (lift6 q f (oval C S l) (oval D T r)).
Proof.
  intros q op bop f l r Hf Hb Hl Hr. rewrite (compare_ok op bop l r Hl Hr). unfold oval.
  destruct (c_alive l) eqn:El, (c_alive r) eqn:Er; cbn; try (rewrite Hb by reflexivity; reflexivity).
  apply Hf; [apply Hl|apply Hr]; assumption.
Qed.

Theorem six_lift : forall (op : rel6 -> raw C -> raw D -> out bool) (f : rel6 -> V S -> V T -> bool) l r,
  (forall q, computes S T (op q) (f q)) -> inv C S l -> inv D T r ->
  let want q := Ret (lift6 q (f q) (oval C S l) (oval D T r)) in
  c_eq (op REq) l r = want REq /\ c_ne (op RNe) l r = want RNe /\ c_lt (op RLt) l r = want RLt /\
  c_le (op RLe) l r = want RLe /\ c_gt (op RGt) l r = want RGt /\ c_ge (op RGe) l r = want RGe.
Proof.
  intros op f l r H Hl Hr want. repeat split; apply compare_lift; auto; intros [] []; cbn; congruence.
Qed.
End Compare.

Section One.
Context {W : Type} {C : cls W} (S : sem C).
Hypothesis L : lawful C S.

(** Comparisons with none are comparisons with an empty optional, whatever T's operators. *)
Theorem none_lift : forall B (f : V S -> B -> bool) (g : B -> V S -> bool) c, inv C S c ->
  let want q := Ret (lift6 q f (oval C S c) None) in
  let want' q := Ret (lift6 q g None (oval C S c)) in
  eq_none c = want REq /\ ne_none c = want RNe /\ lt_none c = want RLt /\
  le_none c = want RLe /\ gt_none c = want RGt /\ ge_none c = want RGe /\
  none_eq c = want' REq /\ none_ne c = want' RNe /\ none_lt c = want' RLt /\
  none_le c = want' RLe /\ none_gt c = want' RGt /\ none_ge c = want' RGe.
Proof.
  intros B f g c Hi. unfold eq_none, ne_none, lt_none, le_none, gt_none, ge_none, none_eq, none_ne, none_lt, none_le, none_gt, none_ge.
  rewrite (has_ok C S L c Hi). unfold oval. destruct (c_alive c); cbn; repeat split.
Qed.

(** Comparisons with a value, for operators that may throw. *)
Lemma c_value_ok : forall X (op : raw C -> X -> out bool) e c x, inv C S c ->
  c_value op e c x = if c_alive c then op (c_raw c) x else Ret e.
Proof.
  intros X op e c x Hi. unfold c_value. rewrite (has_ok C S L c Hi). cbn.
  destruct (c_alive c) eqn:E; [|reflexivity]. exact (operand_ok W C S L c _ _ Hi E).
Qed.

Lemma value_c_ok : forall X (op : X -> raw C -> out bool) e c x, inv C S c ->
  value_c op e x c = if c_alive c then op x (c_raw c) else Ret e.
Proof.
  intros X op e c x Hi. unfold value_c. rewrite (has_ok C S L c Hi). cbn.
  destruct (c_alive c) eqn:E; [|reflexivity]. exact (operand_ok W C S L c _ _ Hi E).
Qed.

Theorem value_lift : forall X (op : rel6 -> raw C -> X -> out bool) (op' : rel6 -> X -> raw C -> out bool) f g c x,
  (forall q r, ok S r -> op q r x = Ret (f q (val S r) x)) ->
  (forall q r, ok S r -> op' q x r = Ret (g q x (val S r))) -> inv C S c ->
  let want q := Ret (lift6 q (f q) (oval C S c) (Some x)) in
  let want' q := Ret (lift6 q (g q) (Some x) (oval C S c)) in
  eq_value (op REq) c x = want REq /\ ne_value (op RNe) c x = want RNe /\ lt_value (op RLt) c x = want RLt /\
  le_value (op RLe) c x = want RLe /\ gt_value (op RGt) c x = want RGt /\ ge_value (op RGe) c x = want RGe /\
  value_eq (op' REq) x c = want' REq /\ value_ne (op' RNe) x c = want' RNe /\ value_lt (op' RLt) x c = want' RLt /\
  value_le (op' RLe) x c = want' RLe /\ value_gt (op' RGt) x c = want' RGt /\ value_ge (op' RGe) x c = want' RGe.
Proof.
  intros X op op' f g c x H1 H2 Hi.
  unfold eq_value, ne_value, lt_value, le_value, gt_value, ge_value, value_eq, value_ne, value_lt, value_le, value_gt, value_ge.
  rewrite !(c_value_ok X) by exact Hi. rewrite !(value_c_ok X) by exact Hi. unfold oval.
  destruct (c_alive c) eqn:E; cbn; repeat split; try apply H1; try apply H2; now apply Hi.
Qed.

(** Hash. *)
Lemma hash_ok : forall h c, inv C S c ->
  c_hash h c = if c_alive c then h (c_raw c) else Ret 0.
Proof.
  intros h c Hi. unfold c_hash. rewrite (has_ok C S L c Hi). cbn.
  destruct (c_alive c) eqn:E; [|reflexivity]. exact (operand_ok W C S L c _ _ Hi E).
Qed.

Theorem hash_respects : forall (h : raw C -> out N) (f : V S -> N) (eq : V S -> V S -> bool) op a b,
  (forall r, ok S r -> h r = Ret (f (val S r))) ->
  (forall x y, eq x y = true -> f x = f y) -> computes S S op eq ->
  inv C S a -> inv C S b -> c_eq op a b = Ret true -> c_hash h a = c_hash h b.
Proof.
  intros h f eq op a b Hh He Ho Ha Hb E. rewrite !hash_ok by assumption.
  assert (K := compare_ok S S L L op b_eq a b Ha Hb). unfold c_eq in E. rewrite E in K.
  destruct (c_alive a) eqn:Ea, (c_alive b) eqn:Eb; cbn in K; try discriminate; [|reflexivity].
  assert (Ka : ok S (c_raw a)) by now apply Ha. assert (Kb : ok S (c_raw b)) by now apply Hb.
  rewrite Ho in K by assumption. injection K as K. rewrite !Hh by assumption. now rewrite (He _ _ (eq_sym K)).
Qed.

(** Streams. *)
Theorem io_out_ok : forall St (c : cell C) (s : St), inv C S c ->
  (c_alive c = true -> forall put, io_out C put c s = put (c_raw c) s) /\
  (c_alive c = false -> forall put, io_out C put c s = Ret s).
Proof.
  intros St c s Hi. split; intros Ha put; unfold io_out; rewrite (has_ok C S L c Hi), Ha; cbn; [|reflexivity].
  exact (operand_ok W C S L c _ _ Hi Ha).
Qed.

Theorem io_out2_ok : forall St (c : cell C) (s : St), inv C S c ->
  (c_alive c = true -> forall put alt, io_out2 C put alt c s = put (c_raw c) s) /\
  (c_alive c = false -> forall put alt, io_out2 C put alt c s = alt s).
Proof.
  intros St c s Hi. split; intros Ha put alt; unfold io_out2; rewrite (has_ok C S L c Hi), Ha; cbn; [|reflexivity].
  exact (operand_ok W C S L c _ _ Hi Ha).
Qed.

(** Extraction changes the contained object or the alternative, not both; engagement stays. *)
Theorem io_in2_ok : forall St A (take : raw C -> St -> out (raw C * St)) (take_alt : A -> St -> out (A * St)) c a s,
  inv C S c ->
  (c_alive c = true ->
     io_in2 C take take_alt c (a, s) =
     match take (c_raw c) s with
     | Ret (r, s') => Ret (mkcell r (c_flag c) true, (a, s'))
     | Exn (r, s') => Exn (mkcell r (c_flag c) true, (a, s'))
     | Abort => Abort
     | Undef => Undef
     end) /\
  (c_alive c = false ->
     io_in2 C take take_alt c (a, s) =
     match take_alt a s with
     | Ret p => Ret (c, p)
     | Exn p => Exn (c, p)
     | Abort => Abort
     | Undef => Undef
     end).
Proof.
  intros St A take take_alt c a s Hi. split; intros Ha; unfold io_in2; rewrite (has_ok C S L c Hi), Ha; cbn; [|reflexivity].
  unfold o_with_value. rewrite (has_ok C S L c Hi). cbn. rewrite Ha.
  destruct (take (c_raw c) s) as [[r s']|[r s']| |]; reflexivity.
Qed.
End One.

(** * The order on optionals *)

Section Order.
Context {A : Type}.

Lemma of_negate : forall q c, of_comparison (negate q) c = negb (of_comparison q c).
Proof. intros [] []; reflexivity. Qed.

Lemma of_mirror : forall q c, of_comparison (mirror q) (CompOpp c) = of_comparison q c.
Proof. intros [] []; reflexivity. Qed.

Theorem lift_consistent : forall X Y (op : rel6 -> X -> Y -> bool), consistent op -> consistent (fun q => lift6 q (op q)).
Proof.
  intros X Y op H [x|] [y|]; cbn; [apply H| | |]; eexists; intros q; reflexivity.
Qed.

Theorem consistent_negate : forall X Y (op : rel6 -> X -> Y -> bool), consistent op ->
  forall q x y, op (negate q) x y = negb (op q x y).
Proof. intros X Y op H q x y. destruct (H x y) as [c Hc]. rewrite !Hc. apply of_negate. Qed.

Theorem lift_mirrored : forall X Y (op : rel6 -> X -> Y -> bool) op', mirrored op op' ->
  mirrored (fun q => lift6 q (op q)) (fun q => lift6 q (op' q)).
Proof. intros X Y op op' H q [x|] [y|]; cbn; [apply H| | |]; now destruct q. Qed.

Theorem lift_strict_weak : forall lt : A -> A -> bool, strict_weak lt -> strict_weak (lift6 RLt lt).
Proof.
  intros lt (H1 & H2 & H3). repeat split.
  - intros [x|]; cbn; auto.
  - intros [x|] [y|] [z|]; cbn; intros; try discriminate; auto. eapply H2; eauto.
  - destruct x as [x|], y as [y|], z as [z|]; cbn in *; try discriminate; auto. now apply (H3 x y z).
  - destruct x as [x|], y as [y|], z as [z|]; cbn in *; try discriminate; auto. now apply (H3 x y z).
Qed.

Theorem lift_equivalence : forall eq : A -> A -> bool, equivalence eq -> equivalence (lift6 REq eq).
Proof.
  intros eq (H1 & H2 & H3). repeat split.
  - intros [x|]; cbn; auto.
  - intros [x|] [y|]; cbn; auto.
  - intros [x|] [y|] [z|]; cbn; intros; try discriminate; auto. eapply H3; eauto.
Qed.

(** A total order: exactly one of <, ==, > holds, and <= is transitive and antisymmetric. *)
Theorem lift_total : forall op : rel6 -> A -> A -> bool, consistent op -> strict_weak (op RLt) -> equivalence (op REq) ->
  mirrored op op ->
  forall a b c,
  lift6 RLe (op RLe) a b = (lift6 RLt (op RLt) a b || lift6 REq (op REq) a b)%bool /\
  (lift6 RLe (op RLe) a b = true -> lift6 RLe (op RLe) b c = true -> lift6 RLe (op RLe) a c = true) /\
  (lift6 RLe (op RLe) a b = true -> lift6 RLe (op RLe) b a = true -> lift6 REq (op REq) a b = true) /\
  (lift6 RLe (op RLe) a b || lift6 RLe (op RLe) b a)%bool = true.
Proof.
  intros op Hc Hs He Hm a b c.
  pose proof (lift_consistent _ _ op Hc) as Lc. pose proof (lift_mirrored _ _ op op Hm) as Lm.
  pose proof (lift_strict_weak _ Hs) as (_ & Ls2 & Ls3). pose proof (lift_equivalence _ He) as (_ & _ & Le3).
  assert (Hle : forall x y, lift6 RLe (op RLe) x y = negb (lift6 RLt (op RLt) y x)).
  { intros x y. change (lift6 RLt (op RLt) y x) with (lift6 (mirror RGt) (op (mirror RGt)) y x).
    rewrite (Lm RGt x y). apply (consistent_negate _ _ _ Lc RGt x y). }
  assert (Hor : forall x y, lift6 RLe (op RLe) x y = (lift6 RLt (op RLt) x y || lift6 REq (op REq) x y)%bool).
  { intros x y. destruct (Lc x y) as [k Hk]. rewrite !Hk. now destruct k. }
  assert (Hgt : forall x y, lift6 RLt (op RLt) x y = true -> lift6 REq (op REq) x y = true -> False).
  { intros x y. destruct (Lc x y) as [k Hk]. rewrite !Hk. now destruct k. }
  assert (Tr : forall x y z, lift6 RLt (op RLt) x y = false -> lift6 RLt (op RLt) y z = false -> lift6 RLt (op RLt) x z = false).
  { intros x y z H1 H2. destruct (lift6 RLt (op RLt) x z) eqn:E; [|reflexivity]. exfalso.
    destruct (lift6 RLt (op RLt) y x) eqn:E1.
    - rewrite (Ls2 _ _ _ E1 E) in H2. discriminate.
    - destruct (lift6 RLt (op RLt) z y) eqn:E2.
      + rewrite (Ls2 _ _ _ E E2) in H1. discriminate.
      + destruct (Ls3 x y z H1 E1 H2 E2). congruence. }
  split; [apply Hor|]. split; [|split].
  - rewrite !Hle. intros H1 H2. apply negb_true_iff in H1, H2. apply negb_true_iff. now apply (Tr c b a).
  - intros H1 H2. rewrite Hle in H2. apply negb_true_iff in H2. rewrite Hor, H2 in H1. exact H1.
  - rewrite !Hle. destruct (lift6 RLt (op RLt) b a) eqn:E1; [|reflexivity]. cbn.
    destruct (lift6 RLt (op RLt) a b) eqn:E2; [|reflexivity]. exfalso.
    destruct (Lc a b) as [k Hk]. rewrite Hk in E2. destruct k; try discriminate.
    assert (E3 := Hle a b). rewrite E1, Hk in E3. discriminate.
Qed.

(** none is the least element. *)
Theorem none_least : forall op : rel6 -> A -> A -> bool, forall x a,
  lift6 RLt (op RLt) None (Some x) = true /\ lift6 RLe (op RLe) None a = true /\
  lift6 RLt (op RLt) a None = false /\ (lift6 REq (op REq) a None = true <-> a = None).
Proof. intros op x [a|]; cbn; repeat split; auto; discriminate. Qed.
End Order.
