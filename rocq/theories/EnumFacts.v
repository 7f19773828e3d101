From Coq Require Import ZArith NArith List Bool Lia ZifyBool ZifyNat ZifyN.
From Verif Require Import Outcome Words WordsFacts Ints Types OptBytes TypesSpec.
Import ListNotations.
Open Scope N_scope.
Ltac Zify.zify_post_hook ::= Z.div_mod_to_equations.

Lemma existsb_eqb x l : existsb (N.eqb x) l = true <-> In x l.
Proof.
  rewrite existsb_exists. split.
  - intros [y [Hy E]]. apply N.eqb_eq in E. now subst.
  - intros H. exists x. split; [exact H|apply N.eqb_refl].
Qed.

Lemma largest_named_le named k : largest_named named k <= N.of_nat k.
Proof.
  induction k as [|k IH]; cbn [largest_named]; [lia|].
  destruct (existsb _ _); lia.
Qed.

Lemma largest_named_bound named k e : In e named -> e < N.of_nat k -> e < largest_named named k.
Proof.
  intros Hin. induction k as [|k IH]; intros Hlt; [lia|]. cbn [largest_named].
  destruct (existsb (N.eqb (N.of_nat k)) named) eqn:E; [lia|].
  apply IH. assert (e <> N.of_nat k); [|lia]. intros ->.
  apply existsb_eqb in Hin. congruence.
Qed.

Lemma largest_named_in named k : largest_named named k <> 0 ->
  In (largest_named named k - 1) named /\ largest_named named k <= N.of_nat k.
Proof.
  induction k as [|k IH]; cbn [largest_named]; [lia|].
  destruct (existsb (N.eqb (N.of_nat k)) named) eqn:E; intros H.
  - apply existsb_eqb in E. split; [|lia]. replace (N.of_nat (S k) - 1) with (N.of_nat k) by lia. exact E.
  - specialize (IH H) as [H1 H2]. split; [exact H1|lia].
Qed.

(** The rounding, swept over its whole domain (1023 inputs). *)
Definition pow2_list : list N := map (fun k => 2 ^ N.of_nat k) (seq 0 11).
Definition round_ok (x : N) : bool :=
  existsb (fun q => (round_up_pow2 x =? q) && (x <=? q) && ((q =? 1) || (q <? 2 * x))) pow2_list.
Lemma round_sweep : forallb (fun n => round_ok (N.of_nat n)) (seq 1 1024) = true.
Proof. vm_compute. reflexivity. Qed.

Lemma round_up_spec x : 1 <= x -> x <= 1024 ->
  exists k, round_up_pow2 x = 2 ^ k /\ x <= 2 ^ k /\ (k = 0 \/ 2 ^ k < 2 * x) /\ k <= 10.
Proof.
  intros H1 H2. pose proof round_sweep as S. rewrite forallb_forall in S.
  specialize (S (N.to_nat x)). rewrite in_seq in S. specialize (S ltac:(lia)).
  rewrite N2Nat.id in S. unfold round_ok in S. apply existsb_exists in S as [q [Hq Hb]].
  unfold pow2_list in Hq. apply in_map_iff in Hq as [k [<- Hk]]. apply in_seq in Hk.
  apply andb_true_iff in Hb as [Hb Hb3]. apply andb_true_iff in Hb as [Hb1 Hb2].
  apply N.eqb_eq in Hb1. apply N.leb_le in Hb2. apply orb_true_iff in Hb3.
  exists (N.of_nat k). split; [exact Hb1|split; [exact Hb2|split; [|lia]]].
  destruct Hb3 as [Hb3|Hb3].
  - left. apply N.eqb_eq in Hb3. destruct (N.eq_dec (N.of_nat k) 0); [assumption|].
    assert (1 < 2 ^ N.of_nat k) by (apply N.pow_gt_1; lia). lia.
  - right. now apply N.ltb_lt.
Qed.

Lemma lor_lt_pow2 a b k : a < 2 ^ k -> b < 2 ^ k -> N.lor a b < 2 ^ k.
Proof.
  intros Ha Hb. destruct (N.eq_dec (N.lor a b) 0) as [->|Hn].
  - apply N.neq_0_lt_0, N.pow_nonzero. discriminate.
  - apply N.log2_lt_pow2; [lia|]. rewrite N.log2_lor.
    destruct (N.eq_dec a 0) as [->|Ha0].
    + destruct (N.eq_dec b 0) as [->|Hb0]; [now cbn in Hn|].
      rewrite N.max_r by (change (N.log2 0) with 0; lia). apply N.log2_lt_pow2; lia.
    + apply N.log2_lt_pow2 in Ha; [|lia].
      destruct (N.eq_dec b 0) as [->|Hb0].
      * change (N.log2 0) with 0. lia.
      * apply N.log2_lt_pow2 in Hb; lia.
Qed.

Lemma lor_ge_l a b : a <= N.lor a b.
Proof.
  apply N.ldiff_le. apply N.bits_inj_0. intros n.
  rewrite N.ldiff_spec, N.lor_spec. destruct (N.testbit a n), (N.testbit b n); reflexivity.
Qed.

Lemma lor_ge_r a b : b <= N.lor a b.
Proof. rewrite N.lor_comm. apply lor_ge_l. Qed.

Lemma lor_lt_wbase a b w : a < wbase w -> b < wbase w -> N.lor a b < wbase w.
Proof.
  unfold wbase. change 256 with (2 ^ 8). rewrite <- !N.pow_mul_r. apply lor_lt_pow2.
Qed.

Lemma flag_union_bound w named x : Forall (fun e => e < wbase w) named -> flag_union named x -> x < wbase w.
Proof.
  intros HF. induction 1 as [|e x Hin Hx IH].
  - apply wbase_pos.
  - rewrite Forall_forall in HF. apply lor_lt_wbase; [now apply HF|exact IH].
Qed.

(** Every flag union lies below the reserved block or at/above the probe limit. *)
Lemma flag_union_outside named probe x : (1 <= probe <= 1024)%nat ->
  max_enum_value named probe <> 0 -> flag_union named x ->
  x < max_enum_value named probe \/ N.of_nat probe <= x.
Proof.
  intros Hp. unfold max_enum_value. destruct (N.eqb_spec (enum_bound named probe) 0) as [|Hne]; [congruence|].
  intros _. unfold enum_bound in *.
  destruct (existsb (N.eqb (N.of_nat probe - 1)) named) eqn:E; [congruence|].
  set (c := largest_named named (probe - 1)) in *.
  assert (c <= 1024) as Hc by (pose proof (largest_named_le named (probe - 1)); lia).
  destruct (round_up_spec c ltac:(lia) Hc) as [k [-> [Hck _]]].
  induction 1 as [|e x Hin Hx IH].
  - left. apply N.neq_0_lt_0, N.pow_nonzero. discriminate.
  - destruct IH as [IH|IH].
    + destruct (N.lt_ge_cases e (N.of_nat probe)) as [He|He].
      * left. apply lor_lt_pow2; [|exact IH].
        assert (e <> N.of_nat probe - 1) as Hne'.
        { intros ->. apply existsb_eqb in Hin. congruence. }
        pose proof (largest_named_bound named (probe - 1) e Hin ltac:(lia)). fold c in H. lia.
      * right. pose proof (lor_ge_l e x). lia.
    + right. pose proof (lor_ge_r e x). lia.
Qed.

Lemma max_enum_value_pos named probe : max_enum_value named probe <> 0 -> 1 <= max_enum_value named probe.
Proof. lia. Qed.
