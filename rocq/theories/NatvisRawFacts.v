(** Proofs about the raw item of the visualizer. *)
From Coq Require Import NArith List Bool Arith Lia.
From Verif Require Import Outcome Words WordsFacts Types OptBytes TypesSpec Natvis NatvisSpec NatvisFacts NatvisRaw NatvisRawSpec.
Import ListNotations.
Open Scope N_scope.

Lemma raw_bare p k t b : raw p k t b = raw p k (bare t) b.
Proof. unfold raw. replace (raw_size p t) with (raw_size p (bare t)); [reflexivity|]. induction t; cbn [bare raw_size]; auto. Qed.

Lemma raw_sized p t k b n : (p = 8%nat /\ msvc64 t) \/ (p = 4%nat /\ msvc32 t) -> valid (nest (S k) t) b -> raw p k t b = Some n ->
  (k <= 2)%nat /\ exists s, raw_size p (bare t) = Some s /\ sized s b /\ n = le_decode b /\
  match bare t with TBool => s = 1%nat | TRefWrap q => s = p /\ q = p | TFloat32 _ => s = 4%nat | TFloat64 _ => s = 8%nat | _ => False end.
Proof.
  intros M V R. apply (valid_bare t (S k)) in V. rewrite raw_bare in R. unfold raw in R.
  destruct (k <=? 2)%nat eqn:K; [|discriminate]. apply Nat.leb_le in K. split; [exact K|].
  assert (M' : (p = 8%nat /\ msvc64 (bare t)) \/ (p = 4%nat /\ msvc32 (bare t))).
  { destruct M as [[-> M]|[-> M]]; [left|right]; (split; [reflexivity|]).
    - now apply msvc_bare.
    - clear - M. induction t; cbn [bare]; auto. }
  pose proof (bare_bare t) as B. destruct (bare t); cbn [raw_size option_map] in R; try discriminate; try (now destruct (B t0)); injection R as <-.
  - assert (S1 : sized 1 b) by (apply (option_sized k TBool b); [cbn; lia|exact V]). exists 1%nat. now rewrite read_whole.
  - assert (Q : p0 = p) by (destruct M' as [[-> M']|[-> M']]; exact M'). subst p0. assert (P : p = 4%nat \/ p = 8%nat) by (destruct M' as [[-> _]|[-> _]]; auto).
    assert (S1 : sized p b). { apply (option_sized k (TRefWrap p) b); [|exact V]. destruct P as [-> | ->]; cbn; lia. }
    exists p. now rewrite read_whole.
  - assert (S1 : sized 8 b) by (apply (option_sized k (TFloat64 quiet) b); [destruct quiet; cbn; lia|exact V]). exists 8%nat. now rewrite read_whole.
  - assert (S1 : sized 4 b) by (apply (option_sized k (TFloat32 quiet) b); [destruct quiet; cbn; lia|exact V]). exists 4%nat. now rewrite read_whole.
Qed.

Theorem raw_whole p t k b n : (p = 8%nat /\ msvc64 t) \/ (p = 4%nat /\ msvc32 t) -> valid (nest (S k) t) b -> raw p k t b = Some n ->
  b = le_encode (length b) n.
Proof.
  intros M V R. destruct (raw_sized p t k b n M V R) as (_ & s & _ & [_ B] & -> & _). symmetry. now apply le_encode_decode.
Qed.
Theorem raw_condition p t k b n : (p = 8%nat /\ msvc64 t) \/ (p = 4%nat /\ msvc32 t) -> valid (nest (S k) t) b -> raw p k t b = Some n ->
  (forall q, bare t = TFloat64 q -> k <> 1%nat) -> shown p k t b = Shows (existsb (N.eqb n) (marks k (bare t))).
Proof.
  intros M V R D. destruct (raw_sized p t k b n M V R) as (K & s & _ & S & -> & T). rewrite shown_bare. pose proof (read_whole s b S) as W.
  destruct S as [L _]. destruct (bare t) eqn:E; try contradiction; cbn [shown marks existsb]; rewrite (leb2 k K), orb_false_r.
  - rewrite T in L, W. unfold show_bool. rewrite test_in by lia. now rewrite W, N.eqb_sym.
  - destruct T as [T ->]. rewrite T in L, W. unfold show_wrapper. rewrite test_in by lia. now rewrite W, N.eqb_sym.
  - rewrite T in L, W. unfold show_double, both. rewrite (proj2 (Nat.eqb_neq k 1)) by (now apply (D quiet)). rewrite !test_in by lia. rewrite W.
    f_equal. f_equal; apply N.eqb_sym.
  - rewrite T in L, W. unfold show_float, both. rewrite !test_in by lia. rewrite W. f_equal. f_equal; apply N.eqb_sym.
Qed.
Theorem raw_double p q b n : valid (nest 2 (TFloat64 q)) b -> raw p 1 (TFloat64 q) b = Some n ->
  shown p 1 (TFloat64 q) b = Shows (n =? 0xFFF6C79F55B08990).
Proof.
  intros V R. assert (S : sized 8 b) by (apply (option_sized 1 (TFloat64 q) b); [reflexivity|exact V]).
  cbn in R. injection R as <-. cbn [shown]. change (1 <=? 2)%nat with true. cbv iota. unfold show_double, both.
  destruct S as [L B]. rewrite !test_in by (rewrite L; cbn; lia). cbn [Nat.eqb].
  assert (H : read_word 0 4 b < wbase 4) by (apply read_word_bound; [exact B|lia]). change (wbase 4) with 4294967296 in H.
  replace (qNaN64_start + N.of_nat 1 =? read_word 0 4 b) with false.
  - rewrite orb_false_r, N.eqb_sym. reflexivity.
  - symmetry. apply N.eqb_neq. unfold qNaN64_start. lia.
Qed.
