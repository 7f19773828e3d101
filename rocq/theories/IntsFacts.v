From Coq Require Import ZArith NArith List Bool Lia ZifyBool ZifyNat ZifyN.
From Verif Require Import Outcome Words WordsFacts Ints.
Import ListNotations.
Open Scope Z_scope.
Ltac Zify.zify_post_hook ::= Z.div_mod_to_equations.

Definition wf_width (w : nat) : Prop := w = 1%nat \/ w = 2%nat \/ w = 4%nat \/ w = 8%nat.

Lemma ibase_cases it : wf_width (iw it) ->
  (iw it = 1%nat /\ ibase it = 256) \/ (iw it = 2%nat /\ ibase it = 65536) \/
  (iw it = 4%nat /\ ibase it = 4294967296) \/ (iw it = 8%nat /\ ibase it = 18446744073709551616).
Proof.
  unfold ibase. intros [E|[E|[E|E]]]; rewrite E; [left|right;left|right;right;left|right;right;right]; split; reflexivity.
Qed.

Lemma in_ityb_spec it z : in_ityb it z = true <-> in_ity it z.
Proof. unfold in_ityb, in_ity. lia. Qed.

Lemma wrap_range it z : wf_width (iw it) -> in_ity it (wrap it z).
Proof.
  intros H. unfold in_ity, wrap, imin, imax.
  destruct (ibase_cases it H) as [[_ E]|[[_ E]|[[_ E]|[_ E]]]]; rewrite E; destruct (isg it); cbn [andb];
  match goal with
  | |- context [Z.ltb ?a ?b] => destruct (Z.ltb_spec a b); lia
  | |- _ => lia
  end.
Qed.

Lemma wrap_id it z : wf_width (iw it) -> in_ity it z -> wrap it z = z.
Proof.
  intros H. unfold in_ity, wrap, imin, imax.
  destruct (ibase_cases it H) as [[_ E]|[[_ E]|[[_ E]|[_ E]]]]; rewrite E; destruct (isg it); cbn [andb]; intros Hz;
  match goal with
  | |- context [Z.ltb ?a ?b] => destruct (Z.ltb_spec a b); lia
  | |- _ => lia
  end.
Qed.

Lemma wrap_mod it z : wf_width (iw it) -> wrap it (z mod ibase it) = wrap it z.
Proof.
  intros H. unfold wrap. rewrite Z.mod_mod; [reflexivity|].
  destruct (ibase_cases it H) as [[_ E]|[[_ E]|[[_ E]|[_ E]]]]; rewrite E; lia.
Qed.

Lemma ibase_pos it : 0 < ibase it.
Proof. unfold ibase. pose proof (wbase_pos (iw it)). lia. Qed.

Lemma int_decode_range it b : wf_width (iw it) -> in_ity it (int_decode it b).
Proof. intros H. apply wrap_range, H. Qed.

Lemma int_encode_length it z : length (int_encode it z) = iw it.
Proof. apply le_encode_length. Qed.

Lemma int_encode_bytes it z : is_bytes (int_encode it z).
Proof. apply le_encode_bytes. Qed.

Lemma int_decode_encode it z : wf_width (iw it) -> in_ity it z -> int_decode it (int_encode it z) = z.
Proof.
  intros H Hz. unfold int_decode, int_encode. rewrite le_decode_encode_small.
  - rewrite Z2N.id by (apply Z.mod_pos_bound, ibase_pos). rewrite wrap_mod by exact H. now apply wrap_id.
  - pose proof (Z.mod_pos_bound z (ibase it) (ibase_pos it)) as Hb. unfold ibase in *. lia.
Qed.

Lemma int_decode_encode_wrap it z : wf_width (iw it) -> int_decode it (int_encode it z) = wrap it z.
Proof.
  intros H. unfold int_decode, int_encode. rewrite le_decode_encode_small.
  - rewrite Z2N.id by (apply Z.mod_pos_bound, ibase_pos). apply wrap_mod, H.
  - pose proof (Z.mod_pos_bound z (ibase it) (ibase_pos it)) as Hb. unfold ibase in *. lia.
Qed.

Lemma z_to_umax_small z : 0 <= z < Z.of_N umax_base -> z_to_umax z = Z.to_N z.
Proof. intros H. unfold z_to_umax. now rewrite Z.mod_small. Qed.

Lemma z_to_umax_neg z : - Z.of_N umax_base <= z < 0 -> z_to_umax z = Z.to_N (z + Z.of_N umax_base).
Proof.
  intros H. unfold z_to_umax. f_equal. symmetry. apply Z.mod_unique with (q := -1); [|lia].
  unfold umax_base in *; lia.
Qed.

Lemma z_to_umax_bound z : (z_to_umax z < umax_base)%N.
Proof. unfold z_to_umax, umax_base. lia. Qed.
