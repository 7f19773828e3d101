From Coq Require Import ZArith NArith List Lia ZifyBool ZifyNat ZifyN.
From Verif Require Import Words.
Import ListNotations.
Open Scope N_scope.
Ltac Zify.zify_post_hook ::= Z.div_mod_to_equations.

Arguments N.add : simpl never.
Arguments N.mul : simpl never.
Arguments N.sub : simpl never.
Arguments N.modulo : simpl never.
Arguments N.div : simpl never.
Arguments N.pow : simpl never.

Lemma wbase_S n : wbase (S n) = 256 * wbase n.
Proof. unfold wbase. rewrite Nat2N.inj_succ, N.pow_succ_r'. reflexivity. Qed.

Lemma wbase_pos n : 0 < wbase n.
Proof. unfold wbase. apply N.neq_0_lt_0, N.pow_nonzero. discriminate. Qed.

Lemma wbase_1 : wbase 1 = 256.  Proof. reflexivity. Qed.
Lemma wbase_4 : wbase 4 = 4294967296.  Proof. reflexivity. Qed.
Lemma wbase_8 : wbase 8 = umax_base.  Proof. reflexivity. Qed.

Lemma le_encode_length n x : length (le_encode n x) = n.
Proof. revert x; induction n as [|n IH]; intros x; cbn [le_encode length]; [reflexivity|]. now rewrite IH. Qed.

Lemma le_encode_bytes n x : is_bytes (le_encode n x).
Proof.
  revert x; induction n as [|n IH]; intros x; cbn [le_encode]; constructor; [|apply IH].
  apply N.mod_lt; discriminate.
Qed.

Lemma le_decode_encode n x : le_decode (le_encode n x) = x mod wbase n.
Proof.
  revert x; induction n as [|n IH]; intros x; cbn [le_encode le_decode].
  - unfold wbase; change (256 ^ N.of_nat 0) with 1. now rewrite N.mod_1_r.
  - rewrite IH, wbase_S. rewrite N.mod_mul_r; [reflexivity| discriminate | pose proof (wbase_pos n); lia].
Qed.

Lemma le_decode_encode_small n x : x < wbase n -> le_decode (le_encode n x) = x.
Proof. intros H. rewrite le_decode_encode. apply N.mod_small; exact H. Qed.

Lemma le_decode_bound b : is_bytes b -> le_decode b < wbase (length b).
Proof.
  induction 1 as [|x r Hx Hr IH]; cbn [le_decode length].
  - reflexivity.
  - rewrite wbase_S. lia.
Qed.

Lemma le_encode_decode b : is_bytes b -> le_encode (length b) (le_decode b) = b.
Proof.
  induction 1 as [|x r Hx Hr IH]; cbn [le_decode length le_encode]; [reflexivity|].
  f_equal.
  - rewrite N.mul_comm, N.mod_add by discriminate. apply N.mod_small; exact Hx.
  - rewrite N.mul_comm, N.div_add by discriminate. rewrite N.div_small by exact Hx.
    rewrite N.add_0_l. exact IH.
Qed.

Lemma le_decode_inj a b : is_bytes a -> is_bytes b -> length a = length b ->
  le_decode a = le_decode b -> a = b.
Proof.
  intros Ha Hb Hl He. rewrite <- (le_encode_decode a Ha), <- (le_encode_decode b Hb), He, Hl. reflexivity.
Qed.

(** slice / splice *)
Lemma splice_length off src b : (off + length src <= length b)%nat -> length (splice off src b) = length b.
Proof.
  intros H. unfold splice. rewrite !app_length, firstn_length, skipn_length. lia.
Qed.

Lemma slice_length off len b : (off + len <= length b)%nat -> length (slice off len b) = len.
Proof. intros H. unfold slice. rewrite firstn_length, skipn_length. lia. Qed.

Lemma slice_bytes off len b : is_bytes b -> is_bytes (slice off len b).
Proof.
  intros H. unfold slice, is_bytes in *. rewrite Forall_forall in *. intros x Hx.
  apply H. rewrite <- (firstn_skipn off b). apply in_or_app; right.
  rewrite <- (firstn_skipn len (skipn off b)). apply in_or_app; left; exact Hx.
Qed.

Lemma Forall_firstn' {A} (P : A -> Prop) n l : Forall P l -> Forall P (firstn n l).
Proof. intros H. rewrite <- (firstn_skipn n l) in H. now apply Forall_app in H. Qed.
Lemma Forall_skipn' {A} (P : A -> Prop) n l : Forall P l -> Forall P (skipn n l).
Proof. intros H. rewrite <- (firstn_skipn n l) in H. now apply Forall_app in H. Qed.

Lemma splice_bytes off src b : is_bytes src -> is_bytes b -> is_bytes (splice off src b).
Proof.
  intros Hs Hb. unfold splice, is_bytes in *. apply Forall_app; split; [now apply Forall_firstn'|].
  apply Forall_app; split; [exact Hs|now apply Forall_skipn'].
Qed.

Lemma slice_splice_same off src b n : n = length src -> (off <= length b)%nat ->
  slice off n (splice off src b) = src.
Proof.
  intros -> H. unfold slice, splice.
  rewrite skipn_app. rewrite skipn_all2 by (rewrite firstn_length; lia).
  rewrite firstn_length. replace (off - Nat.min off (length b))%nat with 0%nat by lia.
  cbn [skipn app]. rewrite firstn_app, Nat.sub_diag, firstn_all. cbn [firstn]. apply app_nil_r.
Qed.

Lemma nth_error_ext {A} (l l' : list A) : (forall i, nth_error l i = nth_error l' i) -> l = l'.
Proof.
  revert l'; induction l as [|x l IH]; intros [|y l'] H.
  - reflexivity.
  - specialize (H 0%nat); discriminate.
  - specialize (H 0%nat); discriminate.
  - f_equal.
    + specialize (H 0%nat); cbn in H; congruence.
    + apply IH. intros i. exact (H (S i)).
Qed.

Lemma nth_error_firstn {A} n (l : list A) i : (i < n)%nat -> nth_error (firstn n l) i = nth_error l i.
Proof.
  revert l i; induction n as [|n IH]; intros [|x l] [|i] H; cbn; try reflexivity; try lia.
  apply IH; lia.
Qed.
Lemma nth_error_firstn_ge {A} n (l : list A) i : (n <= i)%nat -> nth_error (firstn n l) i = None.
Proof. intros H. apply nth_error_None. rewrite firstn_length. lia. Qed.
Lemma nth_error_skipn {A} n (l : list A) i : nth_error (skipn n l) i = nth_error l (n + i).
Proof.
  revert l; induction n as [|n IH]; intros [|x l]; cbn; try reflexivity.
  - now destruct i.
  - apply IH.
Qed.

Lemma nth_error_slice off len b i :
  nth_error (slice off len b) i = if (i <? len)%nat then nth_error b (off + i) else None.
Proof.
  unfold slice. destruct (Nat.ltb_spec i len) as [H|H].
  - rewrite nth_error_firstn by exact H. apply nth_error_skipn.
  - now apply nth_error_firstn_ge.
Qed.

Lemma nth_error_splice off src b i : (off + length src <= length b)%nat ->
  nth_error (splice off src b) i =
  if (i <? off)%nat then nth_error b i
  else if (i <? off + length src)%nat then nth_error src (i - off)
  else nth_error b i.
Proof.
  intros H. unfold splice. destruct (Nat.ltb_spec i off) as [H1|H1].
  - rewrite nth_error_app1 by (rewrite firstn_length; lia). now apply nth_error_firstn.
  - rewrite nth_error_app2 by (rewrite firstn_length; lia). rewrite firstn_length.
    replace (Nat.min off (length b)) with off by lia.
    destruct (Nat.ltb_spec i (off + length src)) as [H2|H2].
    + apply nth_error_app1. lia.
    + rewrite nth_error_app2 by lia. rewrite nth_error_skipn. f_equal. lia.
Qed.

Lemma splice_frame off src b i : (off + length src <= length b)%nat ->
  (i < off \/ off + length src <= i)%nat -> nth_error (splice off src b) i = nth_error b i.
Proof.
  intros H Hi. rewrite nth_error_splice by exact H.
  destruct (Nat.ltb_spec i off); [reflexivity|].
  destruct (Nat.ltb_spec i (off + length src)); [lia|reflexivity].
Qed.

Lemma slice_splice_disjoint off src b o n : (off + length src <= length b)%nat ->
  (o + n <= off \/ off + length src <= o)%nat -> slice o n (splice off src b) = slice o n b.
Proof.
  intros H Hd. apply nth_error_ext. intros i. rewrite !nth_error_slice.
  destruct (Nat.ltb_spec i n); [|reflexivity]. apply splice_frame; [exact H|lia].
Qed.

Lemma slice_slice o1 n1 o2 n2 b : (o2 + n2 <= n1)%nat ->
  slice o2 n2 (slice o1 n1 b) = slice (o1 + o2) n2 b.
Proof.
  intros H. apply nth_error_ext. intros i. rewrite !nth_error_slice.
  destruct (Nat.ltb_spec i n2); [|reflexivity].
  destruct (Nat.ltb_spec (o2 + i) n1); [|lia]. f_equal. lia.
Qed.

Lemma slice_all b n : n = length b -> slice 0 n b = b.
Proof. intros ->. unfold slice. cbn [skipn]. apply firstn_all. Qed.

Lemma splice_slice_id off n b : (off + n <= length b)%nat -> splice off (slice off n b) b = b.
Proof.
  intros H. apply nth_error_ext. intros i. rewrite nth_error_splice; rewrite slice_length by exact H; [|exact H].
  destruct (Nat.ltb_spec i off); [reflexivity|].
  destruct (Nat.ltb_spec i (off + n)); [|reflexivity].
  rewrite nth_error_slice. destruct (Nat.ltb_spec (i - off) n); [|lia]. f_equal. lia.
Qed.

Lemma splice_all src b : length src = length b -> splice 0 src b = src.
Proof.
  intros H. unfold splice. cbn [firstn app Nat.add]. rewrite H, skipn_all. apply app_nil_r.
Qed.

Lemma splice_splice_same off s1 s2 b : length s1 = length s2 -> (off + length s1 <= length b)%nat ->
  splice off s2 (splice off s1 b) = splice off s2 b.
Proof.
  intros Hl H. apply nth_error_ext. intros i.
  rewrite (nth_error_splice off s2 (splice off s1 b)) by (rewrite splice_length; lia).
  rewrite (nth_error_splice off s2 b) by lia.
  destruct (Nat.ltb_spec i off); [apply splice_frame; lia|].
  destruct (Nat.ltb_spec i (off + length s2)); [reflexivity|]. apply splice_frame; lia.
Qed.

(** Words *)
Lemma read_word_bound off n b : is_bytes b -> (off + n <= length b)%nat -> read_word off n b < wbase n.
Proof.
  intros Hb H. unfold read_word. rewrite <- (slice_length off n b H) at 2.
  apply le_decode_bound. now apply slice_bytes.
Qed.

Lemma read_write_word off n x b : (off + n <= length b)%nat ->
  read_word off n (write_word off n x b) = x mod wbase n.
Proof.
  intros H. unfold read_word, write_word. rewrite slice_splice_same.
  - apply le_decode_encode.
  - now rewrite le_encode_length.
  - lia.
Qed.

Lemma write_word_length off n x b : (off + n <= length b)%nat -> length (write_word off n x b) = length b.
Proof. intros H. unfold write_word. apply splice_length. rewrite le_encode_length. exact H. Qed.

Lemma write_word_bytes off n x b : is_bytes b -> is_bytes (write_word off n x b).
Proof. intros H. apply splice_bytes; [apply le_encode_bytes|exact H]. Qed.

Lemma write_word_frame off n x b i : (off + n <= length b)%nat ->
  (i < off \/ off + n <= i)%nat -> nth_error (write_word off n x b) i = nth_error b i.
Proof.
  intros H Hi. unfold write_word. apply splice_frame; rewrite le_encode_length; lia.
Qed.

Lemma read_write_disjoint off n x b o m : (off + n <= length b)%nat ->
  (o + m <= off \/ off + n <= o)%nat -> read_word o m (write_word off n x b) = read_word o m b.
Proof.
  intros H Hd. unfold read_word, write_word. f_equal.
  apply slice_splice_disjoint; rewrite le_encode_length; lia.
Qed.

(** wsub facts *)
Lemma wsub_ge base a b : 0 < base -> b <= a -> a < base -> wsub base a b = a - b.
Proof.
  intros H1 H2 H3. unfold wsub. rewrite (N.mod_small b base) by lia.
  replace (a + (base - b)) with ((a - b) + 1 * base) by lia.
  rewrite N.mod_add by lia. apply N.mod_small. lia.
Qed.

Lemma wsub_lt base a b : a < b -> b < base -> wsub base a b = base - (b - a).
Proof.
  intros H2 H3. unfold wsub. rewrite (N.mod_small b base) by lia.
  rewrite N.mod_small by lia. lia.
Qed.

Lemma wsub_bound base a b : 0 < base -> wsub base a b < base.
Proof. intros H. unfold wsub. apply N.mod_lt. lia. Qed.

Lemma wsub_wadd base start l : 0 < base -> start < base -> l < base -> wsub base ((start + l) mod base) start = l.
Proof.
  intros H0 H1 H2. unfold wsub. rewrite (N.mod_small start base) by exact H1.
  rewrite N.add_mod_idemp_l by lia.
  replace (start + l + (base - start)) with (l + 1 * base) by lia.
  rewrite N.mod_add by lia. now apply N.mod_small.
Qed.
