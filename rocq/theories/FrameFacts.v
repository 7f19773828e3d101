(** Storing a level changes only the bytes named by [touched]. *)
From Coq Require Import ZArith NArith List Bool Lia ZifyBool ZifyNat ZifyN.
From Verif Require Import Outcome Words WordsFacts Ints IntsFacts Types OptBytes TypesSpec EnumFacts TypesFacts OptBytesFacts.
Import ListNotations.
Open Scope N_scope.

Definition framed (regions : list (nat * nat)) (b b' : bytes) : Prop :=
  length b' = length b /\ forall i, outside i regions -> nth_error b' i = nth_error b i.

Lemma framed_refl r b : framed r b b.
Proof. split; auto. Qed.

Lemma framed_trans r b1 b2 b3 : framed r b1 b2 -> framed r b2 b3 -> framed r b1 b3.
Proof.
  intros [H1 H2] [H3 H4]. split; [congruence|]. intros i Hi. rewrite H4 by exact Hi. now apply H2.
Qed.

Lemma framed_splice off src b r : (off + length src <= length b)%nat -> In (off, length src) r ->
  framed r b (splice off src b).
Proof.
  intros Hl Hin. split; [now apply splice_length|]. intros i Hi. apply splice_frame; [exact Hl|].
  apply Hi. exact Hin.
Qed.

Lemma framed_write off w x b r : (off + w <= length b)%nat -> In (off, w) r ->
  framed r b (write_word off w x b).
Proof.
  intros Hl Hin. unfold write_word. apply framed_splice; rewrite le_encode_length; assumption.
Qed.

Lemma framed_shift off n r b s : (off + n <= length b)%nat -> framed r (slice off n b) s ->
  framed (map (fun '(a, k) => (off + a, k)%nat) r) b (splice off s b).
Proof.
  intros Hl [H1 H2]. assert (length (slice off n b) = n) as Hn by (apply slice_length; lia).
  rewrite Hn in H1. split; [apply splice_length; lia|]. intros i Hi.
  destruct (Nat.lt_ge_cases i off) as [Hlt|Hge]; [apply splice_frame; lia|].
  destruct (Nat.lt_ge_cases i (off + n)) as [Hin|Hout]; [|apply splice_frame; lia].
  assert (nth_error s (i - off) = nth_error (slice off n b) (i - off)) as E.
  { apply H2. intros o k Hk. specialize (Hi (off + o)%nat k).
    assert (In ((off + o)%nat, k) (map (fun '(a, k0) => ((off + a)%nat, k0)) r)) as HH
      by (apply in_map_iff; exists (o, k); auto). specialize (Hi HH). lia. }
  rewrite nth_error_splice by lia. rewrite nth_error_slice in E. destruct (Nat.ltb_spec (i - off) n); [|lia].
  replace (off + (i - off))%nat with i in E by lia.
  destruct (Nat.ltb_spec i off); [lia|]. destruct (Nat.ltb_spec i (off + length s)); [|lia]. exact E.
Qed.

Lemma framed_incl r r' b b' : incl r r' -> framed r b b' -> framed r' b b'.
Proof.
  intros Hi [H1 H2]. split; [exact H1|]. intros i Ho. apply H2. intros o n Hin. apply Ho. now apply Hi.
Qed.

Lemma frame_word w start max off l b b' r : word_set w start max off l b = Ok b' ->
  (off + w <= length b)%nat -> In (off, w) r -> framed r b b'.
Proof.
  unfold word_set, verify. destruct (l <? max); [|discriminate]. intros [= <-]. apply framed_write.
Qed.

Lemma frame_whole it x b : length b = iw it -> framed [(0%nat, iw it)] b (int_encode it x).
Proof.
  intros Hb. assert (length (int_encode it x) = iw it) as Hl by (unfold int_encode; apply le_encode_length).
  split; [congruence|]. intros i Hi. specialize (Hi 0%nat (iw it) (or_introl eq_refl)).
  rewrite !(proj2 (nth_error_None _ _)) by lia. reflexivity.
Qed.

Lemma frame_sub t off n l b b' :
  (forall c c', length c = sizeof t -> set_level t l c = Ok c' -> framed (touched t) c c') ->
  length b = n -> (off + sizeof t <= n)%nat ->
  sub_set (set_level t) off (sizeof t) l b = Ok b' ->
  framed (map (fun '(a, k) => (off + a, k)%nat) (touched t)) b b'.
Proof.
  intros IH Hb Ho. unfold sub_set. destruct (set_level t l (slice off (sizeof t) b)) as [s| |] eqn:E; try discriminate.
  cbn [rmap]. intros [= <-]. apply framed_shift with (n := sizeof t); [lia|].
  apply IH; [apply slice_length; lia|exact E].
Qed.

Lemma map_shift_0 (r : list (nat * nat)) : map (fun '(a, k) => (0 + a, k)%nat) r = r.
Proof. induction r as [|[a k] r IH]; cbn [map]; [reflexivity|]. now rewrite IH. Qed.

Lemma set_level_frame t : forall l b b', wf t -> length b = sizeof t -> set_level t l b = Ok b' ->
  framed (touched t) b b'.
Proof.
  induction t using ty_ind'; intros lv b b' Hw Hb; cbn [set_level touched wf sizeof] in *;
    try (intros E; eapply frame_word; [exact E|lia|now left]).
  - unfold no_set. discriminate.
  - (* string_view *)
    unfold sv_set, verify. destruct (lv <? 255); [|discriminate]. intros [= <-].
    unfold sv_size_off, sv_data_off. destruct d.
    + eapply framed_trans; apply framed_write; try rewrite write_word_length; cbn [In]; auto; lia.
    + eapply framed_trans; apply framed_write; try rewrite write_word_length; cbn [In]; auto; lia.
  - destruct Hw as (_ & _ & Ho). unfold padding_set, verify. destruct (lv <? padding_max w); [|discriminate]. intros [= <-].
    apply framed_write; [lia|now left].
  - unfold enum_set, verify. destruct (lv <? _); [|discriminate]. intros [= <-].
    apply framed_write; [lia|now left].
  - unfold enum_sent_set, verify. destruct (lv =? 0); [|discriminate]. intros [= <-]. now apply frame_whole.
  - unfold enum_range_set, verify. destruct (lv <? _); [|discriminate]. intros [= <-]. now apply frame_whole.
  - unfold enum_range_set, verify. destruct (lv <? _); [|discriminate]. intros [= <-]. now apply frame_whole.
  - unfold string_set, verify. destruct (lv <? 255); [|discriminate]. intros [= <-].
    assert (string_mark_offset p l + p <= length b /\ string_size_offset p l + p <= length b)%nat as [H1 H2].
    { rewrite Hb. destruct Hw as [-> | ->]; destruct l as [[]|[]|]; cbn; lia. }
    eapply framed_trans; apply framed_write; try rewrite write_word_length by lia; cbn [In]; auto; lia.
  - unfold sent_traits_set, verify. destruct (lv =? 0); [|discriminate]. intros [= <-]. now apply frame_whole.
  - unfold sentinel_set. destruct (sentinel_set_impl 0 l lv) as [x| |]; try discriminate.
    cbn [rmap]. intros [= <-]. now apply frame_whole.
  - unfold complex_set, verify. destruct (lv <? _); [|discriminate].
    destruct (set_level t lv (repeat 0 (sizeof t))) as [s| |] eqn:E; try discriminate. cbn [rmap]. intros [= <-].
    pose proof (IHt lv _ _ Hw (repeat_length 0 (sizeof t)) E) as [HL _]. rewrite repeat_length in HL.
    rewrite <- HL. apply framed_splice; [lia|now left].
  - destruct Hw as (_ & [Hw1 Ho1] & [Hw2 Ho2]). destruct (max_level t2 <? max_level t1); intros E.
    + eapply frame_sub; eauto.
    + eapply frame_sub; eauto.
  - (* tuple *)
    apply wf_tuple in Hw. destruct Hw as [_ Hw]. intros E.
    set (i := index_of_max (map (fun f => max_level (snd f)) fs)) in *.
    destruct (nth_error_dec fs i) as [[[o ft] Hi]|Hi].
    + rewrite (nth_map_Some _ fs i _ _ Hi). rewrite (nth_map_Some _ fs i _ _ Hi) in E.
      assert (In (o, ft) fs) as Hin by (eapply nth_error_In; eauto).
      rewrite Forall_forall in H, Hw. pose proof (H _ Hin) as IH. pose proof (Hw _ Hin) as [Hw1 Hw2].
      cbn [snd fst] in *. eapply frame_sub; eauto.
    + rewrite nth_overflow in E by (now rewrite map_length). discriminate.
  - destruct (Nat.eqb_spec n 0) as [->|Hn]; [discriminate|]. intros E.
    rewrite <- (map_shift_0 (touched t)). eapply frame_sub; eauto. destruct n; lia.
  - destruct Hw as (_ & Hw & Ho). intros E. eapply frame_sub; eauto.
  - destruct Hw as [Hw _]. eauto.
  - destruct Hw as [Hw _]. destruct (max_level t =? 0) eqn:Em.
    + intros E. unfold bool_set in E. eapply frame_word; [exact E| |now left].
      pose proof (sizeof_flagged t Hw ltac:(lia)) as Hs. cbn [sizeof] in Hs. rewrite Em in Hs. lia.
    + unfold avail_set. eauto.
  - unfold optref_set. intros [= <-]. apply framed_write; [lia|now left].
  - destruct Hw as (_ & _ & _ & _ & Hlen). intros E. apply Hlen in E. split; [exact E|].
    intros k Hk. specialize (Hk 0%nat n (or_introl eq_refl)).
    rewrite !(proj2 (nth_error_None _ _)) by lia. reflexivity.
Qed.

(** Lifted to the operations that empty an option. *)
Lemma opt_default_frame t b b' : wf (TOption t) -> length b = sizeof (TOption t) ->
  opt_default t b = Ok b' -> framed (touched (TOption t)) b b'.
Proof.
  intros [Hw Hl] Hb. unfold opt_default. cbn [touched].
  destruct (N.eqb_spec (max_level t) 0) as [E|E].
  - intros [= <-]. apply framed_write; [|now left]. pose proof (sizeof_flagged t Hw E). lia.
  - rewrite option_size_traits in Hb by exact E.
    destruct (set_level t 0 b) as [b1| |] eqn:E1; try discriminate. cbn [rbind].
    destruct (opt_has_value t b1) as [h| |]; try discriminate. cbn [rbind]. unfold verify.
    destruct (negb h); [|discriminate]. intros [= <-]. now apply (set_level_frame t 0).
Qed.

Lemma opt_reset_frame td t b b' : wf (TOption t) -> length b = sizeof (TOption t) ->
  opt_reset td t b = Ok b' -> framed (touched (TOption t)) b b'.
Proof.
  intros Hw Hb. destruct td; [now apply opt_default_frame|].
  unfold opt_reset. destruct (opt_has_value t b) as [h| |]; try discriminate. cbn [rbind]. destruct h.
  - now apply opt_default_frame.
  - intros [= <-]. apply framed_refl.
Qed.
