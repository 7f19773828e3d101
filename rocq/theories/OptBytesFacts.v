(** Facts about options as object representations, for every well-formed type. *)
From Coq Require Import ZArith NArith List Bool Lia ZifyBool ZifyNat ZifyN.
From Verif Require Import Outcome Words WordsFacts Ints IntsFacts Types OptBytes TypesSpec EnumFacts TypesFacts.
Import ListNotations.
Open Scope N_scope.

Lemma read_write_bool off v b n : sized n b -> (off + 1 <= n)%nat ->
  read_bool off (write_bool off v b) = Ok v.
Proof.
  intros [Hl Hb] H. unfold read_bool, write_bool. rewrite read_write_word by lia.
  destruct v; reflexivity.
Qed.

Lemma sized_write_bool off v b n : sized n b -> (off + 1 <= n)%nat -> sized n (write_bool off v b).
Proof. intros H1 H2. now apply sized_write. Qed.

Lemma option_size_ge t : wf t -> (sizeof t <= sizeof (TOption t))%nat.
Proof.
  intros Hw. destruct (N.eqb_spec (max_level t) 0) as [E|E].
  - pose proof (sizeof_flagged t Hw E). lia.
  - cbn [sizeof]. apply N.eqb_neq in E. rewrite E. lia.
Qed.

Lemma option_size_traits t : max_level t <> 0 -> sizeof (TOption t) = sizeof t.
Proof. intros E. cbn [sizeof]. apply N.eqb_neq in E. now rewrite E. Qed.

(** Validity fixes the size. *)
Lemma valid_sized t b : valid t b -> sized (sizeof t) b.
Proof.
  revert b. induction t using ty_ind'; intros b Hv; try (exact (proj1 Hv)); try exact Hv.
  now apply IHt.
Qed.

(** The outcome of emptying. *)
Definition emptied (t : ty) (b' : bytes) : Prop :=
  valid (TOption t) b' /\ opt_has_value t b' = Ok false /\ decode (TOption t) b' = VNone.

Lemma emptied_intro t b' : sized (sizeof (TOption t)) b' -> opt_has_value t b' = Ok false -> emptied t b'.
Proof.
  intros Hs Hh. split; [|split].
  - cbn [valid]. auto.
  - exact Hh.
  - cbn [decode]. now rewrite Hh.
Qed.

Lemma opt_default_ok t b : wf (TOption t) -> sized (sizeof (TOption t)) b ->
  exists b', opt_default t b = Ok b' /\ emptied t b'.
Proof.
  intros [Hw Hl] Hb. pose proof (contract_all t Hw) as C. unfold opt_default.
  destruct (N.eqb_spec (max_level t) 0) as [E|E].
  - pose proof (sizeof_flagged t Hw E) as Hsz.
    eexists; split; [reflexivity|]. apply emptied_intro.
    + now apply sized_write_bool.
    + unfold opt_has_value. rewrite E. cbn [N.eqb]. now apply read_write_bool with (n := sizeof (TOption t)).
  - assert ((max_level t =? 0) = false) as E' by (now apply N.eqb_neq).
    rewrite option_size_traits in Hb by exact E.
    destruct (c_set t C 0 b ltac:(lia) Hb) as [b' [H1 [H2 H3]]].
    rewrite H1. cbn [rbind].
    assert (opt_has_value t b' = Ok false) as Hh.
    { unfold opt_has_value. rewrite E', H3. reflexivity. }
    rewrite Hh. cbn [rbind negb verify]. exists b'. split; [reflexivity|].
    apply emptied_intro; [now rewrite option_size_traits|exact Hh].
Qed.

Lemma opt_clear_eq t b : opt_reset true t b = opt_default t b.
Proof. reflexivity. Qed.

Lemma valid_has_value t b : valid (TOption t) b -> exists h, opt_has_value t b = Ok h.
Proof. cbn [valid]. intros [_ [H|[H _]]]; eauto. Qed.

Lemma opt_reset_ok td t b : wf (TOption t) -> sized (sizeof (TOption t)) b ->
  (td = false -> exists h, opt_has_value t b = Ok h) ->
  exists b', opt_reset td t b = Ok b' /\ emptied t b'.
Proof.
  intros Hw Hb Htd. destruct td.
  - now apply opt_default_ok.
  - destruct (Htd eq_refl) as [h Hh]. unfold opt_reset. rewrite Hh. cbn [rbind]. destruct h.
    + now apply opt_default_ok.
    + exists b. split; [reflexivity|now apply emptied_intro].
Qed.

(** The outcome of storing. *)
Definition holds (t : ty) (v b' : bytes) : Prop :=
  valid (TOption t) b' /\ opt_has_value t b' = Ok true /\ opt_get t b' = Ok v /\
  decode (TOption t) b' = VSome (decode t v).

Lemma holds_intro t v b' : wf t -> sized (sizeof (TOption t)) b' -> opt_has_value t b' = Ok true ->
  slice 0 (sizeof t) b' = v -> valid t v -> holds t v b'.
Proof.
  intros Hw Hs Hh Hv Hvv. split; [|split; [|split]].
  - cbn [valid]. split; [exact Hs|]. right. rewrite Hv. auto.
  - exact Hh.
  - unfold opt_get. rewrite Hh. cbn [rbind verify]. now rewrite Hv.
  - cbn [decode]. now rewrite Hh, Hv.
Qed.

(** A valid T makes the option read as engaged, whatever else is in the storage. *)
Lemma has_value_traits_valid t v b : wf t -> max_level t <> 0 -> valid t v ->
  sized (sizeof (TOption t)) b -> opt_has_value t (splice 0 v b) = Ok true.
Proof.
  intros Hw E Hv Hb. pose proof (contract_all t Hw) as C. unfold opt_has_value.
  apply N.eqb_neq in E as E'. rewrite E'. rewrite option_size_traits in Hb by exact E.
  rewrite splice_all by (rewrite (proj1 (valid_sized t v Hv)); symmetry; apply Hb).
  destruct (c_valid t C v ltac:(lia) Hv) as [l [H1 [H2 H3]]]. rewrite H1. cbn [rmap].
  destruct (N.eqb_spec l 0); [lia|reflexivity].
Qed.

Lemma opt_construct_ok t v b : wf (TOption t) -> valid t v -> sized (sizeof (TOption t)) b ->
  exists b', opt_construct t v b = Ok b' /\ holds t v b'.
Proof.
  intros [Hw Hl] Hv Hb. pose proof (valid_sized t v Hv) as Hvs. pose proof (option_size_ge t Hw) as Hge.
  assert (sized (sizeof (TOption t)) (splice 0 v b)) as Hsp by (now apply (sized_splice 0 (sizeof t))).
  unfold opt_construct. destruct (N.eqb_spec (max_level t) 0) as [E|E].
  - pose proof (sizeof_flagged t Hw E) as Hsz. eexists; split; [reflexivity|]. apply holds_intro; try assumption.
    + now apply sized_write_bool.
    + unfold opt_has_value. rewrite E. cbn [N.eqb]. now apply read_write_bool with (n := sizeof (TOption t)).
    + unfold write_bool, write_word. rewrite slice_splice_disjoint.
      * apply slice_splice_same; [symmetry; apply Hvs|lia].
      * rewrite le_encode_length. destruct Hsp; lia.
      * rewrite le_encode_length. lia.
  - assert (opt_has_value t (splice 0 v b) = Ok true) as Hh by (now apply has_value_traits_valid).
    rewrite Hh. cbn [rbind verify]. eexists; split; [reflexivity|]. apply holds_intro; try assumption.
    apply slice_splice_same; [symmetry; apply Hvs|lia].
Qed.

(** Overwriting the contained object of an engaged option with another valid object. *)
Lemma opt_put_ok t v b : wf (TOption t) -> valid t v -> sized (sizeof (TOption t)) b ->
  opt_has_value t b = Ok true -> holds t v (splice 0 v b).
Proof.
  intros [Hw Hl] Hv Hb Hh. pose proof (valid_sized t v Hv) as Hvs. pose proof (option_size_ge t Hw) as Hge.
  apply holds_intro; try assumption.
  - now apply (sized_splice 0 (sizeof t)).
  - destruct (N.eq_dec (max_level t) 0) as [E|E].
    + unfold opt_has_value in *. rewrite E in *. cbn [N.eqb] in *. unfold read_bool, read_word in *.
      pose proof (sizeof_flagged t Hw E) as Hsz.
      rewrite slice_splice_disjoint; [exact Hh|destruct Hb, Hvs; lia|destruct Hvs; lia].
    + now apply has_value_traits_valid.
  - apply slice_splice_same; [symmetry; apply Hvs|lia].
Qed.

Lemma opt_emplace_ok td t v b : wf (TOption t) -> valid t v -> sized (sizeof (TOption t)) b ->
  (td = false -> exists h, opt_has_value t b = Ok h) ->
  exists b', opt_emplace td t v b = Ok b' /\ holds t v b'.
Proof.
  intros Hw Hv Hb Htd. destruct (opt_reset_ok td t b Hw Hb Htd) as [b1 [H1 [H2 _]]].
  unfold opt_emplace. rewrite H1. cbn [rbind]. apply opt_construct_ok; try assumption. now apply valid_sized.
Qed.

Lemma opt_assign_value_ok sc t v b : wf (TOption t) -> valid t v -> valid (TOption t) b ->
  exists b', opt_assign_value sc t v b = Ok b' /\ holds t v b'.
Proof.
  intros Hw Hv Hb. pose proof (valid_sized _ b Hb) as Hs. unfold opt_assign_value. destruct sc.
  - now apply opt_construct_ok.
  - destruct (valid_has_value t b Hb) as [h Hh]. rewrite Hh. cbn [rbind]. destruct h.
    + pose proof (opt_put_ok t v b Hw Hv Hs Hh) as Hp. destruct Hp as (P1 & P2 & P3 & P4).
      rewrite P2. cbn [rbind verify]. eexists; split; [reflexivity|]. split; auto.
    + now apply opt_construct_ok.
Qed.

Lemma opt_try_emplace_ok t v b : wf (TOption t) -> valid t v -> valid (TOption t) b ->
  exists b', opt_try_emplace t v b = Ok b' /\
    (opt_has_value t b = Ok true -> b' = b) /\
    (opt_has_value t b = Ok false -> holds t v b').
Proof.
  intros Hw Hv Hb. pose proof (valid_sized _ b Hb) as Hs. unfold opt_try_emplace.
  destruct (valid_has_value t b Hb) as [h Hh]. rewrite Hh. cbn [rbind]. destruct h.
  - eexists; split; [reflexivity|]. split; [auto|discriminate].
  - destruct (opt_construct_ok t v b Hw Hv Hs) as [b' [H1 H2]].
    eexists; split; [exact H1|]. split; [discriminate|auto].
Qed.

(** What it means for two options to be in the same logical state. *)
Definition same_state (t : ty) (a b : bytes) : Prop :=
  valid (TOption t) b /\ opt_has_value t b = opt_has_value t a /\
  decode (TOption t) b = decode (TOption t) a /\
  (opt_has_value t a = Ok true -> slice 0 (sizeof t) b = slice 0 (sizeof t) a).

Lemma valid_engaged t b : valid (TOption t) b -> opt_has_value t b = Ok true ->
  valid t (slice 0 (sizeof t) b).
Proof. cbn [valid]. intros [_ [H|[_ H]]] Hh; [congruence|exact H]. Qed.

Lemma holds_same t a b : valid (TOption t) a -> opt_has_value t a = Ok true ->
  holds t (slice 0 (sizeof t) a) b -> same_state t a b.
Proof.
  intros Ha Hh (H1 & H2 & H3 & H4). split; [exact H1|]. split; [congruence|]. split.
  - rewrite H4. cbn [decode]. now rewrite Hh.
  - intros _. unfold opt_get in H3. rewrite H2 in H3. cbn [rbind verify] in H3. congruence.
Qed.

Lemma emptied_same t a b : opt_has_value t a = Ok false -> emptied t b -> same_state t a b.
Proof.
  intros Hh (H1 & H2 & H3). split; [exact H1|]. split; [congruence|]. split.
  - rewrite H3. cbn [decode]. now rewrite Hh.
  - intros E. congruence.
Qed.

Lemma opt_copy_ok t a junk : wf (TOption t) -> valid (TOption t) a -> sized (sizeof (TOption t)) junk ->
  exists b, opt_copy t a junk = Ok b /\ same_state t a b.
Proof.
  intros Hw Ha Hj. destruct (opt_default_ok t junk Hw Hj) as [j' [H1 H2]].
  unfold opt_copy. rewrite H1. cbn [rbind]. destruct (valid_has_value t a Ha) as [h Hh].
  rewrite Hh. cbn [rbind]. destruct h.
  - destruct (opt_construct_ok t (slice 0 (sizeof t) a) j' Hw) as [b [H3 H4]].
    + now apply valid_engaged.
    + apply valid_sized, H2.
    + exists b. split; [exact H3|]. now apply holds_same.
  - exists j'. split; [reflexivity|]. now apply emptied_same.
Qed.

Lemma opt_assign_ok td t a b : wf (TOption t) -> valid (TOption t) a -> valid (TOption t) b ->
  exists b', opt_assign td t a b = Ok b' /\ same_state t a b'.
Proof.
  intros Hw Ha Hb. pose proof (valid_sized _ b Hb) as Hs. unfold opt_assign.
  destruct (valid_has_value t a Ha) as [h Hh]. rewrite Hh. cbn [rbind].
  destruct (valid_has_value t b Hb) as [h2 Hh2]. destruct h.
  - rewrite Hh2. cbn [rbind]. pose proof (valid_engaged t a Ha Hh) as Hv. destruct h2.
    + eexists; split; [reflexivity|]. apply holds_same; try assumption. now apply opt_put_ok.
    + destruct (opt_construct_ok t _ b Hw Hv Hs) as [b' [H3 H4]].
      eexists; split; [exact H3|]. now apply holds_same.
  - destruct (opt_reset_ok td t b Hw Hs) as [b' [H1 H2]]; [intros; eauto|].
    eexists; split; [exact H1|]. now apply emptied_same.
Qed.

Lemma opt_take_ok td t b fresh : wf (TOption t) -> valid (TOption t) b -> sized (sizeof (TOption t)) fresh ->
  exists r b', opt_take td t b fresh = Ok (r, b') /\ same_state t b r /\ emptied t b'.
Proof.
  intros Hw Hb Hf. destruct (opt_copy_ok t b fresh Hw Hb Hf) as [r [H1 H2]].
  destruct (opt_reset_ok td t b Hw (valid_sized _ b Hb)) as [b' [H3 H4]].
  { intros _. now apply valid_has_value. }
  unfold opt_take. rewrite H1. cbn [rbind]. rewrite H3. cbn [rbind]. eauto.
Qed.

Lemma opt_swap_ok td t a b : wf (TOption t) -> valid (TOption t) a -> valid (TOption t) b ->
  exists a' b', opt_swap td t a b = Ok (a', b') /\ same_state t b a' /\ same_state t a b'.
Proof.
  intros Hw Ha Hb. pose proof (valid_sized _ a Ha) as Hsa. pose proof (valid_sized _ b Hb) as Hsb.
  destruct (valid_has_value t a Ha) as [ha Hha]. destruct (valid_has_value t b Hb) as [hb Hhb].
  unfold opt_swap. rewrite Hha, Hhb. cbn [rbind]. destruct ha, hb; cbn [negb andb].
  - do 2 eexists. split; [reflexivity|]. split.
    + apply holds_same; try assumption. apply opt_put_ok; try assumption. now apply valid_engaged.
    + apply holds_same; try assumption. apply opt_put_ok; try assumption. now apply valid_engaged.
  - destruct (opt_construct_ok t (slice 0 (sizeof t) a) b Hw (valid_engaged t a Ha Hha) Hsb) as [b' [H1 H2]].
    destruct (opt_reset_ok td t a Hw Hsa) as [a' [H3 H4]]; [eauto|].
    rewrite H1. cbn [rbind]. rewrite H3. cbn [rbind]. do 2 eexists. split; [reflexivity|]. split.
    + now apply emptied_same.
    + now apply holds_same.
  - destruct (opt_construct_ok t (slice 0 (sizeof t) b) a Hw (valid_engaged t b Hb Hhb) Hsa) as [a' [H1 H2]].
    destruct (opt_reset_ok td t b Hw Hsb) as [b' [H3 H4]]; [eauto|].
    rewrite H1. cbn [rbind]. rewrite H3. cbn [rbind]. do 2 eexists. split; [reflexivity|]. split.
    + now apply holds_same.
    + now apply emptied_same.
  - do 2 eexists. split; [reflexivity|]. split; apply emptied_same; try assumption; now apply emptied_intro.
Qed.

(** * Nested options *)
Lemma wf_nest_le n t : wf (nest (S n) t) -> wf (nest n t).
Proof. cbn [nest wf]. tauto. Qed.

Lemma build_ok n t k v junk : wf (nest n t) -> (k <= n)%nat -> valid t v -> sized (sizeof (nest n t)) junk ->
  exists b, build n t k v junk = Ok b /\ valid (nest n t) b /\
    decode (nest n t) b = somes k (if (k =? n)%nat then decode t v else VNone).
Proof.
  revert k junk. induction n as [|n IH]; intros k junk Hw Hk Hv Hj; cbn [nest] in *.
  - assert (k = 0%nat) as -> by lia. cbn [build Nat.eqb somes]. eauto.
  - destruct k as [|k]; cbn [build].
    + destruct (opt_default_ok (nest n t) junk Hw Hj) as [b [H1 [H2 [_ H3]]]]. exists b.
      split; [exact H1|]. split; [exact H2|]. exact H3.
    + destruct Hw as [Hw Hl]. pose proof (option_size_ge (nest n t) Hw) as Hge.
      destruct (IH k (slice 0 (sizeof (nest n t)) junk) Hw ltac:(lia) Hv) as [x [H1 [H2 H3]]].
      { apply (sized_slice 0 _ (sizeof (TOption (nest n t)))); [exact Hj|lia]. }
      rewrite H1. cbn [rbind].
      destruct (opt_construct_ok (nest n t) x junk (conj Hw Hl) H2 Hj) as [b [H4 (H5 & _ & _ & H6)]].
      exists b. split; [exact H4|]. split; [exact H5|]. rewrite H6, H3. reflexivity.
Qed.

(** Replacing the object k layers down by another valid object of its type. *)
Lemma update_at_ok k n t f b x : wf (nest (k + n) t) -> valid (nest (k + n) t) b ->
  decode (nest (k + n) t) b = somes k x ->
  (forall c, valid (nest n t) c -> decode (nest n t) c = x ->
     exists c', f c = Ok c' /\ valid (nest n t) c') ->
  exists c c' b', valid (nest n t) c /\ decode (nest n t) c = x /\ f c = Ok c' /\
    update_at k (nest (k + n) t) f b = Ok b' /\ valid (nest (k + n) t) b' /\
    decode (nest (k + n) t) b' = somes k (decode (nest n t) c').
Proof.
  revert b. induction k as [|k IH]; intros b Hw Hb Hd Hf.
  - cbn [Nat.add somes update_at] in *. destruct (Hf b Hb Hd) as [c' [H1 H2]].
    exists b, c', c'. auto 10.
  - cbn [Nat.add nest somes] in *. set (u := nest (k + n) t) in *.
    pose proof (valid_sized _ b Hb) as Hs.
    cbn [decode] in Hd. destruct (opt_has_value u b) as [[|]| |] eqn:Hh; try discriminate.
    injection Hd as Hd. pose proof (valid_engaged u b Hb Hh) as Hi.
    destruct (IH _ (proj1 Hw) Hi Hd Hf) as (c & c' & w & H1 & H2 & H3 & H4 & H5 & H6).
    exists c, c', (splice 0 w b). split; [exact H1|]. split; [exact H2|]. split; [exact H3|].
    cbn [update_at]. rewrite Hh. cbn [rbind verify]. fold u. rewrite H4. cbn [rmap].
    destruct (opt_put_ok u w b Hw H5 Hs Hh) as (P1 & P2 & P3 & P4).
    split; [reflexivity|]. split; [exact P1|]. rewrite P4. now rewrite H6.
Qed.

(** Byte-wise copies: the logical state is a function of the bytes of the object. *)
Lemma bytewise_copy t src dst : sized (sizeof t) src -> sized (sizeof t) dst ->
  splice 0 src dst = src.
Proof. intros [H1 _] [H2 _]. apply splice_all. congruence. Qed.

(** * Sizes *)
Lemma align_divides t : wf t -> Nat.divide (alignof t) (sizeof t).
Proof.
  induction t using ty_ind'; cbn [wf alignof sizeof]; intros Hw; try (exists 1%nat; lia).
  - apply Hw.
  - apply Hw.
  - exists 2%nat; lia.
  - apply Hw.
  - apply Hw.
  - destruct Hw as [->| ->]; destruct l as [[]|[]|]; cbn;
      first [exists 3%nat; reflexivity|exists 4%nat; reflexivity|exists 5%nat; reflexivity
            |exists 6%nat; reflexivity|exists 7%nat; reflexivity].
  - exists 3%nat; lia.
  - apply Nat.divide_mul_r. auto.
  - apply Hw.
  - apply Hw.
  - destruct (n =? 0)%nat; [exists 1%nat; lia|]. apply Nat.divide_mul_r. auto.
  - apply Hw.
  - apply IHt, Hw.
  - destruct (max_level t =? 0); [|apply IHt, Hw]. unfold round_up. exists ((sizeof t + 1 + alignof t - 1) / alignof t)%nat. reflexivity.
  - apply Hw.
Qed.

Lemma flagged_size t : wf t -> max_level t = 0 -> sizeof (TOption t) = (sizeof t + alignof t)%nat.
Proof.
  intros Hw E. cbn [sizeof]. rewrite E. cbn [N.eqb]. pose proof (wf_align t Hw) as Ha.
  destruct (align_divides t Hw) as [q ->]. set (a := alignof t) in *. unfold round_up.
  replace (q * a + 1 + a - 1)%nat with (0 + (q + 1) * a)%nat by lia.
  rewrite Nat.div_add by lia. rewrite Nat.div_small by lia. lia.
Qed.

(** Number of flags in a k-fold nested option over a type with m levels. *)
Definition flags (m : N) (k : nat) : N := (N.of_nat k - m + 254) / 255.

Lemma nest_max_level t k : max_level (nest k t) =
  if (N.of_nat k <=? max_level t) then max_level t - N.of_nat k
  else 254 - (N.of_nat k - max_level t - 1) mod 255.
Proof.
  induction k as [|k IH]; cbn [nest].
  - destruct (N.leb_spec (N.of_nat 0) (max_level t)); lia.
  - cbn [max_level]. rewrite IH.
    destruct (N.leb_spec (N.of_nat k) (max_level t)) as [H|H];
    destruct (N.leb_spec (N.of_nat (S k)) (max_level t)) as [H'|H']; try lia.
    + destruct (N.eqb_spec (max_level t - N.of_nat k) 0); lia.
    + replace (max_level t) with (N.of_nat k) in * by lia.
      rewrite N.sub_diag. cbn [N.eqb]. replace (N.of_nat (S k) - N.of_nat k - 1) with 0 by lia. reflexivity.
    + set (d := N.of_nat k - max_level t - 1).
      replace (N.of_nat (S k) - max_level t - 1) with (d + 1) by lia.
      pose proof (N.mod_lt d 255 ltac:(lia)) as Hm.
      destruct (N.eqb_spec (254 - d mod 255) 0) as [E|E].
      * assert (d mod 255 = 254) as E2 by lia.
        rewrite <- N.add_mod_idemp_l by lia. rewrite E2. reflexivity.
      * rewrite <- (N.add_mod_idemp_l d) by lia. rewrite (N.mod_small (d mod 255 + 1)) by lia. lia.
Qed.

Lemma nest_align t k : alignof (nest k t) = alignof t.
Proof. induction k as [|k IH]; cbn [nest alignof]; auto. Qed.

Lemma nest_size t k : wf (nest k t) ->
  sizeof (nest k t) = (sizeof t + alignof t * N.to_nat (flags (max_level t) k))%nat.
Proof.
  unfold flags. induction k as [|k IH]; intros Hw.
  - cbn [nest]. replace (N.of_nat 0 - max_level t + 254) with 254 by lia.
    change (N.to_nat (254 / 255)) with 0%nat. lia.
  - specialize (IH (wf_nest_le k t Hw)). pose proof (nest_max_level t k) as Hm.
    cbn [nest]. destruct (N.eq_dec (max_level (nest k t)) 0) as [E|E].
    + rewrite flagged_size by (try exact E; apply (wf_nest_le k t Hw)). rewrite IH, nest_align.
      rewrite E in Hm.
      enough ((N.of_nat (S k) - max_level t + 254) / 255 = (N.of_nat k - max_level t + 254) / 255 + 1) as ->
        by (rewrite N2Nat.inj_add; change (N.to_nat 1) with 1%nat; lia).
      revert Hm; destruct (N.leb_spec (N.of_nat k) (max_level t)) as [H|H]; intros Hm.
      * replace (N.of_nat k - max_level t + 254) with 254 by lia.
        replace (N.of_nat (S k) - max_level t + 254) with 255 by lia. reflexivity.
      * set (d := N.of_nat k - max_level t - 1) in *.
        pose proof (N.mod_lt d 255 ltac:(lia)) as Hlt. assert (d mod 255 = 254) as E2 by lia.
        pose proof (N.div_mod d 255 ltac:(lia)) as Hdm. rewrite E2 in Hdm.
        replace (N.of_nat k - max_level t + 254) with ((d / 255 + 1) * 255 + 254) by lia.
        replace (N.of_nat (S k) - max_level t + 254) with ((d / 255 + 2) * 255 + 0) by lia.
        rewrite !N.div_add_l by lia. change (254 / 255) with 0. change (0 / 255) with 0. lia.
    + rewrite option_size_traits by exact E. rewrite IH.
      enough ((N.of_nat (S k) - max_level t + 254) / 255 = (N.of_nat k - max_level t + 254) / 255) as -> by reflexivity.
      revert Hm; destruct (N.leb_spec (N.of_nat k) (max_level t)) as [H|H]; intros Hm.
      * replace (N.of_nat k - max_level t + 254) with 254 by lia.
        replace (N.of_nat (S k) - max_level t + 254) with 254 by lia. reflexivity.
      * set (d := N.of_nat k - max_level t - 1) in *.
        pose proof (N.mod_lt d 255 ltac:(lia)) as Hlt.
        pose proof (N.div_mod d 255 ltac:(lia)) as Hdm.
        replace (N.of_nat k - max_level t + 254) with ((d / 255 + 1) * 255 + d mod 255) by lia.
        replace (N.of_nat (S k) - max_level t + 254) with ((d / 255 + 1) * 255 + (d mod 255 + 1)) by lia.
        rewrite !N.div_add_l by lia. rewrite (N.div_small (d mod 255)), (N.div_small (d mod 255 + 1)) by lia. reflexivity.
Qed.
