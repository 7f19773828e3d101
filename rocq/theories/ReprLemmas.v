(** Lemmas in the exact shape of the statements of PropertiesRepr.v. *)
From Coq Require Import ZArith NArith List Bool Lia ZifyBool ZifyNat ZifyN.
From Verif Require Import Outcome Words WordsFacts Ints IntsFacts Types OptBytes TypesSpec EnumFacts TypesFacts
  OptBytesFacts FrameFacts CustomTraits TraitFacts FindingsFacts.
Import ListNotations.
Open Scope N_scope.

Lemma l_C01 t td b : wf (TOption t) -> sized (sizeof (TOption t)) b ->
  (exists b', opt_default t b = Ok b' /\ opt_has_value t b' = Ok false /\
              decode (TOption t) b' = VNone /\ valid (TOption t) b') /\
  (valid (TOption t) b ->
   exists b', opt_reset td t b = Ok b' /\ opt_has_value t b' = Ok false /\
              decode (TOption t) b' = VNone /\ valid (TOption t) b').
Proof.
  intros Hw Hb. split.
  - destruct (opt_default_ok t b Hw Hb) as (b' & H & H1 & H2 & H3). eauto 6.
  - intros Hv. destruct (opt_reset_ok td t b Hw Hb) as (b' & H & H1 & H2 & H3).
    + intros _. now apply valid_has_value.
    + eauto 6.
Qed.

Lemma l_C02 t td sc v b : wf (TOption t) -> valid t v -> sized (sizeof (TOption t)) b ->
  let stored (r : res bytes) := exists b', r = Ok b' /\ opt_has_value t b' = Ok true /\
     opt_get t b' = Ok v /\ decode (TOption t) b' = VSome (decode t v) /\ valid (TOption t) b' in
  stored (opt_construct t v b) /\
  (valid (TOption t) b ->
     stored (opt_emplace td t v b) /\ stored (opt_assign_value sc t v b) /\
     (opt_has_value t b = Ok false -> stored (opt_try_emplace t v b)) /\
     (opt_has_value t b = Ok true -> opt_try_emplace t v b = Ok b)).
Proof.
  intros Hw Hv Hb stored.
  assert (forall r, (exists b', r = Ok b' /\ holds t v b') -> stored r) as G.
  { intros r (b' & -> & H1 & H2 & H3 & H4). exists b'. auto 6. }
  split; [apply G; now apply opt_construct_ok|]. intros Hvb. split; [|split; [|split]].
  - apply G, opt_emplace_ok; try assumption. intros _. now apply valid_has_value.
  - apply G. now apply opt_assign_value_ok.
  - intros Hh. apply G. destruct (opt_try_emplace_ok t v b Hw Hv Hvb) as (b' & H1 & _ & H2). eauto.
  - intros Hh. destruct (opt_try_emplace_ok t v b Hw Hv Hvb) as (b' & H1 & H2 & _). rewrite H1. f_equal. auto.
Qed.

Lemma somes_none_inj j k : somes j VNone = somes k VNone -> j = k.
Proof.
  revert k. induction j as [|j IH]; intros [|k] H; cbn in H; try discriminate; [reflexivity|].
  injection H as H. f_equal. now apply IH.
Qed.

Lemma l_C03_build n t k v junk : wf (nest n t) -> (k <= n)%nat -> valid t v -> sized (sizeof (nest n t)) junk ->
  exists b, build n t k v junk = Ok b /\ valid (nest n t) b /\
    decode (nest n t) b = somes k (if (k =? n)%nat then decode t v else VNone).
Proof. apply build_ok. Qed.

(** [x] has no option at its top: it is the contents of an innermost value. *)
Definition not_option (x : val) : Prop := x <> VNone /\ forall y, x <> VSome y.

Lemma somes_distinct j k x : not_option x -> (j < k)%nat -> somes j VNone <> somes k x.
Proof.
  intros [Hx1 Hx2]. revert k. induction j as [|j IH]; intros k Hk H; destruct k as [|k]; try lia; cbn in H.
  - discriminate.
  - injection H as H. apply (IH k); [lia|exact H].
Qed.

Lemma l_C03_distinct n t j k v w junk junk' bj bk :
  wf (nest n t) -> (j < k <= n)%nat -> valid t v -> valid t w -> not_option (decode t w) ->
  sized (sizeof (nest n t)) junk -> sized (sizeof (nest n t)) junk' ->
  build n t j v junk = Ok bj -> build n t k w junk' = Ok bk -> bj <> bk.
Proof.
  intros Hw Hk Hv Hv' Hx Hj Hj' H1 H2 ->.
  destruct (build_ok n t j v junk Hw ltac:(lia) Hv Hj) as (b1 & E1 & _ & D1).
  destruct (build_ok n t k w junk' Hw ltac:(lia) Hv' Hj') as (b2 & E2 & _ & D2).
  assert (b1 = bk) as -> by congruence. assert (b2 = bk) as -> by congruence.
  rewrite D1 in D2. destruct (Nat.eqb_spec j n); [lia|].
  destruct (Nat.eqb_spec k n) as [E|E].
  - revert D2. apply somes_distinct; [exact Hx|lia].
  - apply somes_none_inj in D2. lia.
Qed.

Lemma l_C03_reset k n t td b x : wf (nest (k + S n) t) -> valid (nest (k + S n) t) b ->
  decode (nest (k + S n) t) b = somes k x ->
  exists b', update_at k (nest (k + S n) t) (opt_reset td (nest n t)) b = Ok b' /\
    valid (nest (k + S n) t) b' /\ decode (nest (k + S n) t) b' = somes k VNone.
Proof.
  intros Hw Hb Hd.
  assert (wf (nest (S n) t)) as Hw'.
  { clear - Hw. induction k as [|k IH]; [exact Hw|]. apply IH. apply wf_nest_le. exact Hw. }
  destruct (update_at_ok k (S n) t (opt_reset td (nest n t)) b x Hw Hb Hd) as (c & c' & b' & H1 & H2 & H3 & H4 & H5 & H6).
  - intros c Hc _. destruct (opt_reset_ok td (nest n t) c Hw' (valid_sized _ _ Hc)) as (c' & E & Hc' & _).
    + intros _. now apply valid_has_value.
    + eauto.
  - exists b'. split; [exact H4|]. split; [exact H5|]. rewrite H6. f_equal.
    destruct (opt_reset_ok td (nest n t) c Hw' (valid_sized _ _ H1)) as (c2 & E & _ & _ & Hd2).
    + intros _. now apply valid_has_value.
    + assert (c2 = c') as -> by congruence. exact Hd2.
Qed.

Lemma l_C03_emplace k n t td b x v : wf (nest (k + S n) t) -> valid (nest (k + S n) t) b ->
  decode (nest (k + S n) t) b = somes k x -> valid (nest n t) v ->
  exists b', update_at k (nest (k + S n) t) (opt_emplace td (nest n t) v) b = Ok b' /\
    valid (nest (k + S n) t) b' /\ decode (nest (k + S n) t) b' = somes (S k) (decode (nest n t) v).
Proof.
  intros Hw Hb Hd Hv.
  assert (wf (nest (S n) t)) as Hw'.
  { clear - Hw. induction k as [|k IH]; [exact Hw|]. apply IH. apply wf_nest_le. exact Hw. }
  destruct (update_at_ok k (S n) t (opt_emplace td (nest n t) v) b x Hw Hb Hd) as (c & c' & b' & H1 & H2 & H3 & H4 & H5 & H6).
  - intros c Hc _. destruct (opt_emplace_ok td (nest n t) v c Hw' Hv (valid_sized _ _ Hc)) as (c' & E & Hc' & _).
    + intros _. now apply valid_has_value.
    + eauto.
  - exists b'. split; [exact H4|]. split; [exact H5|]. rewrite H6.
    destruct (opt_emplace_ok td (nest n t) v c Hw' Hv (valid_sized _ _ H1)) as (c2 & E & _ & _ & _ & Hd2).
    + intros _. now apply valid_has_value.
    + assert (c2 = c') as -> by congruence. change (nest (S n) t) with (TOption (nest n t)). rewrite Hd2. clear. induction k as [|k IH]; cbn; [reflexivity|]. now rewrite IH.
Qed.

Lemma l_C04 t : wf (TOption t) -> (sizeof (TOption t) = sizeof t <-> 0 < max_level t) /\
  (max_level t = 0 -> sizeof (TOption t) = (sizeof t + alignof t)%nat).
Proof.
  intros [Hw _]. pose proof (wf_align t Hw) as Ha. split.
  - split.
    + intros E. destruct (N.eq_dec (max_level t) 0) as [H|H]; [|lia].
      rewrite flagged_size in E by assumption. lia.
    + intros H. apply option_size_traits. lia.
  - intros E. now apply flagged_size.
Qed.

Lemma l_C05 t l b : wf t -> l < levels t -> sized (sizeof t) b ->
  exists b', set_level t l b = Ok b' /\ sized (sizeof t) b' /\ get_level t b' = Ok l.
Proof. intros Hw. apply (c_set t (contract_all t Hw)). Qed.

Lemma l_C06 t b : wf t -> 0 < max_level t -> valid t b ->
  exists l, get_level t b = Ok l /\ max_level t <= l.
Proof. intros Hw Hm Hv. destruct (c_valid t (contract_all t Hw) b Hm Hv) as (l & H1 & H2 & _). eauto. Qed.

Lemma l_C06_not_reserved t b : wf t -> valid t b -> ~ reserved t b.
Proof.
  intros Hw Hv (l & H1 & H2). destruct (l_C06 t b Hw ltac:(lia) Hv) as (l' & H3 & H4). rewrite H1 in H3.
  injection H3 as <-. lia.
Qed.

Lemma l_C07_level t l b b' i : wf t -> length b = sizeof t -> set_level t l b = Ok b' ->
  length b' = length b /\ (outside i (touched t) -> nth_error b' i = nth_error b i).
Proof. intros Hw Hb E. destruct (set_level_frame t l b b' Hw Hb E) as [H1 H2]. auto. Qed.

Lemma l_C07_option t td b b' i : wf (TOption t) -> length b = sizeof (TOption t) ->
  opt_default t b = Ok b' \/ opt_reset td t b = Ok b' ->
  length b' = length b /\ (outside i (touched (TOption t)) -> nth_error b' i = nth_error b i).
Proof.
  intros Hw Hb [E|E].
  - destruct (opt_default_frame t b b' Hw Hb E) as [H1 H2]. auto.
  - destruct (opt_reset_frame td t b b' Hw Hb E) as [H1 H2]. auto.
Qed.

Lemma le_encode_sized n x : sized n (le_encode n x).
Proof. split; [apply le_encode_length|apply le_encode_bytes]. Qed.

Lemma l_C08_64 a : a < 2 ^ 64 -> (canonical_n 48 a \/ canonical_n 57 a) ->
  valid TPtr64 (le_encode 8 a) /\ ~ reserved TPtr64 (le_encode 8 a).
Proof.
  intros Ha Hc. assert (canonical_n 57 a) as H57 by (destruct Hc; [now apply canonical_48_57|assumption]).
  assert (le_decode (le_encode 8 a) = a) as E by (apply le_decode_encode_small; exact Ha).
  split.
  - split; [apply le_encode_sized|]. rewrite E. exact H57.
  - rewrite ptr64_reserved by apply le_encode_sized. rewrite E. intros H.
    exact (ptr64_block_noncanonical a H H57).
Qed.
Lemma l_C08_block a : a < 2 ^ 64 -> reserved TPtr64 (le_encode 8 a) -> ~ canonical_n 57 a.
Proof.
  intros Ha H. rewrite ptr64_reserved in H by apply le_encode_sized.
  rewrite le_decode_encode_small in H by exact Ha. now apply ptr64_block_noncanonical.
Qed.
Lemma l_C08_32 a : a < 2 ^ 32 ->
  (reserved TPtr32 (le_encode 4 a) <-> 0xFFFFFFC0 <= a <= 0xFFFFFFDF) /\
  (~ (0xFFFFFFC0 <= a <= 0xFFFFFFDF) -> valid TPtr32 (le_encode 4 a)).
Proof.
  intros Ha. assert (le_decode (le_encode 4 a) = a) as E by (apply le_decode_encode_small; exact Ha). split.
  - rewrite ptr32_reserved by apply le_encode_sized. rewrite E. unfold in_block. lia.
  - intros H. split; [apply le_encode_sized|]. rewrite E. unfold in_block. lia.
Qed.

Lemma l_C09_64 (q : bool) x : x < 2 ^ 64 ->
  (reserved (TFloat64 q) (le_encode 8 x) -> f64_negative x /\ f64_is_nan x /\ (f64_is_quiet x <-> q = true)) /\
  (~ reserved (TFloat64 q) (le_encode 8 x) -> valid (TFloat64 q) (le_encode 8 x)) /\
  (In x f64_hw_nans -> ~ reserved (TFloat64 q) (le_encode 8 x)).
Proof.
  intros Hx. assert (le_decode (le_encode 8 x) = x) as E by (apply le_decode_encode_small; exact Hx).
  rewrite f64_reserved by apply le_encode_sized. rewrite E. split; [apply f64_block|]. split.
  - intros H. split; [apply le_encode_sized|]. rewrite E. exact H.
  - apply f64_hw_ok.
Qed.
Lemma l_C09_32 (q : bool) x : x < 2 ^ 32 ->
  (reserved (TFloat32 q) (le_encode 4 x) -> f32_negative x /\ f32_is_nan x /\ (f32_is_quiet x <-> q = true)) /\
  (~ reserved (TFloat32 q) (le_encode 4 x) -> valid (TFloat32 q) (le_encode 4 x)) /\
  (In x f32_hw_nans -> ~ reserved (TFloat32 q) (le_encode 4 x)).
Proof.
  intros Hx. assert (le_decode (le_encode 4 x) = x) as E by (apply le_decode_encode_small; exact Hx).
  rewrite f32_reserved by apply le_encode_sized. rewrite E. split; [apply f32_block|]. split.
  - intros H. split; [apply le_encode_sized|]. rewrite E. exact H.
  - apply f32_hw_ok.
Qed.

Lemma l_C10_union w named x : wf (TEnumRefl w named) -> flag_union named x ->
  valid (TEnumRefl w named) (le_encode w x) /\ ~ reserved (TEnumRefl w named) (le_encode w x).
Proof.
  intros Hw Hx. assert (x < wbase w) as Hb by (eapply flag_union_bound; [apply Hw|exact Hx]).
  assert (valid (TEnumRefl w named) (le_encode w x)) as Hv.
  { split; [apply le_encode_sized|]. rewrite le_decode_encode_small by exact Hb. exact Hx. }
  split; [exact Hv|]. now apply l_C06_not_reserved.
Qed.
Lemma l_C10_block w named x : wf (TEnumRefl w named) -> 0 < max_level (TEnumRefl w named) -> x < wbase w ->
  (reserved (TEnumRefl w named) (le_encode w x) <-> enum_start w named <= x < N.of_nat (enum_probe w)).
Proof.
  intros Hw Hm Hx. rewrite enum_reserved by (assumption || apply le_encode_sized).
  rewrite le_decode_encode_small by exact Hx. reflexivity.
Qed.

Lemma wf_ity_of t : wf t -> match t with TEnumSent it _ | TEnumStart it _ | TEnumStartEnd it _ _ => wf_ity it | _ => True end.
Proof. destruct t; cbn; tauto. Qed.

Lemma enc_ok it x : wf_ity it -> in_ity it x -> sized (iw it) (int_encode it x) /\ int_decode it (int_encode it x) = x.
Proof.
  intros Hw Hx. split; [split; [apply int_encode_length|apply int_encode_bytes]|]. now apply int_decode_encode.
Qed.

Lemma no_overflow_computable it a b : no_overflow it -> computable it a b.
Proof. intros [H|H]; [now left|right; now left]. Qed.
Lemma l_C11_sent_exact it s x : wf_ity it -> in_ity it s -> in_ity it x ->
  (computable it x s -> (exists l, get_level (TEnumSent it s) (int_encode it x) = Ok l) /\
                        (reserved (TEnumSent it s) (int_encode it x) <-> x = s)) /\
  (~ computable it x s -> get_level (TEnumSent it s) (int_encode it x) = UB).
Proof.
  intros Hw Hs Hx. destruct (enc_ok it x Hw Hx) as [H1 H2]. split; intros Hn.
  - apply int_sub_computable in Hn. rewrite <- H2 in Hn.
    pose proof (enum_sent_reserved it s _ Hw Hs Hn H1) as H. rewrite H2 in H. exact H.
  - cbn [get_level]. unfold enum_sent_get. rewrite H2, int_sub_overflow by exact Hn. reflexivity.
Qed.
Lemma l_C11_start_exact it s x : wf_ity it -> in_ity it s -> in_ity it x -> 0 < max_level (TEnumStart it s) ->
  Z.of_N (max_level (TEnumStart it s)) = (imax it - s + 1)%Z /\
  (computable it x s -> (exists l, get_level (TEnumStart it s) (int_encode it x) = Ok l) /\
                        (reserved (TEnumStart it s) (int_encode it x) <-> (s <= x)%Z)) /\
  (~ computable it x s -> get_level (TEnumStart it s) (int_encode it x) = UB).
Proof.
  intros Hw Hs Hx Hm. destruct (enc_ok it x Hw Hx) as [H1 H2]. split; [|split; intros Hn].
  - destruct (enum_start_max_val it s Hw Hs) as [E|E]; [|exact E]. cbn [max_level] in Hm. lia.
  - apply int_sub_computable in Hn. rewrite <- H2 in Hn.
    pose proof (enum_start_reserved it s _ Hw Hs Hn H1 Hm) as H. rewrite H2 in H. tauto.
  - cbn [get_level]. unfold enum_range_get. rewrite H2, int_sub_overflow by exact Hn. reflexivity.
Qed.
Lemma l_C11_start_end_exact it s e x : wf_ity it -> in_ity it s -> in_ity it e -> (s <= e)%Z -> range_fits it s e ->
  in_ity it x -> 0 < max_level (TEnumStartEnd it s e) ->
  Z.of_N (max_level (TEnumStartEnd it s e)) = (e - s + 1)%Z /\
  (computable it x s -> (exists l, get_level (TEnumStartEnd it s e) (int_encode it x) = Ok l) /\
                        (reserved (TEnumStartEnd it s e) (int_encode it x) <-> (s <= x <= e)%Z)) /\
  (~ computable it x s -> get_level (TEnumStartEnd it s e) (int_encode it x) = UB).
Proof.
  intros Hw Hs He Hle Hf Hx Hm. destruct (enc_ok it x Hw Hx) as [H1 H2]. split; [|split; intros Hn].
  - destruct (enum_start_end_max_val it s e Hw Hs He Hle Hf) as [E|E]; [|exact E]. cbn [max_level] in Hm. lia.
  - apply int_sub_computable in Hn. rewrite <- H2 in Hn.
    pose proof (enum_start_end_reserved it s e _ Hw Hs He Hle Hf Hn H1 Hm) as H. rewrite H2 in H. tauto.
  - cbn [get_level]. unfold enum_range_get. rewrite H2, int_sub_overflow by exact Hn. reflexivity.
Qed.
Lemma l_C11_sent it s x : wf_ity it -> in_ity it s -> in_ity it x -> no_overflow it ->
  (exists l, get_level (TEnumSent it s) (int_encode it x) = Ok l) /\
  (reserved (TEnumSent it s) (int_encode it x) <-> x = s).
Proof. intros Hw Hs Hx Hn. apply l_C11_sent_exact; auto using no_overflow_computable. Qed.
Lemma l_C11_start it s x : wf_ity it -> in_ity it s -> in_ity it x -> no_overflow it ->
  0 < max_level (TEnumStart it s) ->
  (exists l, get_level (TEnumStart it s) (int_encode it x) = Ok l) /\
  (reserved (TEnumStart it s) (int_encode it x) <-> (s <= x)%Z) /\
  Z.of_N (max_level (TEnumStart it s)) = (imax it - s + 1)%Z.
Proof.
  intros Hw Hs Hx Hn Hm. destruct (l_C11_start_exact it s x Hw Hs Hx Hm) as (H1 & H2 & _).
  destruct (H2 (no_overflow_computable it x s Hn)) as [H3 H4]. auto.
Qed.
Lemma l_C11_start_end it s e x : wf_ity it -> in_ity it s -> in_ity it e -> (s <= e)%Z -> in_ity it x -> no_overflow it ->
  0 < max_level (TEnumStartEnd it s e) ->
  (exists l, get_level (TEnumStartEnd it s e) (int_encode it x) = Ok l) /\
  (reserved (TEnumStartEnd it s e) (int_encode it x) <-> (s <= x <= e)%Z) /\
  Z.of_N (max_level (TEnumStartEnd it s e)) = (e - s + 1)%Z.
Proof.
  intros Hw Hs He Hle Hx Hn Hm.
  assert (Hf : range_fits it s e) by (intros E F; destruct Hn as [Hn|Hn]; [congruence|lia]).
  destruct (l_C11_start_end_exact it s e x Hw Hs He Hle Hf Hx Hm) as (H1 & H2 & _).
  destruct (H2 (no_overflow_computable it x s Hn)) as [H3 H4]. auto.
Qed.

Lemma l_C12_pair o1 t1 o2 t2 n a :
  max_level (TPair o1 t1 o2 t2 n a) = N.max (max_level t1) (max_level t2) /\
  (max_level t2 < max_level t1 -> forall b,
     get_level (TPair o1 t1 o2 t2 n a) b = get_level t1 (slice o1 (sizeof t1) b)) /\
  (max_level t1 <= max_level t2 -> forall b,
     get_level (TPair o1 t1 o2 t2 n a) b = get_level t2 (slice o2 (sizeof t2) b)).
Proof.
  cbn [max_level get_level]. split; [|split].
  - destruct (N.ltb_spec (max_level t2) (max_level t1)); lia.
  - intros H b. destruct (N.ltb_spec (max_level t2) (max_level t1)); [reflexivity|lia].
  - intros H b. destruct (N.ltb_spec (max_level t2) (max_level t1)); [lia|reflexivity].
Qed.

Definition library_type (t : ty) : Prop :=
  match t with
  | TString _ _ | TVector _ | TUniquePtr _ | TStringView _ _ | TRefWrap _ | TPoly _ _ _ | TMemPtr32 | TMemPtr64 _ => True
  | _ => False
  end.

Lemma l_C13 t b : library_type t -> wf t ->
  (max_level t = 255 \/ max_level t = 256) /\
  (valid t b -> ~ reserved t b) /\
  (forall l, l < max_level t -> sized (sizeof t) b ->
     exists b', set_level t l b = Ok b' /\ get_level t b' = Ok l /\ ~ valid t b').
Proof.
  intros Hlib Hw. split; [|split].
  - destruct t; try contradiction; cbn; auto.
  - intros Hv. now apply l_C06_not_reserved.
  - intros l Hl Hb. assert (levels t = max_level t) as E by (destruct t; try contradiction; reflexivity).
    destruct (l_C05 t l b Hw ltac:(lia) Hb) as (b' & H1 & H2 & H3). exists b'. split; [exact H1|]. split; [exact H3|].
    intros Hv. apply (l_C06_not_reserved t b' Hw Hv). exists l. auto.
Qed.

Lemma l_C14_wide n a off w l b : wf (TPadding n a off w) -> (4 <= w)%nat -> l < max_level (TPadding n a off w) ->
  sized n b -> exists b', set_level (TPadding n a off w) l b = Ok b' /\ get_level (TPadding n a off w) b' = Ok l.
Proof.
  intros Hw H4 Hl Hb. destruct (l_C05 (TPadding n a off w) l b Hw) as (b' & H1 & _ & H3).
  - rewrite padding_wide_levels; [exact Hl|exact H4|apply Hw].
  - exact Hb.
  - eauto.
Qed.
Lemma l_C14_narrow n a off w l b : wf (TPadding n a off w) -> l < wbase w - 1 ->
  sized n b -> exists b', set_level (TPadding n a off w) l b = Ok b' /\ get_level (TPadding n a off w) b' = Ok l.
Proof.
  intros Hw Hl Hb. destruct (l_C05 (TPadding n a off w) l b Hw Hl Hb) as (b' & H1 & _ & H3). eauto.
Qed.
Lemma l_C14_exact n a off w l b : wf (TPadding n a off w) -> l < max_level (TPadding n a off w) -> sized n b ->
  exists b' l', set_level (TPadding n a off w) l b = Ok b' /\ get_level (TPadding n a off w) b' = Ok l' /\
    (l' = l <-> l < wbase w - 1) /\
    ((l + 1) mod wbase w = 0 -> ~ reserved (TPadding n a off w) b') /\
    ((l + 1) mod wbase w <> 0 -> l' = l mod wbase w /\ reserved (TPadding n a off w) b').
Proof.
  intros (_ & Hw & Hn) Hl [Hb1 Hb2]. cbn [max_level] in Hl.
  assert (Hu : wbase w <= umax_base) by now apply wbase_le_umax.
  assert (Hp : padding_max w <= umax_base - 1) by (unfold padding_max; destruct (w <? 4)%nat; lia).
  assert (H2 : 2 <= wbase w) by (destruct Hw as [->|[->|[->| ->]]]; vm_compute; congruence).
  assert (Hpp : wbase w - 1 <= padding_max w) by (unfold padding_max; destruct (w <? 4)%nat; lia).
  cbn [set_level get_level]. unfold padding_set, padding_get, reserved. cbn [max_level get_level]. unfold padding_get.
  destruct (N.ltb_spec l (padding_max w)); [|lia]. cbn [verify].
  assert (Et : to_umax (l + 1) = l + 1) by (unfold to_umax; apply N.mod_small; lia).
  eexists. eexists. split; [reflexivity|]. split; [reflexivity|]. rewrite read_write_word by lia. rewrite Et.
  pose proof (N.mod_lt (l + 1) (wbase w) ltac:(lia)) as Hm.
  destruct (N.eqb_spec (padding_max w) 0) as [E0|E0]; [lia|].
  destruct (N.eq_dec ((l + 1) mod wbase w) 0) as [E|E].
  - rewrite E. assert (Es : wsub umax_base 0 1 = umax_base - 1) by reflexivity. rewrite Es.
    split; [|split; [|intros F; now elim F]].
    + split; [lia|]. intros Hs. rewrite N.mod_small in E by lia. lia.
    + intros _ (l' & F & G). injection F as <-. lia.
  - assert (Ew : wsub umax_base ((l + 1) mod wbase w) 1 = (l + 1) mod wbase w - 1).
    { rewrite wsub_ge; lia. }
    rewrite Ew.
    assert (El : (l + 1) mod wbase w - 1 = l mod wbase w).
    { pose proof (N.div_mod (l + 1) (wbase w) ltac:(lia)) as D.
      apply (N.mod_unique _ _ ((l + 1) / wbase w)); lia. }
    rewrite El. split; [|split; [now intros F|intros _; split; [reflexivity|]]].
    + split.
      * intros Hs. assert (l < wbase w) by (rewrite <- Hs; apply N.mod_lt; lia).
        destruct (N.eq_dec l (wbase w - 1)) as [F|F]; [|lia].
        exfalso. apply E. rewrite F. replace (wbase w - 1 + 1) with (wbase w) by lia. apply N.mod_same. lia.
      * intros Hs. apply N.mod_small. lia.
    + eexists. split; [reflexivity|]. lia.
Qed.
Lemma l_C14_value n a off w b : wf (TPadding n a off w) -> sized n b -> read_word off w b = 0 ->
  opt_has_value (TPadding n a off w) b = Ok true.
Proof.
  intros Hw Hb Hr. unfold opt_has_value. cbn [max_level get_level]. unfold padding_get. rewrite Hr.
  destruct (N.eqb_spec (padding_max w) 0) as [E|E]; [|reflexivity].
  destruct Hw as (_ & [->|[->|[->| ->]]] & _); discriminate.
Qed.

Lemma l_C15 it vals x b : wf (TSentinel it vals) -> in_ity it x ->
  (reserved (TSentinel it vals) (int_encode it x) <-> In x vals) /\
  (forall i v, nth_error vals i = Some v -> sized (iw it) b ->
     set_level (TSentinel it vals) (N.of_nat i) b = Ok (int_encode it v) /\
     get_level (TSentinel it vals) (int_encode it v) = Ok (N.of_nat i)) /\
  (vals <> [] -> hd_error vals = Some x -> length b = iw it -> opt_construct (TSentinel it vals) (int_encode it x) b = Verify) /\
  max_level (TSentinel it vals) = N.of_nat (length vals).
Proof.
  intros Hw Hx. pose proof Hw as (Hit & Hall & Hnd & Hlen). split; [|split; [|split]].
  - rewrite sentinel_reserved by exact Hlen. rewrite int_decode_encode by assumption. reflexivity.
  - intros i v Hi Hb. assert (in_ity it v) as Hv.
    { rewrite Forall_forall in Hall. apply Hall. eapply nth_error_In; eauto. }
    assert (i < length vals)%nat as Hil by (apply nth_error_Some; congruence).
    cbn [set_level get_level]. unfold sentinel_set, sentinel_get. rewrite int_decode_encode by assumption.
    destruct (sentinel_set_nth 0 vals (N.of_nat i) ltac:(lia)) as (v' & H1 & H2).
    rewrite Nat2N.id, Hi in H1. injection H1 as <-. replace (0 + N.of_nat i) with (N.of_nat i) in H2 by lia.
    rewrite H2. split; [reflexivity|]. f_equal.
    rewrite (sentinel_get_nth 0 vals (N.of_nat i) v Hnd); [lia|]. now rewrite Nat2N.id.
  - intros Hne Hhd Hb. destruct vals as [|v vals]; [congruence|]. injection Hhd as ->.
    apply construct_level0; try assumption.
    + cbn [max_level length]. lia.
    + apply int_encode_length.
    + cbn [get_level]. unfold sentinel_get. rewrite int_decode_encode by assumption. cbn [sentinel_get_impl].
      rewrite Z.eqb_refl. reflexivity.
  - reflexivity.
Qed.

Lemma l_C25 t td sc v b b' : wf (TOption t) -> sized (sizeof (TOption t)) b -> length v = sizeof t ->
  (opt_construct t v b = Ok b' \/ opt_emplace td t v b = Ok b' \/ opt_assign_value sc t v b = Ok b' \/
   (opt_has_value t b = Ok false /\ opt_try_emplace t v b = Ok b')) ->
  opt_has_value t b' = Ok true /\ opt_get t b' = Ok v.
Proof.
  intros Hw Hb Hv [H|[H|[H|[H0 H]]]].
  - eapply construct_detects; eauto; [apply Hb|apply Hw].
  - eapply emplace_detects; eauto.
  - eapply assign_value_detects; eauto.
  - eapply try_emplace_detects; eauto.
Qed.

(** Copying the bytes of an object into memory at another place. *)
Lemma l_C46 t src mem off : valid t src -> (off + sizeof t <= length mem)%nat ->
  let mem' := splice off src mem in
  let dst := slice off (sizeof t) mem' in
  decode t dst = decode t src /\ valid t dst /\
  length mem' = length mem /\
  (forall i, (i < off \/ off + sizeof t <= i)%nat -> nth_error mem' i = nth_error mem i).
Proof.
  intros Hv Ho mem' dst. pose proof (valid_sized t src Hv) as [Hl _].
  assert (dst = src) as E by (apply slice_splice_same; [congruence|lia]).
  rewrite E. split; [reflexivity|]. split; [exact Hv|]. split.
  - apply splice_length. lia.
  - intros i Hi. apply splice_frame; lia.
Qed.

(** Copy construction, copy assignment, take and swap preserve the state at every layer. *)
Lemma l_C46_ops t td a b : wf (TOption t) -> valid (TOption t) a -> valid (TOption t) b ->
  (exists r, opt_copy t a b = Ok r /\ valid (TOption t) r /\ decode (TOption t) r = decode (TOption t) a) /\
  (exists r, opt_assign td t a b = Ok r /\ valid (TOption t) r /\ decode (TOption t) r = decode (TOption t) a) /\
  (exists r a', opt_take td t a b = Ok (r, a') /\ decode (TOption t) r = decode (TOption t) a /\
                decode (TOption t) a' = VNone) /\
  (exists a' b', opt_swap td t a b = Ok (a', b') /\ decode (TOption t) a' = decode (TOption t) b /\
                 decode (TOption t) b' = decode (TOption t) a).
Proof.
  intros Hw Ha Hb. pose proof (valid_sized _ _ Hb) as Hs. split; [|split; [|split]].
  - destruct (opt_copy_ok t a b Hw Ha Hs) as (r & H1 & H2 & _ & H3 & _). eauto.
  - destruct (opt_assign_ok td t a b Hw Ha Hb) as (r & H1 & H2 & _ & H3 & _). eauto.
  - destruct (opt_take_ok td t a b Hw Ha Hs) as (r & a' & H1 & (_ & _ & H2 & _) & _ & _ & H3). eauto 6.
  - destruct (opt_swap_ok td t a b Hw Ha Hb) as (a' & b' & H1 & (_ & _ & H2 & _) & (_ & _ & H3 & _)). eauto 6.
Qed.

(** Access through get(): it stops on an option that reads as empty; a valid object written through it is stored. *)
Lemma access_bytes t v b : wf (TOption t) -> valid (TOption t) b -> valid t v ->
  match decode (TOption t) b with
  | VNone => opt_get t b = Verify /\ opt_put t v b = Verify
  | VSome x =>
      (exists u, opt_get t b = Ok u /\ valid t u /\ decode t u = x) /\
      exists b', opt_put t v b = Ok b' /\ opt_has_value t b' = Ok true /\ opt_get t b' = Ok v /\
        decode (TOption t) b' = VSome (decode t v) /\ valid (TOption t) b'
  | _ => False
  end.
Proof.
  intros Hw Hb Hv. cbn [decode]. unfold opt_get, opt_put.
  destruct (valid_has_value t b Hb) as [[|] Hh]; rewrite Hh; cbn [rbind verify].
  - split.
    + eexists. split; [reflexivity|]. split; [|reflexivity]. now apply valid_engaged.
    + eexists. split; [reflexivity|]. destruct (opt_put_ok t v b Hw Hv (valid_sized _ b Hb) Hh) as (P1 & P2 & P3 & P4). auto.
  - split; reflexivity.
Qed.

Lemma access_layers k n t j f b : valid (nest (k + n) t) b -> decode (nest (k + n) t) b = somes j VNone -> (j < k)%nat ->
  update_at k (nest (k + n) t) f b = Verify.
Proof.
  revert j b. induction k as [|k IH]; intros j b Hb Hd Hj; [lia|].
  cbn [Nat.add nest update_at] in *. set (u := nest (k + n) t) in *.
  cbn [decode] in Hd. destruct (valid_has_value u b Hb) as [[|] Hh]; rewrite Hh in *; cbn [rbind verify]; [|reflexivity].
  destruct j as [|j]; [discriminate|]. cbn [somes] in Hd. injection Hd as Hd.
  subst u. rewrite (IH j _ (valid_engaged _ b Hb Hh) Hd) by lia. reflexivity.
Qed.

Lemma probed_eq w : N.of_nat (enum_probe w) = probed w.
Proof. unfold enum_probe, probed. now destruct (w =? 1)%nat. Qed.
Lemma C10_block_probed w named x : wf (TEnumRefl w named) -> 0 < max_level (TEnumRefl w named) -> x < wbase w ->
  (reserved (TEnumRefl w named) (le_encode w x) <-> enum_start w named <= x < probed w) /\
  max_level (TEnumRefl w named) = probed w - enum_start w named.
Proof.
  intros Hw Hm Hx. split; [rewrite <- probed_eq; now apply l_C10_block|].
  cbn [max_level] in *. rewrite probed_eq in *. destruct (enum_start w named =? 0); [lia|reflexivity].
Qed.
Lemma C10_start_probed w named : enum_start w named <> 0 ->
  exists k, enum_start w named = 2 ^ k /\
    (forall e, In e named -> e < probed w -> e < 2 ^ k) /\
    (forall j, (forall e, In e named -> e < probed w -> e < 2 ^ j) -> (exists e, In e named /\ e < probed w) -> k <= j).
Proof. rewrite <- probed_eq. apply enum_start_spec. Qed.
