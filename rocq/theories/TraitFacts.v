(** Which object representations each trait reserves. *)
From Coq Require Import ZArith NArith List Bool Lia ZifyBool ZifyNat ZifyN.
From Verif Require Import Outcome Words WordsFacts Ints IntsFacts Types OptBytes TypesSpec EnumFacts TypesFacts OptBytesFacts CustomTraits.
Import ListNotations.
Open Scope N_scope.
Ltac Zify.zify_post_hook ::= Z.div_mod_to_equations.

(** [b] is one of the object representations the trait of [t] uses for an empty level. *)
Definition reserved (t : ty) (b : bytes) : Prop :=
  exists l, get_level t b = Ok l /\ l < max_level t.

Lemma wsub_block base x start max : x < base -> start + max <= base -> 0 < max ->
  (wsub base x start < max <-> in_block start max x).
Proof.
  intros Hx Hs Hm. unfold in_block. destruct (N.lt_ge_cases x start) as [H|H].
  - rewrite wsub_lt by lia. lia.
  - rewrite wsub_ge by lia. lia.
Qed.

Lemma reserved_word w start max off b : (off + w <= length b)%nat -> is_bytes b ->
  start + max <= wbase w -> 0 < max ->
  ((exists l, word_get w start off b = Ok l /\ l < max) <-> in_block start max (read_word off w b)).
Proof.
  intros Hl Hb Hs Hm. unfold word_get.
  assert (read_word off w b < wbase w) as Hr by (apply read_word_bound; assumption).
  rewrite <- (wsub_block (wbase w)) by assumption. split.
  - intros [l [[= <-] H]]. exact H.
  - intros H. eauto.
Qed.

Lemma reserved_whole w start max b : length b = w -> is_bytes b -> start + max <= wbase w -> 0 < max ->
  ((exists l, word_get w start 0 b = Ok l /\ l < max) <-> in_block start max (le_decode b)).
Proof. intros Hl Hb Hs Hm. rewrite <- (read_word_whole w b Hl). apply reserved_word; lia || assumption. Qed.

(** * Pointers (C08) *)
Lemma ptr64_reserved b : sized 8 b -> (reserved TPtr64 b <-> in_block ptr64_start 512 (le_decode b)).
Proof. intros [Hl Hb]. apply (reserved_whole 8); try assumption; vm_compute; congruence. Qed.
Lemma ptr32_reserved b : sized 4 b -> (reserved TPtr32 b <-> in_block 0xFFFFFFC0 32 (le_decode b)).
Proof. intros [Hl Hb]. apply (reserved_whole 4); try assumption; vm_compute; congruence. Qed.

(** Canonical addresses with n-bit virtual addresses: bits n-1..63 are all equal. *)
Definition canonical_n (n a : N) : Prop := a < 2 ^ (n - 1) \/ 2 ^ 64 - 2 ^ (n - 1) <= a /\ a < 2 ^ 64.

Lemma canonical_48_57 a : canonical_n 48 a -> canonical_n 57 a.
Proof.
  unfold canonical_n. change (2 ^ (48 - 1)) with (2 ^ 47). change (2 ^ (57 - 1)) with (2 ^ 56).
  change (2 ^ 47) with 140737488355328. change (2 ^ 56) with 72057594037927936.
  change (2 ^ 64) with 18446744073709551616. lia.
Qed.
Lemma ptr64_block_noncanonical a : in_block ptr64_start 512 a -> ~ canonical_n 57 a.
Proof.
  unfold in_block, canonical_n, ptr64_start. change (2 ^ (57 - 1)) with 72057594037927936.
  change (2 ^ 64) with 18446744073709551616. lia.
Qed.
Lemma canonical_57_eq a : canonical_n 57 a <-> canonical a.
Proof. reflexivity. Qed.

(** * Floating point (C09) *)
Definition f64_exponent (x : N) : N := (x / 2 ^ 52) mod 2 ^ 11.
Definition f64_mantissa (x : N) : N := x mod 2 ^ 52.
Definition f64_negative (x : N) : Prop := x / 2 ^ 63 = 1.
Definition f64_is_nan (x : N) : Prop := f64_exponent x = 2 ^ 11 - 1 /\ f64_mantissa x <> 0.
Definition f64_is_quiet (x : N) : Prop := (x / 2 ^ 51) mod 2 = 1.
Definition f32_exponent (x : N) : N := (x / 2 ^ 23) mod 2 ^ 8.
Definition f32_mantissa (x : N) : N := x mod 2 ^ 23.
Definition f32_negative (x : N) : Prop := x / 2 ^ 31 = 1.
Definition f32_is_nan (x : N) : Prop := f32_exponent x = 2 ^ 8 - 1 /\ f32_mantissa x <> 0.
Definition f32_is_quiet (x : N) : Prop := (x / 2 ^ 22) mod 2 = 1.

Lemma f64_reserved (q : bool) b : sized 8 b ->
  (reserved (TFloat64 q) b <-> in_block (if q then f64q_start else f64s_start) 256 (le_decode b)).
Proof. intros [Hl Hb]. apply (reserved_whole 8); try assumption; destruct q; vm_compute; congruence. Qed.
Lemma f32_reserved (q : bool) b : sized 4 b ->
  (reserved (TFloat32 q) b <-> in_block (if q then f32q_start else f32s_start) 256 (le_decode b)).
Proof. intros [Hl Hb]. apply (reserved_whole 4); try assumption; destruct q; vm_compute; congruence. Qed.

Ltac pow2s :=
  change (2 ^ 63) with 0x8000000000000000; change (2 ^ 52) with 0x10000000000000;
  change (2 ^ 51) with 0x8000000000000; change (2 ^ 11) with 2048;
  change (2 ^ 31) with 0x80000000; change (2 ^ 23) with 0x800000;
  change (2 ^ 22) with 0x400000; change (2 ^ 8) with 256.

Lemma f64_block (q : bool) x : in_block (if q then f64q_start else f64s_start) 256 x ->
  f64_negative x /\ f64_is_nan x /\ (f64_is_quiet x <-> q = true).
Proof.
  unfold in_block, f64_negative, f64_is_nan, f64_exponent, f64_mantissa, f64_is_quiet, f64q_start, f64s_start.
  pow2s. destruct q; intros H; repeat split; try intros H1; try discriminate; try reflexivity; exfalso + idtac; lia.
Qed.
Lemma f32_block (q : bool) x : in_block (if q then f32q_start else f32s_start) 256 x ->
  f32_negative x /\ f32_is_nan x /\ (f32_is_quiet x <-> q = true).
Proof.
  unfold in_block, f32_negative, f32_is_nan, f32_exponent, f32_mantissa, f32_is_quiet, f32q_start, f32s_start.
  pow2s. destruct q; intros H; repeat split; try intros H1; try discriminate; try reflexivity; exfalso + idtac; lia.
Qed.

(** The NaNs hardware produces: x86 SSE (negative), ARM and RISC-V (positive), payload zero. *)
Definition f64_hw_nans : list N := [0xFFF8000000000000; 0x7FF8000000000000].
Definition f32_hw_nans : list N := [0xFFC00000; 0x7FC00000].

Lemma f64_hw_ok (q : bool) x : In x f64_hw_nans -> ~ in_block (if q then f64q_start else f64s_start) 256 x.
Proof. unfold in_block, f64_hw_nans, f64q_start, f64s_start. cbn [In]. destruct q; lia. Qed.
Lemma f32_hw_ok (q : bool) x : In x f32_hw_nans -> ~ in_block (if q then f32q_start else f32s_start) 256 x.
Proof. unfold in_block, f32_hw_nans, f32q_start, f32s_start. cbn [In]. destruct q; lia. Qed.

(** * Other word traits (C13, C45) *)
Lemma bool_reserved b : sized 1 b -> (reserved TBool b <-> 2 <= le_decode b <= 255).
Proof.
  intros [Hl Hb]. unfold reserved. cbn [get_level max_level]. unfold bool_get.
  rewrite (reserved_whole 1 2 254 b Hl Hb) by (vm_compute; congruence). unfold in_block. lia.
Qed.
Lemma refwrap_reserved p b : wf_p p -> sized p b -> (reserved (TRefWrap p) b <-> le_decode b <= 255).
Proof.
  intros Hp [Hl Hb]. unfold reserved. cbn [get_level max_level].
  rewrite (reserved_whole p 0 256 b Hl Hb) by (destruct Hp as [->| ->]; vm_compute; congruence).
  unfold in_block. lia.
Qed.
Lemma poly_reserved p n a b : wf_p p -> sized n b -> (p <= n)%nat ->
  (reserved (TPoly p n a) b <->
   wbase p - 89152 <= read_word 0 p b <= wbase p - 88898).
Proof.
  intros Hp [Hl Hb] Hn. unfold reserved. cbn [get_level max_level].
  rewrite reserved_word; [|lia|exact Hb|destruct Hp as [->| ->]; vm_compute; congruence|lia].
  unfold in_block, poly_start. pose proof (wbase_p_ge p Hp). lia.
Qed.
Lemma sv_reserved p df b : wf_p p -> sized (2 * p) b ->
  (reserved (TStringView p df) b <->
   wbase p - 32186 <= read_word (sv_data_off p df) p b <= wbase p - 31932).
Proof.
  intros Hp [Hl Hb]. unfold reserved. cbn [get_level max_level].
  rewrite reserved_word; [|unfold sv_data_off; destruct df; lia|exact Hb|destruct Hp as [->| ->]; vm_compute; congruence|lia].
  unfold in_block, sv_start. pose proof (wbase_p_ge p Hp). lia.
Qed.
Lemma uptr_reserved p b : wf_p p -> sized p b ->
  (reserved (TUniquePtr p) b <-> wbase p - 46509 <= le_decode b <= wbase p - 46255).
Proof.
  intros Hp [Hl Hb]. unfold reserved. cbn [get_level max_level].
  rewrite (reserved_whole p _ 255 b Hl Hb) by (destruct Hp as [->| ->]; vm_compute; congruence).
  unfold in_block, uptr_start. pose proof (wbase_p_ge p Hp). lia.
Qed.
Lemma mp32_reserved b : sized 4 b -> (reserved TMemPtr32 b <-> 0xFFFFFC17 <= le_decode b <= 0xFFFFFD15).
Proof.
  intros [Hl Hb]. unfold reserved. cbn [get_level max_level].
  rewrite (reserved_whole 4 _ 255 b Hl Hb) by (vm_compute; congruence). unfold in_block, memptr32_start. lia.
Qed.
Lemma mp64_reserved n b : (8 <= n)%nat -> sized n b ->
  (reserved (TMemPtr64 n) b <-> 0xFFFFFFFFD3B2F9B2 <= read_word 0 8 b <= 0xFFFFFFFFD3B2FAB0).
Proof.
  intros Hn [Hl Hb]. unfold reserved. cbn [get_level max_level].
  rewrite reserved_word; [|lia|exact Hb|vm_compute; congruence|lia]. unfold in_block, memptr64_start. lia.
Qed.
Lemma vector_reserved p b : wf_p p -> sized (3 * p) b ->
  (reserved (TVector p) b <-> wbase p - 76327 <= read_word 0 p b <= wbase p - 76073).
Proof.
  intros Hp [Hl Hb]. unfold reserved. cbn [get_level max_level].
  rewrite reserved_word; [|lia|exact Hb|destruct Hp as [->| ->]; vm_compute; congruence|lia].
  unfold in_block, vec_start. pose proof (wbase_p_ge p Hp). lia.
Qed.
Lemma string_reserved p lib b : wf_p p -> sized (string_size p lib) b ->
  (reserved (TString p lib) b <->
   read_word (string_mark_offset p lib) p b = string_mark p lib /\
   read_word (string_size_offset p lib) p b <= 254).
Proof.
  intros Hp [Hl Hb]. unfold reserved. cbn [get_level max_level]. unfold string_get.
  destruct (N.eqb_spec (read_word (string_mark_offset p lib) p b) (string_mark p lib)) as [E|E]; split.
  - intros [l [[= <-] H]]. split; [exact E|lia].
  - intros [_ H]. eexists; split; [reflexivity|lia].
  - intros [l [[= <-] H]]. unfold umax_base in H. lia.
  - intros [H _]. contradiction.
Qed.
Lemma optref_reserved p b : wf_p p -> sized p b ->
  (reserved (TOptRef p) b <-> 1 <= le_decode b <= 256).
Proof.
  intros Hp [Hl Hb]. unfold reserved. cbn [get_level max_level]. unfold optref_get.
  rewrite (read_word_whole p b Hl). pose proof (le_decode_bound b Hb) as Hd. rewrite Hl in Hd.
  pose proof (wbase_le_umax p (wf_p_w p Hp)) as Hu.
  assert (256 < umax_base) as Hu2 by reflexivity.
  destruct (N.eq_dec (le_decode b) 0) as [E|E].
  - rewrite E. rewrite wsub_lt by lia. split; [intros [l [[= <-] H]]|]; lia.
  - rewrite wsub_ge by lia. split; [intros [l [[= <-] H]]; lia|]. intros H. eexists; split; [reflexivity|lia].
Qed.

(** * Enumerations (C10, C11) *)
Lemma enum_reserved w named b : wf (TEnumRefl w named) -> 0 < max_level (TEnumRefl w named) -> sized w b ->
  (reserved (TEnumRefl w named) b <-> enum_start w named <= le_decode b < N.of_nat (enum_probe w)).
Proof.
  intros [Hw Hn] Hm [Hl Hb]. unfold reserved. cbn [get_level max_level] in *. unfold enum_get.
  rewrite (read_word_whole w b Hl). pose proof (le_decode_bound b Hb) as Hd. rewrite Hl in Hd.
  pose proof (wbase_le_umax w Hw) as Hu.
  set (s := enum_start w named) in *. destruct (N.eqb_spec s 0) as [E|E]; [lia|].
  assert (N.of_nat (enum_probe w) <= umax_base) as Hp
    by (unfold enum_probe; destruct (w =? 1)%nat; vm_compute; congruence).
  split.
  - intros [l [[= <-] H]]. apply wsub_block in H; [unfold in_block in H|..]; lia.
  - intros H. eexists; split; [reflexivity|]. apply wsub_block; [lia|lia|lia|]. unfold in_block. lia.
Qed.

(** Every representation written for a level of a reflected enum is an integer in
    [start, probe), and start is a power of two above every named enumerator below the probe. *)
Lemma enum_start_spec w named : enum_start w named <> 0 ->
  exists k, enum_start w named = 2 ^ k /\
    (forall e, In e named -> e < N.of_nat (enum_probe w) -> e < 2 ^ k) /\
    (forall j, (forall e, In e named -> e < N.of_nat (enum_probe w) -> e < 2 ^ j) ->
       (exists e, In e named /\ e < N.of_nat (enum_probe w)) -> k <= j).
Proof.
  unfold enum_start, max_enum_value. set (probe := enum_probe w).
  assert (2 <= probe <= 1024)%nat as Hp by (unfold probe, enum_probe; destruct (w =? 1)%nat; lia).
  destruct (N.eqb_spec (enum_bound named probe) 0) as [E|E]; [congruence|]. intros _.
  assert (1 <= enum_bound named probe /\ enum_bound named probe <= 1024) as [H1 H2].
  { unfold enum_bound in *. destruct (existsb _ _); [congruence|].
    pose proof (largest_named_le named (probe - 1)). lia. }
  destruct (round_up_spec (enum_bound named probe) H1 H2) as (k & Hk & Hle & Hleast).
  exists k. split; [exact Hk|].
  assert (forall e, In e named -> e < N.of_nat probe -> e < enum_bound named probe) as Hb.
  { intros e Hin He. unfold enum_bound in *. destruct (existsb (N.eqb (N.of_nat probe - 1)) named) eqn:Ex; [congruence|].
    assert (e <> N.of_nat probe - 1) as Hne.
    { intros ->. apply not_true_iff_false in Ex. apply Ex. now apply existsb_eqb. }
    apply largest_named_bound; [exact Hin|]. lia. }
  split.
  - intros e Hin He. specialize (Hb e Hin He). lia.
  - intros j Hj _.
    assert (enum_bound named probe <= 2 ^ j) as Hj2.
    { unfold enum_bound in *. destruct (existsb (N.eqb (N.of_nat probe - 1)) named); [congruence|].
      destruct (largest_named_in named (probe - 1) E) as [Hin Hle2].
      specialize (Hj _ Hin ltac:(lia)). lia. }
    destruct Hleast as [[->|Hlt] _]; [lia|].
    assert (2 ^ k < 2 ^ (N.succ j)) as Hlt2 by (rewrite N.pow_succ_r'; lia).
    apply N.pow_lt_mono_r_iff in Hlt2; lia.
Qed.

(** Enumerations with declared sentinels.  [narrow_or_unsigned]: the level arithmetic cannot overflow. *)
Definition no_overflow (it : ity) : Prop := isg it = false \/ (iw it < 4)%nat.

Lemma int_sub_total it a b : no_overflow it -> exists z, int_sub it a b = Ok z.
Proof.
  intros [H|H]; unfold int_sub.
  - rewrite H. destruct (iw it <? 4)%nat; eauto.
  - apply Nat.ltb_lt in H. rewrite H. eauto.
Qed.

Lemma int_sub_computable it a b : computable it a b -> exists z, int_sub it a b = Ok z.
Proof.
  intros [H|[H|H]]; [apply int_sub_total; now left|apply int_sub_total; now right|].
  unfold int_sub. destruct (iw it <? 4)%nat; [eauto|]. destruct (isg it); [|eauto].
  unfold in_ityb, in_ity in *. destruct ((imin it <=? a - b) && (a - b <=? imax it))%Z eqn:E; [eauto|]. lia.
Qed.

Lemma int_sub_overflow it a b : ~ computable it a b -> int_sub it a b = UB.
Proof.
  intros H. unfold int_sub. destruct (Nat.ltb_spec (iw it) 4) as [E|E]; [exfalso; apply H; right; left; exact E|].
  destruct (isg it) eqn:Eg; [|exfalso; apply H; left; exact Eg].
  unfold in_ityb. destruct ((imin it <=? a - b) && (a - b <=? imax it))%Z eqn:F; [|reflexivity].
  exfalso. apply H. right. right. unfold in_ity. lia.
Qed.

Lemma int_sub_umax it a b : wf_ity it -> in_ity it a -> in_ity it b ->
  forall z, int_sub it a b = Ok z ->
  (b <= a -> z_to_umax z = Z.to_N (a - b))%Z /\
  (a < b -> z_to_umax z = Z.to_N (a - b + (if isg it then Z.of_N umax_base else
                                    if (iw it <? 4)%nat then Z.of_N umax_base else ibase it)))%Z.
Proof.
  intros Hw Ha Hb z. assert (wf_width (iw it)) as Hwd by exact Hw.
  assert (0 < ibase it /\ ibase it <= Z.of_N umax_base)%Z as Hib.
  { unfold ibase. destruct Hw as [-> |[-> |[-> | ->]]]; vm_compute; split; congruence. }
  assert (- Z.of_N umax_base <= a - b < Z.of_N umax_base /\ (b <= a -> a - b < ibase it) /\ (a < b -> - ibase it < a - b))%Z as Hr.
  { unfold in_ity, imin, imax in *. destruct (isg it); lia. }
  unfold int_sub. destruct (iw it <? 4)%nat eqn:E4.
  - intros [= <-]. split; intros H.
    + apply z_to_umax_small. lia.
    + rewrite z_to_umax_neg by lia. f_equal. destruct (isg it); lia.
  - destruct (isg it) eqn:Es.
    + destruct (in_ityb it (a - b)); [|discriminate]. intros [= <-]. split; intros H.
      * apply z_to_umax_small. lia.
      * rewrite z_to_umax_neg by lia. f_equal.
    + intros [= <-]. split; intros H.
      * rewrite Z.mod_small by lia. apply z_to_umax_small. lia.
      * replace ((a - b) mod ibase it)%Z with (a - b + ibase it)%Z.
        2:{ rewrite <- (Z.mod_small (a - b + ibase it) (ibase it)) by lia.
            rewrite <- Zplus_mod_idemp_r, Z_mod_same_full, Z.add_0_r. reflexivity. }
        apply z_to_umax_small. lia.
Qed.

Lemma enum_sent_reserved it s b : wf_ity it -> in_ity it s -> (exists z, int_sub it (int_decode it b) s = Ok z) -> sized (iw it) b ->
  (exists l, get_level (TEnumSent it s) b = Ok l) /\
  (reserved (TEnumSent it s) b <-> int_decode it b = s).
Proof.
  intros Hw Hs Hn [Hl Hb]. pose proof (int_decode_range it b Hw) as Hd.
  cbn [get_level]. unfold reserved. cbn [get_level max_level]. unfold enum_sent_get.
  destruct Hn as [z Hz]. rewrite Hz. cbn [rmap].
  destruct (int_sub_umax it _ _ Hw Hd Hs z Hz) as [H1 H2]. split; [eauto|].
  assert (0 < ibase it)%Z as Hib by (apply ibase_pos).
  split.
  - intros [l [[= <-] H]]. destruct (Z.lt_trichotomy (int_decode it b) s) as [Hlt|[E|Hgt]]; [|exact E|].
    + rewrite H2 in H by exact Hlt. exfalso. revert H.
      assert (Z.of_N umax_base >= ibase it)%Z by (unfold ibase; destruct Hw as [-> |[-> |[-> | ->]]]; vm_compute; congruence).
      unfold in_ity, imin, imax in *. destruct (isg it); [|destruct (iw it <? 4)%nat]; lia.
    + rewrite H1 in H by lia. lia.
  - intros E. eexists; split; [reflexivity|]. rewrite H1 by lia. lia.
Qed.

Lemma ibase_le_umax it : wf_ity it -> (ibase it <= Z.of_N umax_base)%Z.
Proof. intros Hw. unfold ibase. destruct Hw as [-> |[-> |[-> | ->]]]; vm_compute; congruence. Qed.

Lemma enum_range_level it s m b : wf_ity it -> in_ity it s -> (exists z, int_sub it (int_decode it b) s = Ok z) -> sized (iw it) b ->
  (Z.of_N m <= imax it - s + 1)%Z ->
  exists l, enum_range_get it s b = Ok l /\
    (l < m <-> (s <= int_decode it b < s + Z.of_N m)%Z) /\
    ((s <= int_decode it b)%Z -> Z.of_N l = (int_decode it b - s)%Z).
Proof.
  intros Hw Hs Hn [Hl Hb] Hm. pose proof (int_decode_range it b Hw) as Hd.
  unfold enum_range_get. destruct Hn as [z Hz]. rewrite Hz. cbn [rmap].
  destruct (int_sub_umax it _ _ Hw Hd Hs z Hz) as [H1 H2]. eexists. split; [reflexivity|].
  pose proof (ibase_pos it) as Hib. pose proof (ibase_le_umax it Hw) as Hiu.
  destruct (Z.le_gt_cases s (int_decode it b)) as [H|H].
  - rewrite H1 by exact H. lia.
  - rewrite H2 by exact H. unfold in_ity, imin, imax in *.
    split; [|lia]. destruct (isg it); [|destruct (iw it <? 4)%nat]; lia.
Qed.

Lemma enum_start_max_val it s : wf_ity it -> in_ity it s ->
  enum_start_max it s = 0 \/ Z.of_N (enum_start_max it s) = (imax it - s + 1)%Z.
Proof.
  intros Hw Hs. pose proof (ibase_pos it) as Hib. pose proof (ibase_le_umax it Hw) as Hiu.
  unfold enum_start_max. destruct (Z.eq_dec (imax it - s + 1) (Z.of_N umax_base)) as [E|E].
  - left. rewrite E. reflexivity.
  - right. rewrite z_to_umax_small; unfold in_ity, imin, imax in *; destruct (isg it); lia.
Qed.

Lemma enum_start_reserved it s b : wf_ity it -> in_ity it s -> (exists z, int_sub it (int_decode it b) s = Ok z) -> sized (iw it) b ->
  0 < max_level (TEnumStart it s) ->
  (exists l, get_level (TEnumStart it s) b = Ok l) /\
  (reserved (TEnumStart it s) b <-> (s <= int_decode it b)%Z) /\
  Z.of_N (max_level (TEnumStart it s)) = (imax it - s + 1)%Z.
Proof.
  intros Hw Hs Hn Hb Hm. cbn [get_level max_level] in *. unfold reserved. cbn [get_level max_level].
  destruct (enum_start_max_val it s Hw Hs) as [E|E]; [lia|].
  destruct (enum_range_level it s (enum_start_max it s) b Hw Hs Hn Hb ltac:(lia)) as (l & H1 & H2 & H3).
  rewrite H1. split; [eauto|]. split; [|exact E].
  pose proof (int_decode_range it b Hw) as Hd. unfold in_ity in Hd. split.
  - intros [l' [[= <-] Hl]]. apply H2 in Hl. lia.
  - intros H. exists l. split; [reflexivity|]. apply H2. lia.
Qed.

Lemma enum_start_end_max_val it s e : wf_ity it -> in_ity it s -> in_ity it e -> (s <= e)%Z -> range_fits it s e ->
  enum_start_end_max it s e = 0 \/ Z.of_N (enum_start_end_max it s e) = (e - s + 1)%Z.
Proof.
  intros Hw Hs He Hle Hf. pose proof (ibase_pos it) as Hib. pose proof (ibase_le_umax it Hw) as Hiu.
  unfold enum_start_end_max, range_fits in *. destruct (Nat.ltb_spec (iw it) 4) as [H4|H4]; cbn [orb].
  - right. assert (ibase it < Z.of_N umax_base)%Z.
    { unfold ibase. destruct Hw as [E|[E|[E|E]]]; rewrite E in *; vm_compute; congruence || lia. }
    unfold in_ity, imin, imax in *. rewrite z_to_umax_small; destruct (isg it); lia.
  - destruct (isg it) eqn:Eg.
    + specialize (Hf eq_refl ltac:(lia)). right. unfold imax in Hf. rewrite Eg in Hf.
      rewrite z_to_umax_small by lia. lia.
    + unfold in_ity, imin, imax in *. rewrite Eg in *. destruct (Z.eq_dec (e - s + 1) (ibase it)) as [E|E].
      * left. rewrite E, Z_mod_same_full. reflexivity.
      * right. rewrite Z.mod_small by lia. rewrite z_to_umax_small by lia. lia.
Qed.

Lemma enum_start_end_reserved it s e b : wf_ity it -> in_ity it s -> in_ity it e -> (s <= e)%Z ->
  range_fits it s e -> (exists z, int_sub it (int_decode it b) s = Ok z) -> sized (iw it) b -> 0 < max_level (TEnumStartEnd it s e) ->
  (exists l, get_level (TEnumStartEnd it s e) b = Ok l) /\
  (reserved (TEnumStartEnd it s e) b <-> (s <= int_decode it b <= e)%Z) /\
  Z.of_N (max_level (TEnumStartEnd it s e)) = (e - s + 1)%Z.
Proof.
  intros Hw Hs He Hle Hf Hn Hb Hm. cbn [get_level max_level] in *. unfold reserved. cbn [get_level max_level].
  destruct (enum_start_end_max_val it s e Hw Hs He Hle Hf) as [E|E]; [lia|].
  assert (e <= imax it)%Z as He2 by apply He.
  destruct (enum_range_level it s (enum_start_end_max it s e) b Hw Hs Hn Hb ltac:(lia)) as (l & H1 & H2 & H3).
  rewrite H1. split; [eauto|]. split; [|exact E].
  split.
  - intros [l' [[= <-] Hl]]. apply H2 in Hl. lia.
  - intros H. exists l. split; [reflexivity|]. apply H2. lia.
Qed.

(** * Which member carries the level (C12) *)
Lemma index_of_max_loop_spec rest : forall idx m i pre,
  i = length pre -> nth_error pre idx = Some m -> (forall j x, nth_error pre j = Some x -> x <= m) ->
  (forall j x, nth_error pre j = Some x -> (j < idx)%nat -> x < m) ->
  let r := index_of_max_loop idx m i rest in
  exists M, nth_error (pre ++ rest) r = Some M /\
    (forall j x, nth_error (pre ++ rest) j = Some x -> x <= M) /\
    (forall j x, nth_error (pre ++ rest) j = Some x -> (j < r)%nat -> x < M).
Proof.
  induction rest as [|y rest IH]; intros idx m i pre Hi Hm Hall Hfirst; cbn [index_of_max_loop].
  - rewrite app_nil_r. eauto.
  - assert (idx < length pre)%nat as Hidx by (apply nth_error_Some; congruence).
    assert (pre ++ y :: rest = (pre ++ [y]) ++ rest) as Eapp by (now rewrite <- app_assoc).
    assert (forall j x, nth_error (pre ++ [y]) j = Some x -> nth_error pre j = Some x \/ (j = length pre /\ x = y)) as Hsp.
    { intros j x Hj. destruct (Nat.lt_ge_cases j (length pre)) as [H|H].
      - left. now rewrite nth_error_app1 in Hj by exact H.
      - right. rewrite nth_error_app2 in Hj by exact H. destruct (j - length pre)%nat as [|d] eqn:Ed.
        + cbn in Hj. injection Hj as <-. split; [lia|reflexivity].
        + destruct d; discriminate. }
    rewrite Eapp. destruct (N.ltb_spec m y) as [Hlt|Hge].
    + apply IH.
      * rewrite app_length. cbn [length]. lia.
      * subst i. rewrite nth_error_app2 by lia. rewrite Nat.sub_diag. reflexivity.
      * intros j x Hj. destruct (Hsp j x Hj) as [H|[_ ->]]; [specialize (Hall j x H)|]; lia.
      * intros j x Hj Hji. destruct (Hsp j x Hj) as [H|[H _]]; [specialize (Hall j x H); lia|lia].
    + apply IH.
      * rewrite app_length. cbn [length]. lia.
      * now rewrite nth_error_app1 by exact Hidx.
      * intros j x Hj. destruct (Hsp j x Hj) as [H|[_ ->]]; [now apply (Hall j)|lia].
      * intros j x Hj Hji. destruct (Hsp j x Hj) as [H|[H _]]; [now apply (Hfirst j)|lia].
Qed.

Lemma index_of_max_spec ls : ls <> [] ->
  exists M, nth_error ls (index_of_max ls) = Some M /\
    (forall j x, nth_error ls j = Some x -> x <= M) /\
    (forall j x, nth_error ls j = Some x -> (j < index_of_max ls)%nat -> x < M).
Proof.
  destruct ls as [|y ls]; [congruence|]. intros _. unfold index_of_max.
  apply (index_of_max_loop_spec ls 0 y 1 [y]); [reflexivity|reflexivity|..].
  - intros j x Hj. destruct j as [|[|j]]; cbn in Hj; try discriminate. injection Hj as <-. lia.
  - intros j x _ H. lia.
Qed.

(** The tuple carrier: the first member with the largest number of levels. *)
Lemma tuple_carrier fs n a : fs <> [] ->
  exists i o ft, nth_error fs i = Some (o, ft) /\
    (forall j o' ft', nth_error fs j = Some (o', ft') -> max_level ft' <= max_level ft) /\
    (forall j o' ft', nth_error fs j = Some (o', ft') -> (j < i)%nat -> max_level ft' < max_level ft) /\
    max_level (TTuple fs n a) = max_level ft /\
    (forall b, get_level (TTuple fs n a) b = get_level ft (slice o (sizeof ft) b)) /\
    (forall l b, set_level (TTuple fs n a) l b =
       rmap (fun s => splice o s b) (set_level ft l (slice o (sizeof ft) b))).
Proof.
  intros Hne. destruct (index_of_max_spec (map (fun f => max_level (snd f)) fs)) as (M & H1 & H2 & H3).
  { destruct fs; cbn; congruence. }
  set (i := index_of_max (map (fun f => max_level (snd f)) fs)) in *.
  destruct (nth_error fs i) as [[o ft]|] eqn:E.
  2:{ rewrite nth_error_map, E in H1. discriminate. }
  exists i, o, ft. rewrite nth_error_map, E in H1. cbn in H1. injection H1 as H1.
  split; [exact E|]. split; [|split; [|split; [|split]]].
  - intros j o' ft' Hj. rewrite H1. apply (H2 j). now rewrite nth_error_map, Hj.
  - intros j o' ft' Hj Hji. rewrite H1. apply (H3 j); [now rewrite nth_error_map, Hj|exact Hji].
  - exact (max_tuple fs n a o ft E).
  - intros b. exact (get_tuple fs n a b o ft E).
  - intros l b. exact (set_tuple fs n a l b o ft E).
Qed.

(** * PADDING (C14) *)
Lemma padding_wide_levels n a off w : (4 <= w)%nat -> wf_w w ->
  levels (TPadding n a off w) = max_level (TPadding n a off w).
Proof.
  intros H4 Hw. cbn [levels max_level]. unfold padding_max.
  destruct (Nat.ltb_spec w 4); [lia|reflexivity].
Qed.

(** * sentinel (C15) *)
Lemma sentinel_get_lt i vals x : (exists k v, nth_error vals k = Some v /\ x = v) ->
  i + N.of_nat (length vals) < umax_base ->
  sentinel_get_impl i vals x < i + N.of_nat (length vals).
Proof.
  revert i. induction vals as [|v vals IH]; intros i (k & w & Hk & ->) Hb; [destruct k; discriminate|].
  cbn [sentinel_get_impl length] in *. destruct (Z.eqb_spec w v) as [E|E]; [lia|].
  destruct k as [|k]; cbn in Hk; [congruence|].
  specialize (IH (i + 1) ltac:(eauto) ltac:(lia)). lia.
Qed.

Lemma sentinel_reserved it vals b : N.of_nat (length vals) < umax_base ->
  (reserved (TSentinel it vals) b <-> In (int_decode it b) vals).
Proof.
  intros Hb. unfold reserved. cbn [get_level max_level]. unfold sentinel_get. split.
  - intros [l [[= <-] H]]. destruct (in_dec Z.eq_dec (int_decode it b) vals) as [Hi|Hi]; [exact Hi|].
    rewrite sentinel_get_notin in H by exact Hi. lia.
  - intros Hin. eexists; split; [reflexivity|].
    apply In_nth_error in Hin as [k Hk].
    pose proof (sentinel_get_lt 0 vals (int_decode it b) ltac:(eauto) ltac:(lia)). lia.
Qed.

(** * User-supplied pieces (C16) *)
Section UserPieces.
  Variable size align : nat.
  Hypothesis Hlay : wf_layout size align.

  Lemma sot_wf eqv assign sent :
    sized size sent -> (forall b, sized size b -> sized size (assign b sent)) ->
    (forall b, length (assign b sent) = length b) ->
    (forall b, sized size b -> eqv (assign b sent) sent = true) ->
    wf (sot_type size align eqv assign sent).
  Proof.
    intros Hs Ha Hlen He. cbn [sot_type wf]. split; [exact Hlay|]. split; [reflexivity|]. split; [|split; [|split]].
    - intros l b Hl Hb. assert (l = 0) as -> by lia. unfold sot_set, sot_get. cbn [N.eqb verify].
      exists (assign b sent). split; [reflexivity|]. split; [now apply Ha|]. now rewrite He.
    - intros b _ Hb Hi. unfold sot_get. rewrite Hi. exists 1. split; [reflexivity|]. split; [lia|reflexivity].
    - intros l b b'. unfold sot_set, verify. destruct (l =? 0); [|discriminate]. intros [= <-]. apply Hlen.
    - intros b l. unfold sot_get. intros [= <-]. destruct (eqv b sent); reflexivity.
  Qed.

  Lemma sf_single_wf V (compare : bytes -> V -> bool) (setv : bytes -> V -> bytes) v :
    (forall b, sized size b -> sized size (setv b v)) -> (forall b, length (setv b v) = length b) ->
    (forall b, sized size b -> compare (setv b v) v = true) ->
    wf (sf_type V size align compare setv [v]).
  Proof.
    intros Hs Hlen Hc. cbn [sf_type wf length]. split; [exact Hlay|]. split; [reflexivity|]. split; [|split; [|split]].
    - intros l b Hl Hb. assert (l = 0) as -> by lia. cbn [sf_set N.eqb sf_get].
      exists (setv b v). split; [reflexivity|]. split; [now apply Hs|]. now rewrite Hc.
    - intros b _ Hb Hi. cbn [sf_get]. rewrite (Hi v (or_introl eq_refl)).
      eexists. split; [reflexivity|]. split; [vm_compute; congruence|vm_compute; congruence].
    - intros l b b'. cbn [sf_set]. destruct (l =? 0); [|discriminate]. intros [= <-]. apply Hlen.
    - intros b l. cbn [sf_get]. intros [= <-]. destruct (compare b v); reflexivity.
  Qed.

  (** With the evident intention of the recursive calls restored, any number of constants works as
      soon as Set makes the right comparison true and no earlier one. *)
  Lemma sf_fixed_wf V (compare : bytes -> V -> bool) (setv : bytes -> V -> bytes) vals :
    N.of_nat (length vals) < umax_base ->
    (forall b v, In v vals -> sized size b -> sized size (setv b v)) ->
    (forall b v, length (setv b v) = length b) ->
    (forall b k v, sized size b -> nth_error vals k = Some v ->
       compare (setv b v) v = true /\
       forall j u, (j < k)%nat -> nth_error vals j = Some u -> compare (setv b v) u = false) ->
    wf (sf_type_fixed V size align compare setv vals).
  Proof.
    intros Hb Hs Hlen Hc. cbn [sf_type_fixed wf]. split; [exact Hlay|]. split; [exact Hb|]. split; [|split; [|split]].
    - intros l b Hl Hsz.
      assert (exists v, nth_error vals (N.to_nat l) = Some v) as [v Hv].
      { destruct (nth_error vals (N.to_nat l)) eqn:E; [eauto|]. apply nth_error_None in E. lia. }
      assert (forall i vs, (forall k, nth_error vs k = nth_error vals (i + k)%nat) -> (i <= N.to_nat l)%nat ->
                sf_set_fixed V setv (N.of_nat i) vs l b = Ok (setv b v)) as Hset.
      { intros i vs. revert i. induction vs as [|u vs IH]; intros i Hn Hi.
        - specialize (Hn (N.to_nat l - i)%nat). replace (i + (N.to_nat l - i))%nat with (N.to_nat l) in Hn by lia.
          rewrite Hv in Hn. destruct (N.to_nat l - i)%nat; discriminate.
        - cbn [sf_set_fixed]. destruct (N.eqb_spec l (N.of_nat i)) as [E|E].
          + specialize (Hn 0%nat). cbn in Hn. replace (i + 0)%nat with (N.to_nat l) in Hn by lia.
            rewrite Hv in Hn. injection Hn as ->. reflexivity.
          + replace (N.of_nat i + 1) with (N.of_nat (S i)) by lia. apply IH; [|lia].
            intros k. specialize (Hn (S k)). cbn in Hn. rewrite Hn. f_equal. lia. }
      assert (forall i vs, (forall k, nth_error vs k = nth_error vals (i + k)%nat) -> (i <= N.to_nat l)%nat ->
                sf_get_fixed V compare (N.of_nat i) vs (setv b v) = l) as Hget.
      { intros i vs. revert i. induction vs as [|u vs IH]; intros i Hn Hi.
        - specialize (Hn (N.to_nat l - i)%nat). replace (i + (N.to_nat l - i))%nat with (N.to_nat l) in Hn by lia.
          rewrite Hv in Hn. destruct (N.to_nat l - i)%nat; discriminate.
        - cbn [sf_get_fixed]. destruct (Hc b (N.to_nat l) v Hsz Hv) as [Hc1 Hc2].
          pose proof (Hn 0%nat) as Hn0. cbn in Hn0. rewrite Nat.add_0_r in Hn0.
          destruct (Nat.eq_dec i (N.to_nat l)) as [E|E].
          + rewrite E, Hv in Hn0. injection Hn0 as ->. rewrite Hc1. lia.
          + rewrite (Hc2 i u) by (congruence || lia). replace (N.of_nat i + 1) with (N.of_nat (S i)) by lia.
            apply IH; [|lia]. intros k. specialize (Hn (S k)). cbn in Hn. rewrite Hn. f_equal. lia. }
      exists (setv b v). split; [apply (Hset 0%nat vals); [reflexivity|lia]|].
      split; [apply Hs; [eapply nth_error_In; eauto|exact Hsz]|].
      f_equal. apply (Hget 0%nat vals); [reflexivity|lia].
    - intros b Hm Hsz Hi. eexists. split; [reflexivity|].
      assert (forall i vs, incl vs vals -> sf_get_fixed V compare i vs b = umax_base - 1) as Hg.
      { intros i vs. revert i. induction vs as [|u vs IH]; intros i Hincl; cbn [sf_get_fixed]; [reflexivity|].
        rewrite Hi by (apply Hincl; now left). apply IH. intros x Hx. apply Hincl. now right. }
      rewrite Hg by apply incl_refl. lia.
    - intros l b b'. clear - Hlen. assert (forall i vs, sf_set_fixed V setv i vs l b = Ok b' -> length b' = length b) as G.
      { intros i vs. revert i. induction vs as [|u vs IH]; intros i; cbn [sf_set_fixed]; [discriminate|].
        destruct (l =? i); [|apply IH]. intros [= <-]. apply Hlen. }
      apply G.
    - intros b l [= <-]. clear - Hb. assert (forall vs i, N.of_nat (length vs) + i < umax_base -> sf_get_fixed V compare i vs b < umax_base) as G.
      { induction vs as [|u vs IH]; intros i Hi; cbn [sf_get_fixed length] in *; [reflexivity|].
        destruct (compare b u); [lia|apply IH; lia]. }
      apply G. lia.
  Qed.
End UserPieces.

(** * Detection of reserved values (C25) *)
Lemma construct_detects t v b b' : length b = sizeof (TOption t) -> length v = sizeof t -> wf t ->
  opt_construct t v b = Ok b' ->
  opt_has_value t b' = Ok true /\ opt_get t b' = Ok v.
Proof.
  intros Hb Hv Hw. pose proof (option_size_ge t Hw) as Hge. unfold opt_construct.
  assert (forall b1, opt_has_value t b1 = Ok true -> slice 0 (sizeof t) b1 = v -> opt_get t b1 = Ok v) as G.
  { intros b1 H1 H2. unfold opt_get. rewrite H1. cbn [rbind verify]. now rewrite H2. }
  destruct (N.eqb_spec (max_level t) 0) as [E|E].
  - intros [= <-]. pose proof (sizeof_flagged t Hw E) as Hsz.
    assert (opt_has_value t (write_bool (sizeof t) true (splice 0 v b)) = Ok true) as Hh.
    { unfold opt_has_value. rewrite E. cbn [N.eqb]. unfold read_bool, write_bool.
      rewrite read_write_word by (rewrite splice_length; lia). reflexivity. }
    split; [exact Hh|]. apply G; [exact Hh|]. unfold write_bool, write_word.
    rewrite slice_splice_disjoint.
    + apply slice_splice_same; [congruence|lia].
    + rewrite le_encode_length, splice_length; lia.
    + rewrite le_encode_length. lia.
  - destruct (opt_has_value t (splice 0 v b)) as [h| |] eqn:Eh; try discriminate. cbn [rbind]. unfold verify.
    destruct h; [|discriminate]. intros [= <-]. split; [exact Eh|]. apply G; [exact Eh|].
    apply slice_splice_same; [congruence|lia].
Qed.

Lemma construct_level0 t v b : wf t -> max_level t <> 0 -> length b = sizeof (TOption t) -> length v = sizeof t ->
  get_level t v = Ok 0 -> opt_construct t v b = Verify.
Proof.
  intros Hw E Hb Hv Hg. rewrite option_size_traits in Hb by exact E.
  unfold opt_construct, opt_has_value. apply N.eqb_neq in E. rewrite E.
  rewrite splice_all by congruence. rewrite Hg. reflexivity.
Qed.

Lemma opt_reset_len td t b b' : wf (TOption t) -> sized (sizeof (TOption t)) b ->
  opt_reset td t b = Ok b' -> sized (sizeof (TOption t)) b'.
Proof.
  intros Hw Hb Hr. destruct td.
  - destruct (opt_reset_ok true t b Hw Hb) as [b1 [H1 [H2 _]]]; [discriminate|].
    assert (b1 = b') as <- by congruence. now apply valid_sized.
  - unfold opt_reset in Hr. destruct (opt_has_value t b) as [h| |] eqn:Eh; try discriminate. cbn [rbind] in Hr.
    destruct h; [|injection Hr as <-; exact Hb].
    destruct (opt_reset_ok true t b Hw Hb) as [b1 [H1 [H2 _]]]; [discriminate|].
    unfold opt_reset in H1. assert (b1 = b') as <- by congruence. now apply valid_sized.
Qed.

Lemma emplace_detects td t v b b' : sized (sizeof (TOption t)) b -> length v = sizeof t -> wf (TOption t) ->
  opt_emplace td t v b = Ok b' -> opt_has_value t b' = Ok true /\ opt_get t b' = Ok v.
Proof.
  intros Hb Hv Hw. unfold opt_emplace. destruct (opt_reset td t b) as [b1| |] eqn:E; try discriminate.
  cbn [rbind]. pose proof (opt_reset_len td t b b1 Hw Hb E) as [Hl _]. apply construct_detects; try assumption.
  apply Hw.
Qed.

Lemma assign_value_detects sc t v b b' : sized (sizeof (TOption t)) b -> length v = sizeof t -> wf (TOption t) ->
  opt_assign_value sc t v b = Ok b' -> opt_has_value t b' = Ok true /\ opt_get t b' = Ok v.
Proof.
  intros [Hb Hbb] Hv Hw. pose proof (option_size_ge t (proj1 Hw)) as Hge.
  unfold opt_assign_value. destruct sc; [apply construct_detects; try assumption; apply Hw|].
  destruct (opt_has_value t b) as [[|]| |]; try discriminate; cbn [rbind].
  - destruct (opt_has_value t (splice 0 v b)) as [h| |] eqn:Eh; try discriminate. cbn [rbind]. unfold verify.
    destruct h; [|discriminate]. intros [= <-]. split; [exact Eh|].
    unfold opt_get. rewrite Eh. cbn [rbind verify]. f_equal. apply slice_splice_same; [congruence|lia].
  - apply construct_detects; try assumption; apply Hw.
Qed.

Lemma try_emplace_detects t v b b' : sized (sizeof (TOption t)) b -> length v = sizeof t -> wf (TOption t) ->
  opt_has_value t b = Ok false ->
  opt_try_emplace t v b = Ok b' -> opt_has_value t b' = Ok true /\ opt_get t b' = Ok v.
Proof.
  intros [Hb Hbb] Hv Hw Hh. unfold opt_try_emplace. rewrite Hh. cbn [rbind].
  apply construct_detects; try assumption; apply Hw.
Qed.
