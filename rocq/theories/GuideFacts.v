(** The documented specialisations keep, or break, the rules for option_traits. *)
From Coq Require Import ZArith NArith List Bool Arith Lia ZifyBool ZifyNat ZifyN.
From Verif Require Import Outcome Words WordsFacts Ints IntsFacts Types OptBytes TypesSpec TypesFacts OptBytesFacts NatvisFacts Guide GuideSpec.
Import ListNotations.
Open Scope N_scope.

(** Options of any depth of a well-formed type are well-formed, if its levels are what max_level says. *)
Lemma nest_wf t : wf t -> levels t = max_level t -> forall k, wf (nest k t) /\ levels (nest k t) = max_level (nest k t).
Proof.
  intros Hw Hl. induction k as [|k [IH1 IH2]]; [split; assumption|]. cbn [nest wf levels max_level]. rewrite IH2.
  split; [split; [exact IH1|lia]|]. destruct (max_level (nest k t) =? 0); reflexivity.
Qed.

(** * Members *)
Lemma put_length off src b : length (put off src b) = length b.
Proof. unfold put. destruct (Nat.leb_spec (off + length src) (length b)); [now apply splice_length|reflexivity]. Qed.
Lemma assign_length it off z b : length (assign it off z b) = length b.
Proof. apply put_length. Qed.
Lemma assign_bytes it off z b : is_bytes b -> is_bytes (assign it off z b).
Proof. intros H. unfold assign, put. destruct (_ <=? _)%nat; [|exact H]. apply splice_bytes; [apply int_encode_bytes|exact H]. Qed.
Lemma load_assign it off z b : wf_ity it -> (off + iw it <= length b)%nat -> load it off (assign it off z b) = wrap it z.
Proof.
  intros Hi Hb. unfold load, assign, put. rewrite int_encode_length. destruct (Nat.leb_spec (off + iw it) (length b)); [|lia].
  rewrite slice_splice_same by (rewrite ?int_encode_length; lia). apply int_decode_encode; [exact Hi|apply wrap_range, Hi].
Qed.
Lemma load_assign_other it off o z b : wf_ity it -> (off + iw it <= length b)%nat ->
  (o + iw it <= off \/ off + iw it <= o)%nat -> load it o (assign it off z b) = load it o b.
Proof.
  intros Hi Hb Ho. unfold load, assign, put. rewrite int_encode_length. destruct (Nat.leb_spec (off + iw it) (length b)); [|lia].
  rewrite slice_splice_disjoint by (rewrite ?int_encode_length; lia). reflexivity.
Qed.

Lemma wf32 : wf_ity int32.
Proof. right; right; left; reflexivity. Qed.
Lemma range32 off b : (-2147483648 <= load int32 off b <= 2147483647)%Z.
Proof. exact (int_decode_range int32 (slice off 4 b) wf32). Qed.
Lemma wrap32 z : (-2147483648 <= z <= 2147483647)%Z -> wrap int32 z = z.
Proof. intros H. apply wrap_id; [exact wf32|exact H]. Qed.

(** * my_type *)
Lemma my_set_reads l b : l < 2147483648 -> (8 <= length b)%nat ->
  exists b', my_set l b = Ok b' /\ length b' = length b /\ (is_bytes b -> is_bytes b') /\
    my_x b' = (-1)%Z /\ my_y b' = Z.of_N l /\
    forall off, (8 <= off)%nat -> load int32 off b' = load int32 off b.
Proof.
  intros Hl Hb. eexists. split; [reflexivity|]. split; [now rewrite !assign_length|].
  split; [intros H; now apply assign_bytes, assign_bytes|]. unfold my_x, my_y.
  assert (Hb' : (4 + iw int32 <= length (assign int32 0 (-1) b))%nat) by (rewrite assign_length; exact Hb).
  split; [|split].
  - rewrite load_assign_other by (try exact wf32; try exact Hb'; cbn; lia).
    rewrite load_assign by (try exact wf32; cbn; lia). reflexivity.
  - rewrite load_assign by (try exact wf32; exact Hb'). apply wrap32. lia.
  - intros off Ho. rewrite load_assign_other by (try exact wf32; try exact Hb'; cbn; lia).
    apply load_assign_other; [exact wf32|cbn; lia|cbn; lia].
Qed.

Lemma my_get_eq b l : l < 2147483648 -> (my_get b = Ok l <-> my_x b = (-1)%Z /\ my_y b = Z.of_N l).
Proof.
  intros Hl. unfold my_get. pose proof (range32 4 b) as Hy. fold my_y in Hy.
  destruct (Z.eqb_spec (my_x b) (-1)) as [E|E].
  - split.
    + intros H. injection H as H. split; [exact E|]. destruct (Z.ltb_spec (my_y b) 0).
      * rewrite z_to_umax_neg in H by (unfold umax_base; lia). unfold umax_base in H. lia.
      * rewrite z_to_umax_small in H by (unfold umax_base; lia). lia.
    + intros [_ H]. rewrite H, z_to_umax_small by (unfold umax_base; lia). now rewrite N2Z.id.
  - split; [|tauto]. intros H. injection H as H. unfold umax_base in H. lia.
Qed.

Lemma my_get_ge b m : m < 2147483648 -> ~ (my_x b = (-1)%Z /\ (0 <= my_y b < Z.of_N m)%Z) ->
  exists l, my_get b = Ok l /\ m <= l /\ l < umax_base.
Proof.
  intros Hm Hv. unfold my_get. eexists. split; [reflexivity|]. pose proof (range32 4 b) as Hy. fold my_y in Hy.
  destruct (Z.eqb_spec (my_x b) (-1)) as [E|E]; [|unfold umax_base; lia]. split; [|apply z_to_umax_bound].
  destruct (Z.ltb_spec (my_y b) 0).
  - rewrite z_to_umax_neg by (unfold umax_base; lia). unfold umax_base. lia.
  - rewrite z_to_umax_small by (unfold umax_base; lia). lia.
Qed.

Lemma my_wf_gen n m : (8 <= n)%nat -> Nat.divide 4 n -> m < 2147483648 ->
  wf (TCustom n 4 m my_get my_set (fun b => ~ (my_x b = (-1)%Z /\ (0 <= my_y b < Z.of_N m)%Z))).
Proof.
  intros Hn Hd Hm. cbn [wf]. split; [split; [lia|split; [lia|exact Hd]]|]. split; [unfold umax_base; lia|]. split; [|split; [|split]].
  - intros l b Hl [Hb Hi]. destruct (my_set_reads l b) as (b' & H1 & H2 & H3 & H4 & H5 & _); [lia|lia|].
    exists b'. split; [exact H1|]. split; [split; [lia|auto]|]. apply my_get_eq; [lia|auto].
  - intros b _ _ Hv. now apply my_get_ge.
  - intros l b b' H. injection H as <-. now rewrite !assign_length.
  - intros b l H. injection H as <-. destruct (my_x b =? -1)%Z; [apply z_to_umax_bound|unfold umax_base; lia].
Qed.

Lemma my_type_wf : wf my_type.
Proof. apply (my_wf_gen 8 100); [lia|exists 2%nat; lia|lia]. Qed.
Lemma my_type_4_meant_wf : wf my_type_4_meant.
Proof. apply (my_wf_gen 12 10000); [lia|exists 3%nat; lia|lia]. Qed.

(** The options around a my_type are as the guide's comments say. *)
Lemma my_has l b : l < 100 -> opt_has_value (nest (N.to_nat l) my_type) b = Ok (negb ((my_x b =? -1)%Z && (my_y b =? Z.of_N l)%Z)).
Proof.
  intros Hl. unfold my_get. destruct (my_x b =? -1)%Z eqn:E.
  - rewrite (nest_has my_type b (z_to_umax (my_y b))); rewrite ?N2Nat.id.
    + f_equal. f_equal. cbn [andb]. pose proof (range32 4 b) as Hy. fold my_y in Hy.
      destruct (Z.ltb_spec (my_y b) 0).
      * rewrite z_to_umax_neg by (unfold umax_base; lia). unfold umax_base. lia.
      * rewrite z_to_umax_small by (unfold umax_base; lia). lia.
    + cbn [my_type get_level]. unfold my_get. now rewrite E.
    + apply z_to_umax_bound.
    + exact Hl.
    + unfold umax_base. lia.
  - rewrite (nest_has my_type b (umax_base - 1)); rewrite ?N2Nat.id.
    + f_equal. cbn [andb]. unfold umax_base. lia.
    + cbn [my_type get_level]. unfold my_get. now rewrite E.
    + unfold umax_base. lia.
    + exact Hl.
    + unfold umax_base. lia.
Qed.

Lemma nest_set t b : forall k l, N.of_nat k <= max_level t -> l + N.of_nat k < umax_base ->
  set_level (nest k t) l b = set_level t (l + N.of_nat k) b.
Proof.
  induction k as [|k IH]; intros l Hk Hb; [cbn [nest]; now rewrite N.add_0_r|].
  cbn [nest set_level]. rewrite nest_max_level.
  destruct (N.leb_spec (N.of_nat k) (max_level t)); [|lia].
  destruct (N.eqb_spec (max_level t - N.of_nat k) 0); [lia|].
  unfold avail_set, to_umax. rewrite N.mod_small by lia. rewrite IH by lia. f_equal. lia.
Qed.

(** reset() of the option in which l others are nested. *)
Lemma my_reset td l b : l < 100 -> (8 <= length b)%nat -> td = true \/ opt_has_value (nest (N.to_nat l) my_type) b = Ok true ->
  exists b', opt_reset td (nest (N.to_nat l) my_type) b = Ok b' /\ my_x b' = (-1)%Z /\ my_y b' = Z.of_N l.
Proof.
  intros Hl Hb Ht. destruct (my_set_reads l b) as (b' & H1 & _ & _ & H4 & H5 & _); [lia|lia|]. exists b'.
  assert (Hm : max_level (nest (N.to_nat l) my_type) =? 0 = false).
  { rewrite nest_max_level. cbn [my_type max_level]. destruct (N.leb_spec (N.of_nat (N.to_nat l)) 100); lia. }
  assert (Hs : set_level (nest (N.to_nat l) my_type) 0 b = Ok b').
  { rewrite nest_set; rewrite ?N2Nat.id; [exact H1|cbn; lia|unfold umax_base; lia]. }
  split; [|auto]. unfold opt_reset. rewrite Hm, Hs. cbn [rbind]. rewrite my_has by exact Hl. rewrite H4, H5.
  rewrite !Z.eqb_refl. cbn [andb negb rbind verify].
  destruct Ht as [->|Ht]; [reflexivity|]. destruct td; [reflexivity|]. rewrite my_has in Ht by exact Hl.
  rewrite ?my_has by exact Hl. rewrite ?Ht. reflexivity.
Qed.

(** * my_type_3 *)
Lemma z_to_umax_nonzero z : (- 18446744073709551616 < z < 18446744073709551616)%Z -> z <> 0%Z ->
  1 <= z_to_umax z /\ z_to_umax z < umax_base.
Proof.
  intros Hz H0. split; [|apply z_to_umax_bound]. destruct (Z.ltb_spec z 0).
  - rewrite z_to_umax_neg by (unfold umax_base; lia). unfold umax_base. lia.
  - rewrite z_to_umax_small by (unfold umax_base; lia). lia.
Qed.

Lemma my3_wf it : wf_ity it -> isg it = true \/ (4 <= iw it)%nat -> wf (my_type_3 it).
Proof.
  intros Hi Hs. cbn [my_type_3 wf].
  assert (Hiw : (0 < iw it)%nat) by (destruct Hi as [E|[E|[E|E]]]; lia).
  split; [split; [exact Hiw|split; [exact Hiw|exists 1%nat; lia]]|]. split; [reflexivity|]. split; [|split; [|split]].
  - intros l b Hl [Hb Hy]. eexists. split; [reflexivity|]. split; [split; [now rewrite assign_length|now apply assign_bytes]|].
    unfold my3_get. rewrite load_assign by (exact Hi || lia). replace l with 0 by lia.
    destruct it as [w sg]. unfold wf_ity in Hi. cbn [iw isg] in *.
    destruct Hi as [E|[E|[E|E]]]; subst w; destruct sg; try (destruct Hs; [discriminate|lia]); vm_compute; reflexivity.
  - intros b _ [Hb Hy] [Hv1 Hv2]. unfold my3_get.
    assert (Hr : in_ity it (load it 0 b)) by (apply int_decode_range, Hi).
    set (x := load it 0 b) in *. clearbody x.
    assert (Hb8 : (0 < ibase it <= 18446744073709551616)%Z).
    { destruct it as [w sg]. unfold wf_ity, ibase in *. cbn [iw] in *. destruct Hi as [E|[E|[E|E]]]; subst w; vm_compute; split; congruence. }
    assert (He : (2 * (ibase it / 2) = ibase it)%Z).
    { destruct it as [w sg]. unfold wf_ity, ibase in *. cbn [iw] in *. destruct Hi as [E|[E|[E|E]]]; subst w; reflexivity. }
    assert (Hw1 : wrap it (-1) = if isg it then (-1)%Z else (ibase it - 1)%Z).
    { destruct it as [w sg]. unfold wf_ity in Hi. cbn [iw isg] in *. destruct Hi as [E|[E|[E|E]]]; subst w; destruct sg; reflexivity. }
    rewrite Hw1 in Hv1. clear Hw1. unfold in_ity, imin in Hr. unfold int_add.
    destruct (Nat.ltb_spec (iw it) 4) as [H4|H4].
    + destruct Hs as [Hs|]; [|lia]. rewrite Hs in *. unfold imax in Hr. rewrite Hs in Hr.
      eexists. split; [reflexivity|]. apply z_to_umax_nonzero; lia.
    + destruct (isg it) eqn:Es.
      * specialize (Hv2 eq_refl H4). unfold in_ityb. unfold imin, imax in *. rewrite Es in *.
        destruct (Z.leb_spec (- (ibase it / 2)) (x + 1)); [|lia]. destruct (Z.leb_spec (x + 1) (ibase it / 2 - 1)); [|lia].
        cbn [andb rmap]. eexists. split; [reflexivity|]. apply z_to_umax_nonzero; lia.
      * unfold imax in Hr. rewrite Es in Hr. eexists. split; [reflexivity|]. rewrite Z.mod_small by lia. apply z_to_umax_nonzero; lia.
  - intros l b b' H. injection H as <-. apply assign_length.
  - intros b l H. unfold my3_get in H. destruct (int_add it (load it 0 b) 1); try discriminate. injection H as <-. apply z_to_umax_bound.
Qed.

(** T = unsigned char, unsigned short: after -1 has been stored, x + 1 is 256 or 65536. *)
Lemma my3_narrow it b : wf_ity it -> isg it = false -> (iw it < 4)%nat -> length b = iw it ->
  opt_default (my_type_3 it) b = Verify.
Proof.
  intros Hi Hs H4 Hb. unfold opt_default. cbn [my_type_3 max_level set_level]. unfold my3_set.
  change (1 =? 0) with false. cbv iota. cbn [rbind]. unfold opt_has_value. cbn [my_type_3 max_level get_level]. change (1 =? 0) with false. cbv iota.
  unfold my3_get. rewrite load_assign by (exact Hi || lia). destruct it as [w sg]. unfold wf_ity in Hi. cbn [iw isg] in *. subst sg.
  destruct Hi as [E|[E|[E|E]]]; subst w; try lia; reflexivity.
Qed.

(** Signed T: the largest number overflows. *)
Lemma my3_overflow it b : wf_ity it -> isg it = true -> (4 <= iw it)%nat -> load it 0 b = imax it ->
  opt_has_value (my_type_3 it) b = UB.
Proof.
  intros Hi Hs H4 Hx. unfold opt_has_value. cbn [my_type_3 max_level get_level]. change (1 =? 0) with false. cbv iota.
  unfold my3_get. rewrite Hx. unfold int_add. destruct (Nat.ltb_spec (iw it) 4); [lia|]. rewrite Hs.
  unfold in_ityb. destruct (Z.leb_spec (imax it + 1) (imax it)); [lia|]. rewrite andb_false_r. reflexivity.
Qed.

(** * my_type_4 *)
Lemma my4_default b : length b = 12%nat ->
  opt_default my_type_4 b = if (my_x b =? -1)%Z then my4_set 0 b else Verify.
Proof.
  intros Hb. unfold opt_default. cbn [my_type_4 max_level set_level]. unfold my4_set.
  change (10000 =? 0) with false. cbv iota zeta. cbn [rbind]. unfold opt_has_value. cbn [my_type_4 max_level get_level].
  change (10000 =? 0) with false. cbv iota. unfold my_get, my_x, my_y.
  rewrite load_assign_other by (try exact wf32; cbn; lia). rewrite load_assign by (try exact wf32; cbn; lia).
  destruct (load int32 0 b =? -1)%Z; reflexivity.
Qed.

(** * float, some_struct, the as_option example *)
Lemma zero_float_wf : wf zero_float.
Proof.
  cbn [zero_float wf]. split; [split; [lia|split; [lia|exists 1%nat; lia]]|]. split; [reflexivity|]. split; [|split; [|split]].
  - intros l b Hl [Hb Hi]. eexists. split; [reflexivity|]. replace l with 0 by lia.
    unfold put. rewrite le_encode_length, Hb. cbn [Nat.leb Nat.add]. rewrite splice_all by (rewrite le_encode_length; lia).
    split; [split; [reflexivity|apply le_encode_bytes]|reflexivity].
  - intros b _ [Hb Hi] [H1 H2]. eexists. split; [reflexivity|]. unfold float_is_zero.
    destruct (N.eqb_spec (le_decode b) 0); [lia|]. destruct (N.eqb_spec (le_decode b) 0x80000000); [lia|].
    cbn [orb]. unfold umax_base. lia.
  - intros l b b' H. injection H as <-. apply put_length.
  - intros b l H. injection H as <-. unfold umax_base. destruct (float_is_zero b); lia.
Qed.

Lemma some_struct_wf : wf some_struct.
Proof.
  cbn [some_struct wf]. split; [split; [lia|split; [lia|exists 1%nat; lia]]|]. split; [reflexivity|]. split; [|split; [|split]].
  - intros l b Hl [Hb Hi]. eexists. split; [reflexivity|]. replace l with 0 by lia.
    split; [split; [now rewrite assign_length|now apply assign_bytes]|].
    unfold some_get. rewrite load_assign by (try exact wf32; cbn; lia). reflexivity.
  - intros b _ _ H. eexists. split; [reflexivity|]. destruct (Z.eqb_spec (load int32 0 b) (-1)); [lia|]. unfold umax_base. lia.
  - intros l b b' H. injection H as <-. apply assign_length.
  - intros b l H. injection H as <-. unfold umax_base. destruct (_ =? _)%Z; lia.
Qed.

Lemma hundred_wf : wf hundred.
Proof.
  cbn [hundred wf]. split; [split; [lia|split; [lia|exists 1%nat; lia]]|]. split; [reflexivity|]. split; [|split; [|split]].
  - intros l b Hl [Hb Hi]. eexists. split; [reflexivity|]. replace l with 0 by lia.
    split; [split; [now rewrite assign_length|now apply assign_bytes]|].
    unfold hundred_get. rewrite load_assign by (try exact wf32; cbn; lia). reflexivity.
  - intros b _ _ [H1 H2]. pose proof (range32 0 b) as Hr. unfold hundred_get, int_sub. change (iw int32 <? 4)%nat with false. cbv iota.
    change (isg int32) with true. cbv iota. unfold in_ityb. change (imin int32) with (-2147483648)%Z. change (imax int32) with 2147483647%Z.
    destruct (Z.leb_spec (-2147483648) (load int32 0 b - 100)); [|lia]. destruct (Z.leb_spec (load int32 0 b - 100) 2147483647); [|lia].
    cbn [andb rmap]. eexists. split; [reflexivity|]. apply z_to_umax_nonzero; lia.
  - intros l b b' H. injection H as <-. apply assign_length.
  - intros b l H. unfold hundred_get in H. destruct (int_sub int32 _ _); try discriminate. injection H as <-. apply z_to_umax_bound.
Qed.

Lemma hundred_overflow b : (load int32 0 b < -2147483548)%Z -> opt_has_value hundred b = UB.
Proof.
  intros Hx. unfold opt_has_value. cbn [hundred max_level get_level]. change (1 =? 0) with false. cbv iota.
  unfold hundred_get, int_sub. change (iw int32 <? 4)%nat with false. cbv iota. change (isg int32) with true. cbv iota.
  unfold in_ityb. change (imin int32) with (-2147483648)%Z. destruct (Z.leb_spec (-2147483648) (load int32 0 b - 100)); [lia|].
  reflexivity.
Qed.

Lemma zero_float_has b : opt_has_value zero_float b = Ok (negb (float_is_zero b)).
Proof. unfold opt_has_value. cbn [zero_float max_level get_level]. unfold float_get. destruct (float_is_zero b); reflexivity. Qed.

(** All bits but the sign are zero. *)
Lemma zero_float_exact b : length b = 4%nat -> is_bytes b ->
  opt_has_value zero_float b = Ok (negb (le_decode b mod 2 ^ 31 =? 0)).
Proof.
  intros Hl Hb. rewrite zero_float_has. unfold float_is_zero. do 2 f_equal.
  pose proof (le_decode_bound b Hb) as H. rewrite Hl in H. change (wbase 4) with 4294967296 in H.
  change (2 ^ 31) with 2147483648. set (n := le_decode b) in *. clearbody n.
  destruct (N.ltb_spec n 2147483648) as [S|S].
  - rewrite N.mod_small by exact S. lia.
  - replace (n mod 2147483648) with (n - 2147483648); [lia|]. apply (N.mod_unique n 2147483648 1); lia.
Qed.

Lemma plain_double_ok : wf plain_double /\ sizeof (TOption plain_double) = 16%nat /\
  forall b, opt_has_value plain_double b = read_bool 8 b.
Proof.
  split; [|split; reflexivity]. cbn [plain_double wf]. split; [split; [lia|split; [lia|exists 1%nat; lia]]|].
  split; [reflexivity|]. split; [lia|]. split; [lia|]. split; [discriminate|discriminate].
Qed.
