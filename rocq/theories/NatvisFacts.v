(** The debugger's conditions against has_value. *)
From Coq Require Import ZArith NArith List Bool Arith Lia ZifyBool ZifyNat ZifyN.
From Verif Require Import Outcome Words WordsFacts Ints IntsFacts Types OptBytes TypesSpec TypesFacts OptBytesFacts RefOpt Natvis NatvisSpec.
Import ListNotations.
Open Scope N_scope.

Lemma nest_get t b l : get_level t b = Ok l -> l < umax_base -> forall k, N.of_nat k <= max_level t ->
  N.of_nat k < umax_base -> get_level (nest k t) b = Ok (wsub umax_base l (N.of_nat k)).
Proof.
  intros Hg Hu. induction k as [|k IH]; intros Hk Hb.
  - cbn [nest]. rewrite Hg. rewrite wsub_ge by lia. f_equal. lia.
  - cbn [nest get_level]. rewrite nest_max_level.
    destruct (N.leb_spec (N.of_nat k) (max_level t)); [|lia].
    destruct (N.eqb_spec (max_level t - N.of_nat k) 0); [lia|].
    unfold avail_get. rewrite IH by lia. cbn [rmap]. f_equal.
    destruct (N.lt_ge_cases l (N.of_nat k)) as [H1|H1]; [|destruct (N.eq_dec l (N.of_nat k)) as [E|E]].
    + rewrite (wsub_lt _ l (N.of_nat k)) by lia. rewrite (wsub_lt _ l (N.of_nat (S k))) by lia.
      rewrite wsub_ge by lia. lia.
    + rewrite (wsub_ge _ l (N.of_nat k)) by lia. rewrite (wsub_lt _ l (N.of_nat (S k))) by lia.
      rewrite wsub_lt by lia. lia.
    + rewrite (wsub_ge _ l (N.of_nat k)) by lia. rewrite (wsub_ge _ l (N.of_nat (S k))) by lia.
      rewrite wsub_ge by lia. lia.
Qed.

(** An option at depth k over a type with more than k levels is empty exactly when the level is k. *)
Lemma nest_has t b l k : get_level t b = Ok l -> l < umax_base -> N.of_nat k < max_level t -> N.of_nat k < umax_base ->
  opt_has_value (nest k t) b = Ok (negb (l =? N.of_nat k)).
Proof.
  intros Hg Hu Hk Hb. unfold opt_has_value. rewrite nest_max_level.
  destruct (N.leb_spec (N.of_nat k) (max_level t)); [|lia].
  destruct (N.eqb_spec (max_level t - N.of_nat k) 0); [lia|].
  rewrite (nest_get t b l Hg Hu k) by lia. cbn [rmap]. f_equal. f_equal.
  destruct (N.lt_ge_cases l (N.of_nat k)) as [H1|H1].
  - rewrite wsub_lt by lia. lia.
  - rewrite wsub_ge by lia. lia.
Qed.

Lemma nest_sizeof t k : N.of_nat k <= max_level t -> sizeof (nest k t) = sizeof t.
Proof.
  induction k as [|k IH]; intros Hk; [reflexivity|]. cbn [nest sizeof]. rewrite nest_max_level.
  destruct (N.leb_spec (N.of_nat k) (max_level t)); [|lia].
  destruct (N.eqb_spec (max_level t - N.of_nat k) 0); [lia|]. apply IH. lia.
Qed.

Lemma wsub_zero base x s : x < base -> s < base -> forall d, d < base - s -> (wsub base x s =? d) = (x =? s + d).
Proof.
  intros Hx Hs d Hd. destruct (N.lt_ge_cases x s) as [H|H].
  - rewrite wsub_lt by lia. lia.
  - rewrite wsub_ge by lia. lia.
Qed.

Lemma test_in off n b f : (off + n <= length b)%nat -> test off n b f = Shows (f (read_word off n b)).
Proof. intros H. unfold test. destruct (Nat.leb_spec (off + n) (length b)); [reflexivity|lia]. Qed.

(** A type whose level is a word minus a constant. *)
Lemma word_has t w s m b k : (forall b, get_level t b = word_get w s 0 b) -> max_level t = m -> (w <= 8)%nat ->
  N.of_nat k < m -> s + m <= wbase w -> is_bytes b -> (w <= length b)%nat ->
  opt_has_value (nest k t) b = Ok (negb (read_word 0 w b =? s + N.of_nat k)).
Proof.
  intros Hg Hm Hw Hk Hs Hb Hl. assert (Hu : wbase w <= umax_base).
  { change umax_base with (wbase 8). unfold wbase. apply N.pow_le_mono_r; [discriminate|]. lia. }
  assert (Hr : read_word 0 w b < wbase w) by (apply read_word_bound; [exact Hb|lia]).
  rewrite (nest_has t b (wsub (wbase w) (read_word 0 w b) s)).
  - f_equal. f_equal. apply wsub_zero; lia.
  - rewrite Hg. reflexivity.
  - pose proof (wsub_bound (wbase w) (read_word 0 w b) s ltac:(lia)). lia.
  - lia.
  - lia.
Qed.

(** enforce<T> is T with the same levels. *)
Lemma nest_enforce u : forall k b,
  max_level (nest k (TEnforce u)) = max_level (nest k u) /\ sizeof (nest k (TEnforce u)) = sizeof (nest k u) /\
  alignof (nest k (TEnforce u)) = alignof (nest k u) /\
  get_level (nest k (TEnforce u)) b = get_level (nest k u) b.
Proof.
  induction k as [|k IH]; intros b; [repeat split|]. destruct (IH b) as (H1 & H2 & H3 & H4).
  cbn [nest max_level sizeof alignof get_level]. unfold avail_get. rewrite H1, H2, H3, H4. repeat split.
Qed.

Lemma has_enforce u k b : opt_has_value (nest k (TEnforce u)) b = opt_has_value (nest k u) b.
Proof.
  destruct (nest_enforce u k b) as (H1 & H2 & _ & H4). unfold opt_has_value. rewrite H1, H2, H4. reflexivity.
Qed.

Lemma valid_enforce u : forall k b, valid (nest k (TEnforce u)) b -> valid (nest k u) b.
Proof.
  induction k as [|k IH]; intros b H; [exact H|]. cbn [nest valid] in H |- *.
  destruct (nest_enforce u k b) as (H1 & H2 & H3 & _). rewrite has_enforce, H2 in H.
  cbn [sizeof] in H |- *. rewrite H1, H2, H3 in H. destruct H as [Hs [H|[H Hv]]]; auto.
Qed.

Lemma shown_other k t b n : valid (nest (S k) t) b -> show_other k t b = Shows n ->
  opt_has_value (nest k t) b = Ok (negb n).
Proof.
  intros [_ Hv] H. unfold show_other in H. destruct (N.eqb_spec (max_level (nest k t)) 0) as [E|E]; [|discriminate].
  unfold show_flag, test in H. destruct (_ <=? _)%nat; [|discriminate]. injection H as <-.
  assert (Ho : opt_has_value (nest k t) b = read_bool (sizeof (nest k t)) b).
  { unfold opt_has_value. rewrite E. reflexivity. }
  rewrite Ho in *. unfold read_bool in *.
  destruct (N.eqb_spec (read_word (sizeof (nest k t)) 1 b) 0) as [F|F]; [rewrite F; reflexivity|].
  destruct (N.eqb_spec (read_word (sizeof (nest k t)) 1 b) 1) as [G|G]; [rewrite G; reflexivity|].
  destruct Hv as [Hv|[Hv _]]; discriminate.
Qed.

Lemma option_sized k t b : N.of_nat k < max_level t -> valid (nest (S k) t) b -> sized (sizeof t) b.
Proof.
  intros Hk [Hs _]. change (TOption (nest k t)) with (nest (S k) t) in Hs. rewrite nest_sizeof in Hs by lia. exact Hs.
Qed.

Lemma read_whole n b : sized n b -> read_word 0 n b = le_decode b.
Proof. intros [H _]. apply read_word_whole. exact H. Qed.

Lemma level_nan32 k b n q : (k <= 2)%nat -> valid (nest (S k) (TFloat32 q)) b -> ~ other_nan k (TFloat32 q) b ->
  show_float k b = Shows n -> opt_has_value (nest k (TFloat32 q)) b = Ok (negb n).
Proof.
  intros Hk Hv Ho H. assert (Hs : sized 4 b) by (apply (option_sized k (TFloat32 q)); [cbn; lia|exact Hv]).
  pose proof (read_whole 4 b Hs) as Hr. destruct Hs as [Hl Hb].
  rewrite (word_has (TFloat32 q) 4 (if q then f32q_start else f32s_start) 256) ; try reflexivity; try lia; try assumption.
  - unfold show_float, both in H. rewrite !test_in in H by lia. injection H as <-. rewrite Hr.
    cbn [other_nan] in Ho. unfold sNaN32_start, qNaN32_start, f32q_start, f32s_start. f_equal. f_equal. destruct q; lia.
  - destruct q; vm_compute; congruence.
Qed.

Lemma level_nan64 k b n q : (k <= 2)%nat -> (k = 1%nat -> q = false) -> valid (nest (S k) (TFloat64 q)) b ->
  ~ other_nan k (TFloat64 q) b ->
  show_double k b = Shows n -> opt_has_value (nest k (TFloat64 q)) b = Ok (negb n).
Proof.
  intros Hk Hq Hv Ho H. assert (Hs : sized 8 b) by (apply (option_sized k (TFloat64 q)); [cbn; lia|exact Hv]).
  pose proof (read_whole 8 b Hs) as Hr. destruct Hs as [Hl Hb].
  rewrite (word_has (TFloat64 q) 8 (if q then f64q_start else f64s_start) 256) ; try reflexivity; try lia; try assumption.
  - unfold show_double, both in H. destruct (Nat.eqb_spec k 1) as [E|E].
    + rewrite !test_in in H by lia. injection H as <-. rewrite Hr.
      assert (H4 : read_word 0 4 b < wbase 4) by (apply read_word_bound; [exact Hb|lia]).
      change (wbase 4) with 4294967296 in H4. subst k. rewrite (Hq eq_refl) in *. cbn [other_nan] in Ho.
      unfold sNaN64_start, qNaN64_start, f64q_start, f64s_start. f_equal. f_equal. lia.
    + rewrite !test_in in H by lia. injection H as <-. rewrite Hr.
      cbn [other_nan] in Ho. unfold sNaN64_start, qNaN64_start, f64q_start, f64s_start. f_equal. f_equal. destruct q; lia.
  - destruct q; vm_compute; congruence.
Qed.

Lemma level_bool k b n : (k <= 2)%nat -> valid (nest (S k) TBool) b ->
  show_bool k b = Shows n -> opt_has_value (nest k TBool) b = Ok (negb n).
Proof.
  intros Hk Hv H. assert (Hs : sized 1 b) by (apply (option_sized k TBool); [cbn; lia|exact Hv]).
  destruct Hs as [Hl Hb]. rewrite (word_has TBool 1 2 254) ; try reflexivity; try lia; try assumption.
  - unfold show_bool in H. rewrite test_in in H by lia. injection H as <-. f_equal. f_equal. lia.
Qed.

Lemma level_wrapper p k b n : p = 4%nat \/ p = 8%nat -> (k <= 2)%nat -> valid (nest (S k) (TRefWrap p)) b ->
  show_wrapper p k b = Shows n -> opt_has_value (nest k (TRefWrap p)) b = Ok (negb n).
Proof.
  intros Hp Hk Hv H. assert (Hs : sized p b) by (apply (option_sized k (TRefWrap p)); [cbn; lia|exact Hv]).
  destruct Hs as [Hl Hb]. rewrite (word_has (TRefWrap p) p 0 256) ; try reflexivity; try lia; try assumption.
  - unfold show_wrapper in H. rewrite test_in in H by lia. injection H as <-. f_equal. f_equal. lia.
  - destruct Hp as [->| ->]; vm_compute; congruence.
Qed.

Lemma level_pointer b n : valid (nest 1 TPtr64) b ->
  show_pointer 8 b = Shows n -> opt_has_value (nest 0 TPtr64) b = Ok (negb n).
Proof.
  intros Hv H. assert (Hs : sized 8 b) by (apply (option_sized 0 TPtr64); [cbn; lia|exact Hv]).
  destruct Hs as [Hl Hb]. rewrite (word_has TPtr64 8 ptr64_start 512) ; try reflexivity; try lia; try assumption.
  - unfold show_pointer in H. rewrite test_in in H by lia. injection H as <-. f_equal. f_equal. change (N.of_nat 0) with 0. rewrite N.add_0_r. rewrite N.eqb_sym. reflexivity.
  - vm_compute. congruence.
Qed.

Lemma level_string d k b n : (k <= 2)%nat -> valid (nest (S k) (TString 8 (STL d))) b ->
  show_string (sizeof (nest k (TString 8 (STL d)))) k b = Shows n ->
  opt_has_value (nest k (TString 8 (STL d))) b = Ok (negb n).
Proof.
  intros Hk Hv H. set (t := TString 8 (STL d)) in *.
  assert (Hm : N.of_nat k < max_level t) by (cbn; lia).
  assert (Hs : sized (sizeof t) b) by (apply (option_sized k t); assumption).
  rewrite nest_sizeof in H by lia. destruct Hs as [Hl Hb].
  set (mo := if d then 32%nat else 24%nat). set (so := if d then 24%nat else 16%nat).
  assert (Hg : get_level t b = if read_word mo 8 b =? 0 then Ok (read_word so 8 b) else Ok (umax_base - 1)).
  { unfold t, mo, so. destruct d; reflexivity. }
  assert (Hz : sizeof t = if d then 40%nat else 32%nat) by (unfold t; destruct d; reflexivity).
  assert (Hmo : (mo + 8 <= length b)%nat) by (rewrite Hl, Hz; unfold mo; destruct d; lia).
  assert (Hso : (so + 8 <= length b)%nat) by (rewrite Hl, Hz; unfold so; destruct d; lia).
  assert (Hr : read_word so 8 b < umax_base) by (change umax_base with (wbase 8); apply read_word_bound; assumption).
  assert (HH : show_string (sizeof t) k b = match k with
     | O => Shows (0 =? read_word mo 8 b)
     | _ => Shows ((0 =? read_word mo 8 b) && (N.of_nat k =? read_word so 8 b)) end).
  { rewrite Hz. unfold show_string, mo, so in *. destruct d; cbn [Nat.eqb] in *; destruct k; rewrite ?test_in by lia; reflexivity. }
  rewrite HH in H.
  assert (HV : opt_has_value (nest k t) b = Ok (negb ((read_word mo 8 b =? 0) && (read_word so 8 b =? N.of_nat k)))).
  { destruct (read_word mo 8 b =? 0) eqn:E; cbn [andb].
    - apply nest_has; [exact Hg|exact Hr|exact Hm|unfold umax_base; lia].
    - rewrite (nest_has t b (umax_base - 1)); [f_equal; unfold umax_base; lia|exact Hg|unfold umax_base; lia|exact Hm|unfold umax_base; lia]. }
  rewrite HV. destruct k as [|k].
  - injection H as <-. f_equal. f_equal. cbn [nest valid] in Hv. destruct Hv as [_ Hv]. cbn [nest] in HV. rewrite HV in Hv.
    destruct (read_word mo 8 b =? 0) eqn:E; cbn [andb].
    + destruct (read_word so 8 b =? N.of_nat 0) eqn:F; [apply N.eqb_eq in E; rewrite E; reflexivity|]. cbn [andb negb] in Hv. destruct Hv as [Hv|[_ Hv]]; [discriminate|].
      exfalso. unfold t in Hv. cbn [valid] in Hv. destruct Hv as [_ Hv].
      change (sizeof (TString 8 (STL d))) with (sizeof t) in Hv. rewrite <- Hl in Hv. rewrite slice_all in Hv by reflexivity.
      apply Hv. apply N.eqb_eq in E. destruct d; exact E.
    + destruct (read_word mo 8 b); [discriminate|reflexivity].
  - replace n with ((0 =? read_word mo 8 b) && (N.of_nat (S k) =? read_word so 8 b)) by congruence.
    rewrite (N.eqb_sym 0), (N.eqb_sym (N.of_nat (S k))). reflexivity.
Qed.

(** A 64-bit build. *)
Lemma shown64_ok : forall t k b n, msvc64 t -> valid (nest (S k) t) b -> ~ other_nan k (bare t) b ->
  shown 8 k t b = Shows n -> opt_has_value (nest k t) b = Ok (negb n).
Proof.
  induction t; intros k b r Hm Hv Ho H; cbn [shown msvc64 bare] in *; try (apply shown_other; assumption).
  - destruct (Nat.leb_spec k 2); [now apply level_bool|now apply shown_other].
  - subst p. destruct (Nat.leb_spec k 2); [apply level_wrapper; auto|now apply shown_other].
  - destruct (Nat.eqb_spec k 0) as [->|]; [now apply level_pointer|now apply shown_other].
  - destruct Hm.
  - subst quiet. destruct (Nat.leb_spec k 2); [apply level_nan64; auto|now apply shown_other].
  - subst quiet. destruct (Nat.leb_spec k 2); [apply level_nan32; auto|now apply shown_other].
  - destruct (Nat.eqb_spec k 0) as [->|]; [|now apply shown_other].
    assert (Hs : sized 4 b) by (apply (option_sized 0 TMemPtr32); [cbn; lia|exact Hv]).
    destruct Hs as [Hl _]. unfold show_pointer, test in H. rewrite Hl in H. discriminate.
  - destruct Hm as [-> [d ->]]. destruct (Nat.leb_spec k 2); [now apply level_string|now apply shown_other].
  - destruct (k <=? 2)%nat; [|now apply shown_other].
    destruct (nth_error vals k); [discriminate|now apply shown_other].
  - rewrite has_enforce. apply IHt; auto. apply (valid_enforce t (S k)). exact Hv.
Qed.

(** A 32-bit build, apart from what is wrong there. *)
Lemma shown32_ok : forall t k b n, msvc32 t -> ~ amiss32 k (bare t) ->
  valid (nest (S k) t) b -> ~ other_nan k (bare t) b ->
  shown 4 k t b = Shows n -> opt_has_value (nest k t) b = Ok (negb n).
Proof.
  induction t; intros k b r Hm Hx Hv Ho H; cbn [shown msvc32 bare amiss32] in *; try (apply shown_other; assumption).
  - destruct (Nat.leb_spec k 2); [now apply level_bool|now apply shown_other].
  - subst p. destruct (Nat.leb_spec k 2); [apply level_wrapper; auto|now apply shown_other].
  - destruct Hm.
  - destruct (Nat.eqb_spec k 0) as [->|]; [tauto|now apply shown_other].
  - subst quiet. destruct (Nat.leb_spec k 2); [apply level_nan64; auto; lia|now apply shown_other].
  - subst quiet. destruct (Nat.leb_spec k 2); [apply level_nan32; auto|now apply shown_other].
  - destruct (Nat.eqb_spec k 0) as [->|]; [tauto|now apply shown_other].
  - tauto.
  - destruct (k <=? 2)%nat; [|now apply shown_other].
    destruct (nth_error vals k); [discriminate|now apply shown_other].
  - rewrite has_enforce. apply IHt; auto. apply (valid_enforce t (S k)). exact Hv.
Qed.

(** Which options are decided at all in a 64-bit build. *)
Lemma other_decides k t b : wf (nest k t) -> max_level (nest k t) = 0 -> valid (nest (S k) t) b ->
  exists n, show_other k t b = Shows n.
Proof.
  intros Hw E [[Hl _] _]. change (TOption (nest k t)) with (nest (S k) t) in Hl. cbn [nest] in Hl.
  rewrite flagged_size in Hl by assumption. pose proof (wf_align _ Hw) as Ha.
  unfold show_other, show_flag. rewrite E. cbn [N.eqb]. rewrite test_in by lia. eauto.
Qed.

Lemma leb2 k : (k <= 2)%nat -> (k <=? 2)%nat = true.
Proof. intros H. now apply Nat.leb_le. Qed.

Lemma nest_bare t k : wf (nest k t) -> wf (nest k (bare t)) .
Proof.
  induction t; try (intros H; exact H). cbn [bare]. intros H. apply IHt. clear IHt.
  revert H. induction k as [|k IH]; [cbn [nest wf]; tauto|]. cbn [nest wf]. intros H.
  destruct (nest_enforce t k []) as (E & _).
  assert (L : levels (nest k (TEnforce t)) = levels (nest k t)).
  { clear. induction k as [|k IH]; [reflexivity|]. cbn [nest levels]. destruct (nest_enforce t k []) as (E & _).
    rewrite ?IH, ?E. reflexivity. }
  rewrite E, L in H. intuition.
Qed.

Lemma valid_bare t : forall k b, valid (nest k t) b -> valid (nest k (bare t)) b.
Proof. induction t; auto. intros k b H. cbn [bare]. apply IHt, valid_enforce, H. Qed.

Lemma shown_bare t p k b : shown p k t b = shown p k (bare t) b.
Proof. induction t; try reflexivity. exact IHt. Qed.

Lemma msvc_bare t : msvc64 t -> msvc64 (bare t).
Proof. induction t; auto. Qed.

Lemma bare_bare t : forall u, bare t <> TEnforce u.
Proof. induction t; cbn; try discriminate. exact IHt. Qed.

Lemma shown64_decides t k b : wf (nest k t) -> msvc64 t -> listed k (bare t) -> valid (nest (S k) t) b ->
  exists n, shown 8 k t b = Shows n.
Proof.
  intros Hw Hm Hl Hv. rewrite shown_bare. apply nest_bare in Hw. apply msvc_bare in Hm. apply valid_bare in Hv.
  pose proof (bare_bare t) as Hb. destruct (bare t) eqn:Eb; cbn [shown listed msvc64] in *;
    try (apply other_decides; assumption).
  - rewrite leb2 by exact Hl. destruct (option_sized k TBool b) as [L _]; [cbn; lia|exact Hv|].
    unfold show_bool. rewrite test_in by (rewrite L; cbn; lia). eauto.
  - rewrite leb2 by exact Hl. subst p. destruct (option_sized k (TRefWrap 8) b) as [L _]; [cbn; lia|exact Hv|].
    unfold show_wrapper. rewrite test_in by (rewrite L; cbn; lia). eauto.
  - subst k. destruct (option_sized 0 TPtr64 b) as [L _]; [cbn; lia|exact Hv|].
    cbn [Nat.eqb]. unfold show_pointer. rewrite test_in by (rewrite L; cbn; lia). eauto.
  - destruct Hm.
  - rewrite leb2 by exact Hl. destruct (option_sized k (TFloat64 quiet) b) as [L _]; [cbn; lia|exact Hv|].
    cbn [sizeof] in L. unfold show_double, both. destruct (k =? 1)%nat; rewrite !test_in by lia; eauto.
  - rewrite leb2 by exact Hl. destruct (option_sized k (TFloat32 quiet) b) as [L _]; [cbn; lia|exact Hv|].
    cbn [sizeof] in L. unfold show_float, both. rewrite !test_in by lia; eauto.
  - destruct (Nat.eqb_spec k 0) as [->|]; [discriminate Hl|apply other_decides; assumption].
  - rewrite leb2 by exact Hl. destruct Hm as [-> [d ->]].
    destruct (option_sized k (TString 8 (STL d)) b) as [L _]; [cbn; lia|exact Hv|].
    rewrite nest_sizeof by (cbn; lia).
    destruct d; cbn in L |- *; unfold show_string, both; cbn [Nat.eqb]; destruct k; rewrite ?test_in by (rewrite L; cbn; lia); eauto.
  - destruct (Nat.leb_spec k 2) as [Hk|]; [|apply other_decides; assumption].
    rewrite nest_max_level in Hl. cbn [max_level] in Hl.
    destruct (nth_error vals k) eqn:E.
    + exfalso. assert (k < length vals)%nat by (apply nth_error_Some; congruence).
      destruct (N.leb_spec (N.of_nat k) (N.of_nat (length vals))); lia.
    + apply other_decides; try assumption. rewrite nest_max_level. exact Hl.
  - destruct (Hb _ eq_refl).
Qed.

Lemma natvis_ex :
  let b := le_encode 8 (0xFFF6C79F55B0898F + 1) in
  valid (TOption (nest 1 (TFloat64 false))) b /\ ~ other_nan 1 (TFloat64 false) b /\ listed 1 (TFloat64 false) /\
  shown 8 1 (TFloat64 false) b = Shows true /\ opt_has_value (nest 1 (TFloat64 false)) b = Ok false /\
  shown 8 0 TBool [1] = Shows false /\ shown 8 0 (TOpaque 4 4) [7; 0; 0; 0; 1; 0; 0; 0] = Shows false.
Proof.
  cbv zeta. split; [|split; [vm_compute; discriminate|split; [cbn; lia|split; [reflexivity|split; [reflexivity|split; reflexivity]]]]].
  split; [split; [reflexivity|repeat constructor]|left; reflexivity].
Qed.

Lemma reference_ok : forall p q b, p < wbase q -> b = le_encode q p -> show_reference q b = Shows (negb (r_has p)).
Proof.
  intros p q b Hp ->. unfold show_reference. rewrite test_in by (rewrite le_encode_length; lia).
  rewrite read_word_whole by apply le_encode_length. rewrite le_decode_encode, N.mod_small by exact Hp.
  unfold r_has, nullptr. rewrite negb_involutive, N.eqb_sym. reflexivity.
Qed.

Lemma nan_refuted : exists t k b, msvc64 t /\ valid (TOption (nest k t)) b /\
  shown 8 k t b = Shows true /\ opt_has_value (nest k t) b = Ok true.
Proof.
  exists (TFloat64 false), 0%nat, (le_encode 8 0xFFFBF26430BB3557).
  split; [reflexivity|split; [|split; reflexivity]].
  split; [split; [reflexivity|repeat constructor]|right; split; [reflexivity|]].
  cbn [nest valid]. split; [split; [reflexivity|repeat constructor]|vm_compute; intuition congruence].
Qed.

Lemma member_pointer_refuted : exists b, valid (TOption TMemPtr32) b /\ shown 8 0 TMemPtr32 b = Outside.
Proof.
  exists [0; 0; 0; 0]. split; [|reflexivity].
  split; [split; [reflexivity|repeat constructor]|right; split; [reflexivity|]].
  cbn [valid]. split; [split; [reflexivity|repeat constructor]|vm_compute; intuition congruence].
Qed.

Lemma sentinel_refuted : forall p it vals k b, (k <= 2)%nat -> (k < length vals)%nat ->
  shown p k (TSentinel it vals) b = Unresolved.
Proof.
  intros p it vals k b Hk Hl. cbn [shown]. rewrite leb2 by exact Hk.
  destruct (nth_error vals k) eqn:E; [reflexivity|]. apply nth_error_None in E. lia.
Qed.

Lemma pointer32_refuted : forall b, sized 4 b -> shown 4 0 TPtr32 b = Shows false.
Proof.
  intros b [Hl Hb]. cbn [shown Nat.eqb]. unfold show_pointer. rewrite test_in by lia. f_equal.
  assert (H4 : read_word 0 4 b < wbase 4) by (apply read_word_bound; [exact Hb|lia]).
  change (wbase 4) with 4294967296 in H4. apply N.eqb_neq. lia.
Qed.

Lemma pointer32_ex : exists b, valid (TOption TPtr32) b /\ opt_has_value TPtr32 b = Ok false.
Proof.
  exists (le_encode 4 ptr32_start). split; [|reflexivity].
  split; [split; [reflexivity|repeat constructor]|left; reflexivity].
Qed.

Lemma double32_refuted : exists b, msvc32 (TFloat64 true) /\ valid (TOption (nest 1 (TFloat64 true))) b /\
  shown 4 1 (TFloat64 true) b = Shows false /\ opt_has_value (nest 1 (TFloat64 true)) b = Ok false.
Proof.
  exists (le_encode 8 (f64q_start + 1)). split; [reflexivity|split; [|split; reflexivity]].
  split; [split; [reflexivity|repeat constructor]|left; reflexivity].
Qed.

Lemma string32_refuted : forall d k b, (k <= 2)%nat -> valid (TOption (nest k (TString 4 (STL d)))) b ->
  shown 4 k (TString 4 (STL d)) b = Outside.
Proof.
  intros d k b Hk Hv. destruct (option_sized k (TString 4 (STL d)) b) as [L _]; [cbn; lia|exact Hv|].
  cbn [shown]. rewrite leb2 by exact Hk. rewrite nest_sizeof by (cbn; lia).
  unfold show_string, both, test. rewrite L. destruct d, k; reflexivity.
Qed.
