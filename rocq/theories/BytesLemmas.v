(** Statements about the two models of option as the properties need them. *)
From Coq Require Import ZArith NArith List Bool Lia ZifyBool ZifyNat ZifyN.
From Verif Require Import Outcome Words WordsFacts Ints Types OptBytes TypesSpec TypesFacts OptBytesFacts.
From Verif Require Import Lifetime LifetimeSpec LifetimeFacts History HistorySpec HistoryFacts ByteClass ByteClassFacts.
Import ListNotations.
Open Scope N_scope.

(** get_level returns a uintmax_t. *)
Lemma wbase_le w : wf_w w -> wbase w <= umax_base.
Proof. intros [->|[->|[->| ->]]]; vm_compute; congruence. Qed.
Lemma word_get_bounded w s o b l : wf_w w -> word_get w s o b = Ok l -> l < umax_base.
Proof.
  intros Hw [= <-]. pose proof (wbase_le w Hw). unfold wsub. assert (wbase w <> 0) by (destruct Hw as [->|[->|[->| ->]]]; discriminate).
  pose proof (N.mod_lt (read_word o w b + (wbase w - s mod wbase w)) (wbase w) ltac:(assumption)). lia.
Qed.
Lemma wsub_bounded a b : wsub umax_base a b < umax_base.
Proof. apply N.mod_lt. discriminate. Qed.
Lemma z_to_umax_bounded z : z_to_umax z < umax_base.
Proof. unfold z_to_umax. pose proof (Z.mod_pos_bound z (Z.of_N umax_base) ltac:(reflexivity)). lia. Qed.
Lemma wf_p_w p : wf_p p -> wf_w p.
Proof. intros [->| ->]; unfold wf_w; tauto. Qed.

Lemma bounded_level t : forall b l, wf t -> sized (sizeof t) b -> get_level t b = Ok l -> l < umax_base.
Proof.
  induction t using ty_ind'; intros b0 lv Hw Hs Hl; cbn [get_level wf sizeof] in *;
    try (eapply word_get_bounded; [|eassumption]; first [now apply wf_p_w|unfold wf_w; tauto|apply wf_p_w; tauto]);
    try discriminate.
  - injection Hl as <-. apply wsub_bounded.
  - injection Hl as <-. apply wsub_bounded.
  - unfold enum_sent_get in Hl. destruct (int_sub _ _ _); try discriminate. injection Hl as <-. apply z_to_umax_bounded.
  - unfold enum_range_get in Hl. destruct (int_sub _ _ _); try discriminate. injection Hl as <-. apply z_to_umax_bounded.
  - unfold enum_range_get in Hl. destruct (int_sub _ _ _); try discriminate. injection Hl as <-. apply z_to_umax_bounded.
  - unfold string_get in Hl. destruct (_ =? _); injection Hl as <-; [|reflexivity].
    pose proof (wbase_le _ (wf_p_w _ Hw)). destruct Hs as [Hn Hb].
    assert (string_size_offset p l + p <= length b0)%nat as Ho by (rewrite Hn; destruct Hw as [->| ->], l as [[]|[]|]; cbn; lia).
    pose proof (read_word_bound _ _ _ Hb Ho). lia.
  - unfold sent_traits_get in Hl. injection Hl as <-. destruct (_ =? _)%Z; reflexivity.
  - unfold sentinel_get in Hl. injection Hl as <-. destruct Hw as (_ & _ & _ & Hn). revert Hn.
    assert (forall vs i, N.of_nat (length vs) + i < umax_base -> sentinel_get_impl i vs (int_decode it b0) < umax_base) as G.
    { induction vs as [|u vs IH]; intros i Hi; cbn [sentinel_get_impl length] in *; [reflexivity|].
      destruct (_ =? _)%Z; [lia|apply IH; lia]. }
    intros Hn. apply G. lia.
  - unfold sub_get in Hl. eapply IHt; [exact Hw| |exact Hl]. apply (sized_slice 0 _ _ _ Hs). lia.
  - destruct Hw as (_ & [H1 H1'] & [H2 H2']). unfold sub_get in Hl. destruct (_ <? _).
    + eapply IHt1; [exact H1| |exact Hl]. now apply (sized_slice _ _ _ _ Hs).
    + eapply IHt2; [exact H2| |exact Hl]. now apply (sized_slice _ _ _ _ Hs).
  - destruct Hw as [_ Hw]. revert Hl. generalize (index_of_max (map (fun f => max_level (snd f)) fs)) as i.
    induction fs as [|[o ft] fs IH]; intros i Hl; cbn [map] in Hl; [destruct i; discriminate|].
    destruct Hw as [[Hw1 Hw2] Hw]. inversion H as [|? ? Hf Hfs]; subst. destruct i as [|i]; cbn [nth] in Hl.
    + eapply Hf; [exact Hw1| |exact Hl]. now apply (sized_slice _ _ _ _ Hs).
    + exact (IH Hfs Hw i Hl).
  - destruct (Nat.eqb_spec n 0) as [->|Hn]; [discriminate|]. eapply IHt; [exact Hw| |exact Hl].
    apply (sized_slice 0 _ _ _ Hs). nia.
  - destruct Hw as (_ & H1 & H2). eapply IHt; [exact H1| |exact Hl]. now apply (sized_slice _ _ _ _ Hs).
  - destruct Hw. eauto.
  - destruct Hw as [H1 _]. destruct (max_level t =? 0).
    + eapply word_get_bounded; [|exact Hl]. unfold wf_w. tauto.
    + unfold avail_get in Hl. destruct (get_level t b0); try discriminate. injection Hl as <-. apply wsub_bounded.
  - injection Hl as <-. apply wsub_bounded.
  - destruct Hw as (_ & _ & _ & _ & _ & Hg). eauto.
Qed.

Section Nest.
Context (W : Type) (k : triviality) (t : ty).
Notation B := (byte_cls W k t).
Notation BS := (byte_sem W k t).

Lemma nest_class : forall n, wf t -> sane k ->
  lawful (nest_cls n B) (nest_sem n B BS) /\ steady (nest_cls n B) (nest_sem n B BS).
Proof. intros n Hw Hk. apply nest_lawful; [now apply byte_lawful|apply byte_steady]. Qed.

Lemma nest_stops : forall n, ~ stops (nest_sem n B BS).
Proof. induction n as [|n IH]; [exact (fun x => x)|exact IH]. Qed.

Lemma nest_cnt : forall n w, cnt (nest_sem n B BS) w = 0%Z.
Proof. induction n as [|n IH]; [reflexivity|exact IH]. Qed.

Lemma wf_nest_base : forall n, wf (nest n t) -> wf t.
Proof. induction n as [|n IH]; [auto|]. intros H. apply IH. now apply wf_nest_le. Qed.

Lemma nest_ok : forall n, wf (nest n t) -> sane k ->
  lawful (nest_cls n B) (nest_sem n B BS) /\
  shows (nest_cls n B) (nest_sem n B BS) (nest n t) (nest_repr n B t (byte_repr k t)).
Proof.
  intros n Hw Hk. pose proof (wf_nest_base n Hw) as Ht. split; [now apply nest_class|].
  apply nest_shows; [now apply byte_lawful|apply byte_steady|now apply byte_shows|exact Hw].
Qed.

(** Any program over variables of type option<...<option<T>>> of any depth. *)
Theorem nest_programs : forall n, wf t -> sane k ->
  let C := nest_cls n B in let S := nest_sem n B BS in
  forall os l w, healthy C S l -> Forall (fair C S) os ->
  match run C S os l w with
  | HDone ks l' w' => healthy C S l' /\ runs C S os ks (values C S l) (values C S l')
  | HAbort ks => exists os1 o os2 a, os = os1 ++ o :: os2 /\ runs C S os1 ks (values C S l) a /\ misuse C S o a
  | HUndef => False
  | HBad => True
  end.
Proof.
  intros n Hw Hk C S os l w Hl Hf. destruct (nest_class n Hw Hk) as [L N].
  pose proof (steady_quiet _ _ N) as Q.
  pose proof (run_ok C S L os l w Hl Hf) as H.
  assert (Forall (gentle C S) os) as Hg by (apply Forall_forall; intros o _; now apply quiet_gentle).
  specialize (H Hg). destruct (run C S os l w) as [ks l' w'|ks| |].
  - tauto.
  - destruct H as [H|H]; [now apply nest_stops in H|exact H].
  - exact H.
  - exact I.
Qed.

(** Constructor arguments for j somes around nothing (j < n) or around the T that i makes (j = n). *)
Fixpoint nest_init (n : nat) (j : nat) (i : init B) : init (nest_cls n B) :=
  match n with
  | O => i
  | S n => match j with
           | O => INone
           | S j => IVal (nest_init n j i)
           end
  end.

Theorem nest_build : forall n j i w, wf (nest n t) -> sane k -> (j <= n)%nat ->
  forall (r : raw (nest_cls n B)) junk, nest_repr n B t (byte_repr k t) r junk ->
  exists r' b, ctor (nest_cls n B) (nest_init n j i) r w = Ret (r', w) /\
    build n t j (content (proj1_sig i)) junk = Ok b /\ nest_repr n B t (byte_repr k t) r' b.
Proof.
  induction n as [|n IH]; intros j i w Hw Hk Hj r junk Hr.
  - exists (proj1_sig i), (content (proj1_sig i)). split; [reflexivity|]. split; reflexivity.
  - destruct (nest_ok n (wf_nest_le n t Hw) Hk) as [L Sh].
    destruct j as [|j]; cbn [nest_init nest_cls ctor build nest_repr nest opt_cls o_ctor] in *.
    + destruct (default_agrees _ _ _ _ L Hw Sh r junk Hr) as (c' & b' & -> & -> & H). eauto.
    + assert (nest_repr n B t (byte_repr k t) (c_raw r) (slice 0 (sizeof (nest n t)) junk)) as Hr0 by (apply Hr).
      destruct (IH j i w (wf_nest_le n t Hw) Hk ltac:(lia) _ _ Hr0) as (r1 & x & E1 & E2 & H1). rewrite E2. cbn [rbind].
      assert (ok (nest_sem n B BS) r1) as Hok.
      { pose proof (l_ctor _ _ L (nest_init n j i) (c_raw r) w) as Hc. rewrite E1 in Hc. cbn [post fst] in Hc.
        destruct Hc as [[Hc _]|[Hc _]]; [exact Hc|now apply nest_stops in Hc]. }
      set (d := mkcell (C := nest_cls n B) (c_raw r) (c_flag r) false).
      assert (opt_repr (nest n t) (nest_repr n B t (byte_repr k t)) d junk) as Hd.
      { destruct Hr as (G1 & G2 & G3). exact (conj G1 (conj G2 G3)). }
      pose proof (construct_agrees _ _ _ _ Hw Sh W (ctor (nest_cls n B) (nest_init n j i)) d junk r1 x w w Hd
        (or_intror eq_refl) E1 H1 (or_introl Hok)) as Hc.
      assert (o_inplace (nest_cls n B) (nest_init n j i) r w = o_construct (nest_cls n B) (ctor (nest_cls n B) (nest_init n j i)) d w) as ->.
      { unfold o_inplace, o_construct. subst d. cbn [c_raw c_flag c_alive andb]. reflexivity. }
      destruct (o_construct _ _ d w) as [[c' w1]|p| |]; try tauto.
      * destruct Hc as [-> [b' [E Hb]]]. eauto.
      * destruct (opt_construct_ok (nest n t) x junk Hw (sh_valid _ _ _ _ Sh _ _ H1 Hok) (proj1 Hr)) as [b' [E _]]. congruence.
Qed.

Lemma nest_reset : forall n, wf (TOption (nest n t)) -> sane k ->
  forall c b w, inv (nest_cls n B) (nest_sem n B BS) c -> opt_repr (nest n t) (nest_repr n B t (byte_repr k t)) c b ->
  exists c' b', o_reset (nest_cls n B) c w = Ret (c', w) /\ opt_reset (td (nest_cls n B)) (nest n t) b = Ok b' /\
    opt_repr (nest n t) (nest_repr n B t (byte_repr k t)) c' b'.
Proof.
  intros n Hw Hk c b w Hi Hr. destruct (nest_ok n (proj1 Hw) Hk) as [L Sh].
  pose proof (reset_agrees _ _ _ _ L Hw Sh c b w Hi Hr) as H.
  destruct (o_reset (nest_cls n B) c w) as [[c' w']|p| |]; try (now apply nest_stops in H).
  destruct H as [-> [b' [E Hb]]]. eauto.
Qed.

Lemma level_back : forall n, wf (nest n t) -> sane k ->
  forall r b l, nest_repr n B t (byte_repr k t) r b -> get_level (nest n t) b = Ok l ->
  lget (nest_cls n B) r = l /\ l < umax_base.
Proof.
  intros n. induction n as [|n IH]; intros Hw Hk r b l Hr Hl.
  - cbn in *. unfold byte_repr in Hr. subst b. pose proof (bounded_level t _ _ Hw (content_sized _ r) Hl). split; [now apply byte_level_ok|assumption].
  - destruct (nest_ok n (wf_nest_le n t Hw) Hk) as [L Sh].
    cbn [nest nest_cls nest_repr get_level opt_cls lget] in *. rewrite (traits_max _ _ _ _ Hw Sh).
    destruct (N.eqb_spec (max_level (nest n t)) 0) as [E|E]; cbn [negb] in *.
    + destruct Hr as (_ & _ & H3). unfold bool_get, word_get in Hl. rewrite (H3 E) in Hl. injection Hl as <-.
      split; [reflexivity|]. unfold wsub. change (wbase 1) with 256.
      pose proof (N.mod_lt (c_flag r + (256 - 2 mod 256)) 256 ltac:(discriminate)). unfold umax_base. lia.
    + apply (repr_traits _ _ _ r b E) in Hr as [H1 H2].
      unfold avail_get in Hl. destruct (get_level (nest n t) b) as [l'| |] eqn:E'; try discriminate.
      cbn [rmap] in Hl. injection Hl as <-. destruct (IH (wf_nest_le n t Hw) Hk _ _ _ H2 E') as [-> _].
      split; [reflexivity|]. unfold wsub. apply N.mod_lt. discriminate.
Qed.

(** Every byte string of the right size is the contents of some storage, and every byte string that is a value
    of the type is a proper object. *)
Theorem nest_onto : forall n, wf (nest n t) -> sane k -> forall b,
  (sized (sizeof (nest n t)) b -> exists r, nest_repr n B t (byte_repr k t) r b) /\
  (valid (nest n t) b -> exists r, nest_repr n B t (byte_repr k t) r b /\ ok (nest_sem n B BS) r).
Proof.
  intros n. induction n as [|n IH]; intros Hw Hk b.
  - assert (forall (H : sized (sizeof t) b), exists s : storage (sizeof t), b = content s) as He.
    { intros H. apply sizedb_spec in H. now exists (exist _ b H). }
    split.
    + intros H. destruct (He H) as [s Hs]. now exists s.
    + intros H. destruct (He (valid_sized t b H)) as [s Hs]. exists s. split; [exact Hs|]. cbn. now rewrite <- Hs.
  - pose proof (wf_nest_le n t Hw) as Hwn. destruct (nest_ok n Hwn Hk) as [L Sh]. pose proof (option_size_ge (nest n t) Hwn) as Hge.
    assert (sized (sizeof (nest (S n) t)) b -> sized (sizeof (nest n t)) (slice 0 (sizeof (nest n t)) b)) as Hsl.
    { intros H. apply (sized_slice 0 _ (sizeof (nest (S n) t))); [exact H|cbn [nest]; lia]. }
    split.
    + intros H. destruct (proj1 (IH Hwn Hk _) (Hsl H)) as [r Hr].
      exists (mkcell (C := nest_cls n B) r (read_word (sizeof (nest n t)) 1 b) false). exact (conj H (conj Hr (fun _ => eq_refl))).
    + intros Hv. pose proof (valid_sized _ _ Hv) as Hs. cbn [nest] in Hv, Hs. cbn [nest_cls nest_repr nest_sem opt_sem ok].
      pose proof (sh_lmax _ _ _ _ Sh) as Hlm. pose proof (c_levels _ (contract_all _ Hwn)) as Hcl.
      assert (forall h, opt_has_value (nest n t) b = Ok h -> max_level (nest n t) = 0 ->
        read_word (sizeof (nest n t)) 1 b = if h then 1 else 0) as Hflag.
      { intros h Hh E. unfold opt_has_value in Hh. rewrite E in Hh. cbn [N.eqb] in Hh. rewrite read_bool_word in Hh.
        destruct (N.eqb_spec (read_word (sizeof (nest n t)) 1 b) 0); [injection Hh as <-; assumption|].
        destruct (N.eqb_spec (read_word (sizeof (nest n t)) 1 b) 1); [injection Hh as <-; assumption|discriminate]. }
      assert (lmax (nest_cls n B) = 0 -> max_level (nest n t) = 0) as Hm0.
      { intros E. pose proof (traits_max _ _ (nest n t) _ Hw Sh) as Ht. unfold traits in Ht. rewrite E in Ht. cbn [N.eqb negb] in Ht. destruct (N.eqb_spec (max_level (nest n t)) 0); [assumption|discriminate]. }
      destruct Hv as [Hs' [Hh|[Hh Hv]]].
      * destruct (proj1 (IH Hwn Hk _) (Hsl Hs)) as [r Hr].
        exists (mkcell (C := nest_cls n B) r (read_word (sizeof (nest n t)) 1 b) false).
        split; [exact (conj Hs (conj Hr (fun _ => eq_refl)))|]. split; [discriminate|]. split; cbn [c_raw c_flag c_alive].
        -- intros Hp _. unfold opt_has_value in Hh. destruct (N.eqb_spec (max_level (nest n t)) 0) as [E|E]; [lia|].
           destruct (get_level (nest n t) b) as [l| |] eqn:El; try discriminate. cbn [rmap] in Hh.
           rewrite option_size_traits in Hs by exact E. rewrite slice_all in Hr by (symmetry; apply Hs).
           destruct (level_back n Hwn Hk r b l Hr El) as [-> _].
           destruct (N.eqb_spec l 0) as [->|]; [reflexivity|discriminate].
        -- intros E. exact (Hflag false Hh (Hm0 E)).
      * destruct (proj2 (IH Hwn Hk _) Hv) as [r [Hr Hok]].
        exists (mkcell (C := nest_cls n B) r (read_word (sizeof (nest n t)) 1 b) true).
        split; [exact (conj Hs (conj Hr (fun _ => eq_refl)))|]. split; [intros _; exact Hok|]. split; cbn [c_raw c_flag c_alive].
        -- discriminate.
        -- intros E. exact (Hflag true Hh (Hm0 E)).
Qed.

(** The value that a user sees in the bytes is the value of the object. *)
Fixpoint show (n : nat) : V (nest_sem n B BS) -> TypesSpec.val :=
  match n with
  | O => fun v => decode t v
  | S n => fun o => match o with None => VNone | Some x => VSome (show n x) end
  end.

Theorem nest_decode : forall n, wf (nest n t) -> sane k -> forall r b,
  nest_repr n B t (byte_repr k t) r b -> ok (nest_sem n B BS) r ->
  decode (nest n t) b = show n (LifetimeSpec.val (nest_sem n B BS) r).
Proof.
  intros n. induction n as [|n IH]; intros Hw Hk r b Hr Hok; [|change (cell (nest_cls n B)) in r].
  - cbn in *. unfold byte_repr in Hr. now subst b.
  - pose proof (wf_nest_le n t Hw) as Hwn. destruct (nest_ok n Hwn Hk) as [L Sh].
    cbn [nest nest_repr nest_sem opt_sem ok LifetimeSpec.val show decode] in *.
    rewrite (has_agrees _ _ _ _ Hw Sh r b Hok Hr), (has_ok _ _ L r Hok). unfold oval.
    destruct (c_alive r) eqn:Ea; [|reflexivity]. f_equal. apply IH; [exact Hwn|exact Hk|apply Hr|now apply Hok].
Qed.
End Nest.
