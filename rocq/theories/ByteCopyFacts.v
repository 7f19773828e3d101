(** Copies, moves and swaps of options: the byte-level model and the object model agree for a T whose
    members copy bytes. *)
From Coq Require Import ZArith NArith List Bool Lia ZifyBool ZifyNat ZifyN.
From Verif Require Import Outcome Words WordsFacts Ints IntsFacts Types OptBytes TypesSpec EnumFacts TypesFacts OptBytesFacts.
From Verif Require Import Lifetime LifetimeSpec LifetimeFacts History ByteClass ByteClassFacts ByteProg.
Import ListNotations.
Open Scope N_scope.

Section Copies.
Context (W : Type) (k : ty -> triviality) (t : ty).
Context (Hw : wf (TOption t)) (Hk : sane (k t)).
Notation C := (byte_cls W (k t) t).
Notation S := (byte_sem W (k t) t).
Notation R := (byte_repr (W := W) (k t) t).
Notation Ro := (opt_repr t R).

Lemma bl : lawful C S.
Proof. apply byte_lawful; [apply Hw|exact Hk]. Qed.
Lemma bs : shows C S t R.
Proof. apply byte_shows, Hw. Qed.

(** Construction from the contained object of a proper option. *)
Lemma construct_from : forall X (mk : raw C -> X -> out (raw C * X)) (src c : cell C) bs b x,
  inv C S src -> c_alive src = true -> Ro src bs -> Ro c b -> td C = true \/ c_alive c = false ->
  mk (c_raw c) x = Ret (c_raw src, x) ->
  exists c' b', o_construct C mk c x = Ret (c', x) /\ opt_construct t (slice 0 (sizeof t) bs) b = Ok b' /\ Ro c' b'.
Proof.
  intros X mk src c bs0 b x Hi Ha Hs Hc Ht Hm.
  assert (R (c_raw src) (slice 0 (sizeof t) bs0)) as Hv by (apply Hs).
  assert (ok S (c_raw src)) as Hok by (now apply Hi).
  pose proof (construct_agrees C S t R Hw bs X mk c b (c_raw src) _ x x Hc Ht Hm Hv (or_introl Hok)) as H.
  destruct (o_construct C mk c x) as [[c' x1]|p| |]; try tauto.
  - destruct H as [-> [b' [E Hb]]]. eauto.
  - destruct (opt_construct_ok t (slice 0 (sizeof t) bs0) b Hw) as (b' & E & _); try congruence; [|apply Hc].
    eapply (sh_valid _ _ _ _ bs); eassumption.
Qed.

Lemma has_src : forall c b, inv C S c -> Ro c b -> opt_has_value t b = Ok (c_alive c).
Proof.
  intros c b Hi Hr. rewrite (has_agrees C S t R Hw bs c b Hi Hr). apply (has_ok C S bl c Hi).
Qed.

(** Default construction, with what it leaves. *)
Lemma default_full : forall c b, Ro c b ->
  exists c' b', o_default C c = Ret c' /\ opt_default t b = Ok b' /\ Ro c' b' /\ c_alive c' = false.
Proof.
  intros c b Hr. destruct (default_agrees C S t R bl Hw bs c b Hr) as (c' & b' & H1 & H2 & H3).
  destruct (default_ok C S bl c) as (c2 & E & _ & Hd). exists c', b'. repeat (split; [assumption|]). congruence.
Qed.

Lemma reset_full : forall c b w, inv C S c -> Ro c b ->
  exists c' b', o_reset C c w = Ret (c', w) /\ opt_reset (t_td (k t)) t b = Ok b' /\ Ro c' b'.
Proof.
  intros c b w Hi Hr. pose proof (reset_agrees C S t R bl Hw bs c b w Hi Hr) as H.
  destruct (o_reset C c w) as [[c' w']|p| |]; try (destruct H; fail). destruct H as [-> [b' [E Hb]]]. eauto.
Qed.

Theorem cctor_agrees : forall src c bs b w, inv C S src -> Ro src bs -> Ro c b ->
  exists c' b', o_cctor C src c w = Ret (c', w) /\ copy_ctor k t bs b = Ok b' /\ Ro c' b'.
Proof.
  intros src c bs0 b w Hi Hs Hc. unfold o_cctor, copy_ctor. cbn [byte_cls tcc]. destruct (t_tcc (k t)); [eauto|].
  unfold with_base, opt_copy. destruct (default_full c b Hc) as (c0 & b0 & -> & -> & H0 & Hd). cbn [rbind].
  rewrite (has_src src bs0 Hi Hs), (has_ok C S bl src Hi). cbn [check rbind].
  destruct (c_alive src) eqn:Ea; [|eauto].
  destruct (construct_from W (cctor C (c_raw src)) src c0 bs0 b0 w Hi Ea Hs H0 (or_intror Hd) eq_refl) as (c' & b' & E1 & E2 & H).
  cbn [byte_cls cctor] in *. rewrite E1, E2. eauto.
Qed.

Lemma from_cell_same : forall f r (s : cell C) (w : W), (forall r sw, f r sw = Ret (fst sw, sw)) -> c_alive s = true ->
  from_cell C f r (s, w) = Ret (c_raw s, (s, w)).
Proof. intros f r [sr sf sa] w Hf Ha. unfold from_cell. cbn in Ha. subst sa. cbn [c_alive c_raw c_flag]. rewrite Hf. reflexivity. Qed.

(** Move construction leaves the source as it was. *)
Theorem mctor_agrees : forall src c bs b w, inv C S src -> Ro src bs -> Ro c b ->
  exists c' b', o_mctor C c (src, w) = Ret (c', (src, w)) /\ take_result k t bs b = Ok b' /\ Ro c' b'.
Proof.
  intros src c bs0 b w Hi Hs Hc. unfold o_mctor, take_result. cbn [byte_cls tmc]. destruct (t_tmc (k t)); [eauto|].
  unfold with_base, opt_copy. destruct (default_full c b Hc) as (c0 & b0 & -> & -> & H0 & Hd). cbn [rbind fst].
  rewrite (has_src src bs0 Hi Hs), (has_ok C S bl src Hi). cbn [check rbind].
  destruct (c_alive src) eqn:Ea; [|eauto].
  destruct (construct_from _ (from_cell C (mctor C)) src c0 bs0 b0 (src, w) Hi Ea Hs H0 (or_intror Hd)) as (c' & b' & E1 & E2 & H).
  { now apply from_cell_same. }
  cbn [byte_cls mctor] in *. rewrite E1, E2. eauto.
Qed.

Lemma put_same : forall (src c : cell C) bs b, inv C S c -> c_alive c = true -> Ro src bs -> Ro c b ->
  Ro (mkcell (c_raw src) (c_flag c) true) (splice 0 (slice 0 (sizeof t) bs) b).
Proof.
  intros src c bs0 b Hi Ha Hs Hc. apply (put_agrees C S t R Hw bs c); [exact Hc|apply Hs|reflexivity].
Qed.

Theorem cassign_agrees : forall src c bs b w, inv C S src -> inv C S c -> Ro src bs -> Ro c b ->
  exists c' b', o_cassign C src c w = Ret (c', w) /\ copy_assign k t bs b = Ok b' /\ Ro c' b'.
Proof.
  intros src c bs0 b w Hi Hic Hs Hc. unfold o_cassign, copy_assign. cbn [byte_cls tcc tca td].
  destruct (t_tcc (k t) && (t_tca (k t) && t_td (k t))); [eauto|]. unfold opt_assign.
  rewrite (has_src src bs0 Hi Hs), (has_ok C S bl src Hi). cbn [check rbind].
  destruct (c_alive src) eqn:Ea.
  - rewrite (has_src c b Hic Hc), (has_ok C S bl c Hic). cbn [check rbind]. destruct (c_alive c) eqn:Eac; cbn [andb].
    + cbn [byte_cls cassign]. do 2 eexists. split; [reflexivity|]. split; [reflexivity|]. now apply put_same.
    + destruct (construct_from W (cctor C (c_raw src)) src c bs0 b w Hi Ea Hs Hc (or_intror Eac) eq_refl) as (c' & b' & E1 & E2 & H).
      cbn [byte_cls cctor] in *. rewrite E1, E2. eauto.
  - now apply reset_full.
Qed.

Theorem massign_agrees : forall src c bs b w, inv C S src -> inv C S c -> Ro src bs -> Ro c b ->
  exists c' b', o_massign C c (src, w) = Ret (c', (src, w)) /\
    (if t_tmc (k t) && (t_tma (k t) && t_td (k t)) then Ok bs else opt_assign (t_td (k t)) t bs b) = Ok b' /\ Ro c' b'.
Proof.
  intros src c bs0 b w Hi Hic Hs Hc. unfold o_massign. cbn [byte_cls tmc tma td fst].
  destruct (t_tmc (k t) && (t_tma (k t) && t_td (k t))); [eauto|]. unfold opt_assign.
  rewrite (has_src src bs0 Hi Hs), (has_ok C S bl src Hi). cbn [check rbind].
  destruct (c_alive src) eqn:Ea.
  - rewrite (has_src c b Hic Hc), (has_ok C S bl c Hic). cbn [check rbind]. destruct (c_alive c) eqn:Eac; cbn [andb].
    + rewrite from_cell_same by (reflexivity || assumption). do 2 eexists. split; [reflexivity|]. split; [reflexivity|]. now apply put_same.
    + destruct (construct_from _ (from_cell C (mctor C)) src c bs0 b (src, w) Hi Ea Hs Hc (or_intror Eac)) as (c' & b' & E1 & E2 & H).
      { now apply from_cell_same. }
      cbn [byte_cls mctor] in *. rewrite E1, E2. eauto.
  - unfold lift. cbn [snd fst]. destruct (reset_full c b w Hic Hc) as (c' & b' & -> & -> & H). eauto.
Qed.

Theorem take_agrees : forall src c bs b w, inv C S src -> Ro src bs -> Ro c b ->
  exists c' src' b' bs', o_take C true c (src, w) = Ret (c', (src', w)) /\
    take_result k t bs b = Ok b' /\ opt_reset (t_td (k t)) t bs = Ok bs' /\ Ro c' b' /\ Ro src' bs'.
Proof.
  intros src c bs0 b w Hi Hs Hc. unfold o_take.
  destruct (mctor_agrees src c bs0 b w Hi Hs Hc) as (c' & b' & -> & E1 & H1).
  destruct (reset_full src bs0 w Hi Hs) as (src' & bs' & E2 & E3 & H2). rewrite E2. cbn [nothrow].
  exists c', src', b', bs'. auto.
Qed.

Theorem swap_agrees : forall x y bx b_y w, inv C S x -> inv C S y -> Ro x bx -> Ro y b_y ->
  exists x' y' bx' by', o_swap C x (y, w) = Ret (x', (y', w)) /\
    opt_swap (t_td (k t)) t bx b_y = Ok (bx', by') /\ Ro x' bx' /\ Ro y' by'.
Proof.
  intros x y bx b_y w Hx Hy Rx Ry. unfold o_swap, opt_swap.
  rewrite (has_src x bx Hx Rx), (has_ok C S bl x Hx), (has_src y b_y Hy Ry), (has_ok C S bl y Hy). cbn [check rbind].
  destruct (c_alive x) eqn:Ex, (c_alive y) eqn:Ey; cbn [negb andb].
  - cbn [byte_cls swp fst snd]. do 4 eexists. split; [reflexivity|]. split; [reflexivity|].
    split; [now apply put_same|now apply put_same].
  - destruct (construct_from _ (from_cell C (mctor C)) x y bx b_y (x, w) Hx Ex Rx Ry (or_intror Ey)) as (y' & by' & E1 & E2 & H1).
    { now apply from_cell_same. }
    cbn [byte_cls mctor] in *. rewrite E1, E2. destruct (reset_full x bx w Hx Rx) as (x' & bx' & E3 & E4 & H2). cbn [rbind].
    rewrite E3, E4. cbn [nothrow rbind]. exists x', y', bx', by'. auto.
  - destruct (construct_from _ (from_cell C (mctor C)) y x b_y bx (y, w) Hy Ey Ry Rx (or_intror Ex)) as (x' & bx' & E1 & E2 & H1).
    { now apply from_cell_same. }
    cbn [byte_cls mctor] in *. rewrite E1, E2. destruct (reset_full y b_y w Hy Ry) as (y' & by' & E3 & E4 & H2). cbn [rbind].
    rewrite E3, E4. cbn [nothrow rbind]. exists x', y', bx', by'. auto.
  - exists x, y, bx, b_y. auto.
Qed.
End Copies.
