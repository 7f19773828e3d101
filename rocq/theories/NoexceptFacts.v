(** Which functions declared noexcept keep their promise. *)
From Coq Require Import NArith ZArith Bool List Lia.
From Verif Require Import Outcome Words Types Lifetime LifetimeSpec LifetimeFacts Select SelectSpec SelectFacts Noexcept NoexceptSpec.
Import ListNotations.
Open Scope N_scope.

Lemma silent_nothrow : forall A (m : out A), silent m <-> nothrow m = m.
Proof.
  intros A m. unfold silent. destruct m as [a|a| |]; cbn; split; intros H.
  - reflexivity.
  - intros b. discriminate.
  - exfalso. exact (H a eq_refl).
  - discriminate.
  - reflexivity.
  - intros b. discriminate.
  - reflexivity.
  - intros b. discriminate.
Qed.

Lemma silent_declared : forall A (m : out A) b, (b = true -> silent m) -> declared b m = m.
Proof. intros A m [|] H; cbn; [|reflexivity]. apply silent_nothrow. now apply H. Qed.

Lemma loud_silent : forall A (m : out A), loud m -> ~ silent m.
Proof. intros A m [a Ha] H. exact (H a Ha). Qed.

(** A wrongly declared function ends the program. *)
Lemma declared_loud : forall A (m : out A), loud m -> declared true m = Abort.
Proof. intros A m [a ->]. reflexivity. Qed.

Section Class.
Context {W : Type} (C : cls W) (S : sem C).
Hypothesis L : lawful C S.
Notation inv := (inv C S).

Lemma construct_silent : forall W' (mk : raw C -> W' -> out (raw C * W')) c w,
  silent (mk (c_raw c) w) -> silent (o_construct C mk c w).
Proof.
  intros W' mk c w H p. unfold o_construct. destruct (_ && _)%bool; [discriminate|].
  destruct (mk (c_raw c) w) as [[r w']|[r w']| |] eqn:E; try discriminate; [|now destruct (H (r, w'))].
  destruct (traits C); [|discriminate]. cbn zeta. destruct (o_has C _) as [[|]| |]; discriminate.
Qed.

Lemma with_base_silent : forall W' dt (body : cell C -> W' -> out (cell C * W')) c w,
  (forall c0, silent (body c0 w)) -> silent (with_base C dt body c w).
Proof.
  intros W' dt body c w H p. unfold with_base. destruct (default_ok C S L c) as (c0 & -> & _).
  destruct (body c0 w) as [q|q| |] eqn:E; try discriminate. now destruct (H c0 q).
Qed.

Lemma empty_silent : forall c (w : W), silent (o_empty C c w).
Proof. intros c w p. destruct (empty_ok C S L c w) as (c' & -> & _). discriminate. Qed.

(** reset() and the destructor: a throwing destructor of T ends the program, nothing comes out. *)
Lemma destroy_silent : forall (d : raw C -> W -> out (raw C * W)) c w, silent (destroy_value C d c w).
Proof.
  intros d c w p. unfold destroy_value. destruct (c_alive c); [|discriminate].
  destruct (d (c_raw c) w) as [[r w']|[r w']| |]; discriminate.
Qed.

Theorem reset_silent : forall c w, silent (o_reset C c w).
Proof.
  intros c w p. unfold o_reset. destruct (td C); [apply empty_silent|].
  destruct (o_has C c) as [[|]| |]; cbn [check]; try discriminate.
  pose proof (destroy_silent (dtor C) c w) as H.
  destruct (destroy_value C (dtor C) c w) as [[c' w']|q| |]; try discriminate; [apply empty_silent|].
  now destruct (H q).
Qed.

Theorem dtor_silent : forall c w, silent (o_dtor C c w).
Proof.
  intros c w p. unfold o_dtor. destruct (td C); [discriminate|].
  destruct (o_has C c) as [[|]| |]; cbn [check]; try discriminate. apply destroy_silent.
Qed.

Theorem none_silent : forall c w, silent (o_ctor C INone c w) /\ silent (o_asgn C INone c w).
Proof.
  intros c w. split.
  - intros p. cbn [o_ctor]. destruct (default_ok C S L c) as (c0 & -> & _). discriminate.
  - apply reset_silent.
Qed.

Lemma lift_silent : forall X (f : cell C -> W -> out (cell C * W)) c (xw : X * W),
  silent (f c (snd xw)) -> silent (lift f c xw).
Proof.
  intros X f c xw H p. unfold lift. destruct (f c (snd xw)) as [[a w]|[a w]| |] eqn:E; try discriminate.
  now destruct (H (a, w)).
Qed.

Lemma from_cell_silent : forall (f : raw C -> raw C * W -> out (raw C * (raw C * W))) r s w,
  silent (f r (c_raw s, w)) -> silent (from_cell C f r (s, w)).
Proof.
  intros f r s w H p. unfold from_cell. destruct (c_alive s); [|discriminate].
  destruct (f r (c_raw s, w)) as [[a [b x]]|[a [b x]]| |] eqn:E; try discriminate. now destruct (H (a, (b, x))).
Qed.

Theorem cctor_silent : copy_ctor_silent C S -> forall src c w, inv src -> silent (o_cctor C src c w).
Proof.
  intros H src c w Hs. unfold o_cctor. destruct (tcc C); [intros p; discriminate|].
  apply with_base_silent. intros c0. cbv beta. rewrite (has_ok C S L src Hs). cbn [check].
  destruct (c_alive src) eqn:E; [|intros p; discriminate]. apply construct_silent. apply H. now apply Hs.
Qed.

Theorem mctor_silent : move_ctor_silent C S -> forall src c w, inv src -> silent (o_mctor C c (src, w)).
Proof.
  intros H src c w Hs. unfold o_mctor. destruct (tmc C); [intros p; discriminate|].
  apply with_base_silent. intros c0. cbn [fst]. rewrite (has_ok C S L src Hs). cbn [check].
  destruct (c_alive src) eqn:E; [|intros p; discriminate]. apply construct_silent. apply from_cell_silent.
  apply H. now apply Hs.
Qed.

Theorem cassign_silent : copy_ctor_silent C S -> copy_assign_silent C S ->
  (forall src c w, inv src -> inv c -> silent (o_cassign C src c w)) /\ (forall c w, inv c -> silent (o_self_cassign C c w)).
Proof.
  intros H [H1 H2]. split.
  - intros src c w Hs Hc. unfold o_cassign. destruct (tcc C && (tca C && td C))%bool; [intros p; discriminate|].
    rewrite (has_ok C S L src Hs). cbn [check]. destruct (c_alive src) eqn:E; [|apply reset_silent].
    rewrite (has_ok C S L c Hc). cbn [check]. destruct (c_alive c) eqn:Ec; cbn [andb].
    + intros p. pose proof (H1 (c_raw src) (c_raw c) w (proj1 Hs E) (proj1 Hc Ec)) as Hx.
      destruct (cassign C _ _ w) as [[r w']|[r w']| |]; try discriminate. now destruct (Hx (r, w')).
    + apply construct_silent. apply H. now apply Hs.
  - intros c w Hc. unfold o_self_cassign. destruct (tcc C && (tca C && td C))%bool; [intros p; discriminate|].
    rewrite (has_ok C S L c Hc). cbn [check]. destruct (c_alive c) eqn:E; [|apply reset_silent].
    intros p. pose proof (H2 (c_raw c) w (proj1 Hc E)) as Hx.
    destruct (self_cassign C _ w) as [[r w']|[r w']| |]; try discriminate. now destruct (Hx (r, w')).
Qed.

Theorem massign_silent : move_ctor_silent C S -> move_assign_silent C S ->
  (forall src c w, inv src -> inv c -> silent (o_massign C c (src, w))) /\ (forall c w, inv c -> silent (o_self_massign C c w)).
Proof.
  intros H [H1 H2]. split.
  - intros src c w Hs Hc. unfold o_massign. destruct (tmc C && (tma C && td C))%bool; [intros p; discriminate|].
    cbn [fst]. rewrite (has_ok C S L src Hs). cbn [check]. destruct (c_alive src) eqn:E; [|apply lift_silent, reset_silent].
    rewrite (has_ok C S L c Hc). cbn [check]. destruct (c_alive c) eqn:Ec.
    + intros p. pose proof (from_cell_silent (massign C) (c_raw c) src w (H1 (c_raw src) (c_raw c) w (proj1 Hs E) (proj1 Hc Ec))) as Hx.
      destruct (from_cell C _ _ _) as [[r w']|[r w']| |]; try discriminate. now destruct (Hx (r, w')).
    + apply construct_silent. apply from_cell_silent. apply H. now apply Hs.
  - intros c w Hc. unfold o_self_massign. destruct (tmc C && (tma C && td C))%bool; [intros p; discriminate|].
    rewrite (has_ok C S L c Hc). cbn [check]. destruct (c_alive c) eqn:E; [|apply reset_silent].
    intros p. pose proof (H2 (c_raw c) w (proj1 Hc E)) as Hx.
    destruct (self_massign C _ w) as [[r w']|[r w']| |]; try discriminate. now destruct (Hx (r, w')).
Qed.

(** The specification of C47 and the functions fit together. *)
Theorem special_honest : forall f k m, coherent f = true -> f_ref f = false -> truthful C S f ->
  option_member f k = Chosen m -> honest C S k (is_noexcept m).
Proof.
  intros f k m Hf Hr [Ycc Yca Ymc Yma] Hm.
  destruct (special_ok f k Hf) as (m' & Hm' & Hd & _ & Hx). rewrite Hm in Hm'. injection Hm' as <-.
  assert (Hn : is_noexcept m = true -> doc_noexcept f k = true).
  { intros Hn. assert (is_deleted m = false) as Hdel by (destruct m; [discriminate|reflexivity|reflexivity]).
    destruct (Hx Hdel) as [_ He]. now rewrite <- (He Hr). }
  clear - L Hr Ycc Yca Ymc Yma Hn. destruct k; cbn [honest doc_noexcept] in *; rewrite ?Hr in Hn; cbn [orb] in Hn.
  - intros src c w Hs. apply silent_declared. intros Hb. apply cctor_silent; auto.
  - split; intros; apply silent_declared; intros Hb; specialize (Hn Hb); apply andb_prop in Hn as [Ha Hc];
      destruct (cassign_silent (Ycc Hc) (Yca Ha)) as [P1 P2]; auto.
  - intros src c w Hs. apply silent_declared. intros Hb. apply mctor_silent; auto.
  - split; intros; apply silent_declared; intros Hb; specialize (Hn Hb); apply andb_prop in Hn as [Ha Hc];
      destruct (massign_silent (Ymc Hc) (Yma Ha)) as [P1 P2]; auto.
Qed.

(** * The other direction *)
Hypothesis Q : quiet C S.
Hypothesis B : blind C.

Lemma alive_cell : forall r, ok S r -> inv (mkcell r 1 true).
Proof. intros r H. apply inv_alive; [exact H|reflexivity]. Qed.

Lemma dead_cell : forall r, exists c, o_default C (mkcell r 0 false) = Ret c /\ inv c /\ c_alive c = false.
Proof. intros r. apply (default_ok C S L). Qed.

Lemma construct_loud : forall W' (mk : raw C -> W' -> out (raw C * W')) c w,
  c_alive c = false -> forall r w', mk (c_raw c) w = Exn (r, w') ->
  o_construct C mk c w = Exn (mkcell r (c_flag c) false, w').
Proof. intros W' mk c w Hc r w' H. unfold o_construct. rewrite Hc. cbn [andb]. now rewrite H. Qed.

(** A constructor that throws into an empty option: the option is destroyed and the exception goes on. *)
Lemma with_base_loud : forall W' (dt : cell C -> W' -> out (cell C * W')) (mk : raw C -> W' -> out (raw C * W')) body c0 w,
  (forall c w, inv c -> c_alive c = false -> exists p, dt c w = Ret p) ->
  (forall c, inv c -> c_alive c = false -> exists r w', mk (c_raw c) w = Exn (r, w') /\
     (0 < lmax C -> lget C (c_raw c) = 0 -> lget C r = 0)) ->
  (forall c, body c w = o_construct C mk c w) ->
  loud (with_base C dt body c0 w).
Proof.
  intros W' dt mk body c0 w Hdt Hmk Hb. unfold with_base.
  destruct (default_ok C S L c0) as (c & -> & Hc & Ha). rewrite Hb.
  destruct (Hmk c Hc Ha) as (r & w' & Hx & Hq). rewrite (construct_loud _ _ _ _ Ha _ _ Hx).
  assert (Hi : inv (mkcell r (c_flag c) false)).
  { destruct Hc as (H1 & H2 & H3). split; [|split]; cbn.
    - discriminate.
    - intros Hm _. apply Hq; [exact Hm|]. now apply H2.
    - intros Hm. rewrite (H3 Hm), Ha. reflexivity. }
  destruct (Hdt _ w' Hi eq_refl) as [p ->]. now exists p.
Qed.

Lemma dtor_dead : forall c w, inv c -> c_alive c = false -> exists p, o_dtor C c w = Ret p.
Proof.
  intros c w Hc Ha. unfold o_dtor. destruct (td C); [now eexists|].
  rewrite (has_ok C S L c Hc), Ha. cbn. now eexists.
Qed.

Theorem cctor_loud : tcc C = false -> forall s r w, ok S s -> loud (cctor C s r w) ->
  forall c, loud (o_cctor C (mkcell s 1 true) c w).
Proof.
  intros Ht s r w Hs Hl c. unfold o_cctor. rewrite Ht. rewrite (has_ok C S L _ (alive_cell s Hs)). cbn [check c_alive c_raw].
  apply (with_base_loud _ _ (cctor C s)); [exact dtor_dead| |reflexivity].
  intros c' Hc' Ha. destruct (proj1 B s r (c_raw c') w Hl) as [[r' w'] He]. exists r', w'. split; [exact He|].
  intros Hm H0. rewrite (q_cctor _ _ Q s (c_raw c') w r' w' Hs Hm) by (rewrite ?H0; auto; lia). exact H0.
Qed.

Theorem mctor_loud : tmc C = false -> forall s r w, ok S s -> loud (mctor C r (s, w)) ->
  forall c, loud (o_mctor C c (mkcell s 1 true, w)).
Proof.
  intros Ht s r w Hs Hl c. unfold o_mctor. rewrite Ht. cbn [fst].
  apply (with_base_loud _ _ (from_cell C (mctor C))).
  - intros c' [x w'] Hc' Ha. unfold lift. cbn [snd fst]. destruct (dtor_dead c' w' Hc' Ha) as [[p1 p2] ->]. now eexists.
  - intros c' Hc' Ha. destruct (proj2 B s r (c_raw c') w Hl) as [[r' [s' w']] He].
    unfold from_cell. cbn [c_alive c_raw c_flag]. rewrite He. eexists _, _. split; [reflexivity|].
    intros Hm H0. rewrite (q_mctor _ _ Q s (c_raw c') w r' (s', w') Hs Hm) by (rewrite ?H0; auto; lia). exact H0.
  - intros c'. cbn [fst]. rewrite (has_ok C S L _ (alive_cell s Hs)). reflexivity.
Qed.

(** For every specification that is not noexcept there are options on which the member throws. *)
Theorem special_throws : forall f k m, coherent f = true -> f_ref f = false -> describes f C -> exacting C S f ->
  option_member f k = Chosen m -> is_deleted m = false -> is_noexcept m = false -> throws C S k.
Proof.
  intros f k m Hf Hr (Dtd & Dtcc & Dtca & Dtmc & Dtma) [Zcc Zca Zmc Zma] Hm Hdel Hn.
  destruct (special_ok f k Hf) as (m' & Hm' & _ & Htr & Hx). rewrite Hm in Hm'. injection Hm' as <-.
  destruct (Hx Hdel) as [_ He]. specialize (He Hr). rewrite Hn in He.
  assert (Ht : doc_trivial f k = false).
  { rewrite <- Htr. destruct m; [reflexivity|discriminate Hn|reflexivity]. }
  clear Hx Htr Hm Hdel Hn. unfold doc_trivial in Ht. rewrite Hr in Ht. cbn [orb] in Ht. destruct k; cbn [throws doc_noexcept] in *; rewrite ?Hr in He; cbn [orb] in He.
  - destruct (Zcc (eq_sym He)) as (s & r & w & Hs & Hl). exists (mkcell s 1 true), (mkcell r 0 false), w.
    split; [now apply alive_cell|]. apply (cctor_loud) with r; [congruence|exact Hs|exact Hl].
  - symmetry in He. apply andb_false_iff in He.
    assert (Hg : (tcc C && (tca C && td C))%bool = false).
    { rewrite Dtcc, Dtca, Dtd. destruct (f_tcc f), (f_tca f), (f_td f); cbn in *; congruence. }
    destruct He as [He|He].
    + destruct (Zca He) as (s & r & w & Hs & Hr' & [[r2 w2] Hl]). exists (mkcell s 1 true), (mkcell r 1 true), w.
      split; [now apply alive_cell|]. split; [now apply alive_cell|]. unfold o_cassign. rewrite Hg.
      rewrite !(has_ok C S L) by now apply alive_cell. cbn [check c_alive c_raw andb]. rewrite Hl. now eexists.
    + destruct (Zcc He) as (s & r & w & Hs & Hl). destruct (dead_cell r) as (c & _ & Hc & Ha).
      exists (mkcell s 1 true), c, w. split; [now apply alive_cell|]. split; [exact Hc|]. unfold o_cassign. rewrite Hg.
      rewrite (has_ok C S L) by now apply alive_cell. rewrite (has_ok C S L) by exact Hc. cbn [check c_alive c_raw]. rewrite Ha.
      destruct (proj1 B s r (c_raw c) w Hl) as [[r' w'] Hx]. rewrite (construct_loud _ _ _ _ Ha _ _ Hx). now eexists.
  - destruct (Zmc (eq_sym He)) as (s & r & w & Hs & Hl). exists (mkcell s 1 true), (mkcell r 0 false), w.
    split; [now apply alive_cell|]. apply (mctor_loud) with r; [congruence|exact Hs|exact Hl].
  - symmetry in He. apply andb_false_iff in He.
    assert (Hg : (tmc C && (tma C && td C))%bool = false).
    { rewrite Dtmc, Dtma, Dtd. destruct (f_tmc f), (f_tma f), (f_td f); cbn in *; congruence. }
    destruct He as [He|He].
    + destruct (Zma He) as (s & r & w & Hs & Hr' & [[r2 [s2 w2]] Hl]). exists (mkcell s 1 true), (mkcell r 1 true), w.
      split; [now apply alive_cell|]. split; [now apply alive_cell|]. unfold o_massign. rewrite Hg. cbn [fst].
      rewrite !(has_ok C S L) by now apply alive_cell. cbn [check c_alive c_raw from_cell]. rewrite Hl. now eexists.
    + destruct (Zmc He) as (s & r & w & Hs & Hl). destruct (dead_cell r) as (c & _ & Hc & Ha).
      exists (mkcell s 1 true), c, w. split; [now apply alive_cell|]. split; [exact Hc|]. unfold o_massign. rewrite Hg. cbn [fst].
      rewrite (has_ok C S L) by now apply alive_cell. rewrite (has_ok C S L) by exact Hc. cbn [check c_alive]. rewrite Ha.
      destruct (proj2 B s r (c_raw c) w Hl) as [[r' [s' w']] Hx].
      rewrite (construct_loud _ _ c (mkcell s 1 true, w) Ha r' (mkcell s' 1 true, w')); [now eexists|].
      unfold from_cell. cbn [c_alive c_raw c_flag]. now rewrite Hx.
Qed.
End Class.

(** * Options in options *)
Lemma used_noexcept : forall f k, coherent f = true -> regular f = true ->
  is_noexcept (used f k) = true -> doc_noexcept f k = true.
Proof.
  intros f k Hf Hg Hn. destruct (special_ok f k Hf) as (m & Hm & Hd & _ & Hx).
  assert (Hr : f_ref f = false).
  { unfold regular in Hg. destruct (f_ref f); [discriminate|reflexivity]. }
  assert (Hdel : is_deleted m = false).
  { rewrite Hd. unfold doc_deleted. unfold regular in Hg.
    destruct k, (f_ref f), (f_cc f), (f_ca f), (f_mc f), (f_ma f); try discriminate Hg; reflexivity. }
  destruct (Hx Hdel) as [_ He]. rewrite <- (He Hr). clear He Hx.
  assert (Hu : used f k = m).
  { unfold used, option_used. rewrite Hm. destruct m; [discriminate Hdel|reflexivity|reflexivity]. }
  now rewrite <- Hu.
Qed.

Theorem option_truthful : forall W (C : cls W) (S : sem C) f, lawful C S -> coherent f = true -> regular f = true ->
  truthful C S f -> truthful (opt_cls C) (opt_sem C S) (option_flags f).
Proof.
  intros W C S f L Hf Hg [Ycc Yca Ymc Yma].
  assert (Hr : f_ref f = false).
  { unfold regular in Hg. destruct (f_ref f); [discriminate|reflexivity]. }
  constructor; intros Hn.
  - apply (used_noexcept f CopyCtor Hf Hg) in Hn. cbn in Hn. rewrite Hr in Hn. cbn in Hn.
    intros s r w Hs. apply (cctor_silent C S L); [now apply Ycc|exact Hs].
  - apply (used_noexcept f CopyAssign Hf Hg) in Hn. cbn in Hn. rewrite Hr in Hn. cbn in Hn.
    apply andb_prop in Hn as [Ha Hc]. destruct (cassign_silent C S L (Ycc Hc) (Yca Ha)) as [P1 P2]. split.
    + intros s r w Hs Hx. now apply P1.
    + intros r w Hx. now apply P2.
  - apply (used_noexcept f MoveCtor Hf Hg) in Hn. cbn in Hn. rewrite Hr in Hn. cbn in Hn.
    intros s r w Hs. apply (mctor_silent C S L); [now apply Ymc|exact Hs].
  - apply (used_noexcept f MoveAssign Hf Hg) in Hn. cbn in Hn.
    apply andb_prop in Hn as [Ha Hc]. destruct (massign_silent C S L (Ymc Hc) (Yma Ha)) as [P1 P2]. split.
    + intros s r w Hs Hx. now apply P1.
    + intros r w Hx. now apply P2.
Qed.

Theorem nest_truthful : forall W n (C : cls W) (S : sem C) f, describes f C -> coherent f = true -> regular f = true ->
  (forall k, (k < n)%nat -> lawful (nest_cls k C) (nest_sem k C S)) ->
  truthful C S f -> truthful (nest_cls n C) (nest_sem n C S) (nest_flags n f).
Proof.
  intros W n C S f D Hf Hg HL Y. induction n as [|n IH]; [exact Y|].
  cbn [nest_cls nest_sem nest_flags]. apply option_truthful.
  - apply HL. lia.
  - now apply nest_coherent.
  - now apply (nest_describes W n C f Hf Hg D).
  - apply IH. intros k Hk. apply HL. lia.
Qed.

(** * swap *)
Lemma nothrow_reset : forall W (C : cls W) (S : sem C), lawful C S -> forall c w, nothrow (o_reset C c w) = o_reset C c w.
Proof. intros W C S L c w. apply silent_nothrow. now apply (reset_silent C S). Qed.

Section Mixed.
Context {W : Type} (C D : cls W) (S : sem C) (R : sem D).
Hypothesis LC : lawful C S.
Hypothesis LD : lawful D R.

Lemma from_other_silent : forall (f : raw D -> raw C * W -> out (raw D * (raw C * W))) r s w,
  silent (f r (c_raw s, w)) -> silent (from_other f r (s, w)).
Proof.
  intros f r s w H p. unfold from_other. destruct (c_alive s); [|discriminate].
  destruct (f r (c_raw s, w)) as [[a [b x]]|[a [b x]]| |] eqn:E; try discriminate. now destruct (H (a, (b, x))).
Qed.

Lemma hand_over_silent : forall (f : raw D -> raw C * W -> out (raw D * (raw C * W))) to from w,
  silent (f (c_raw to) (c_raw from, w)) -> silent (hand_over f to from w).
Proof.
  intros f to from w H p. unfold hand_over.
  pose proof (construct_silent D (cell C * W) (from_other f) to (from, w) (from_other_silent f _ from w H)) as Hc.
  destruct (o_construct D (from_other f) to (from, w)) as [[t [g x]]|q| |]; try discriminate; [|now destruct (Hc q)].
  rewrite (nothrow_reset W C S LC). pose proof (reset_silent C S LC g x) as Hr.
  destruct (o_reset C g x) as [[g' x']|q| |]; try discriminate. now destruct (Hr q).
Qed.
End Mixed.

Lemma turn_silent : forall W A B (m : out (B * (A * W))), silent m -> silent (turn m).
Proof.
  intros W A B m H p. destruct m as [[b [a w]]|[b [a w]]| |]; cbn; try discriminate. now destruct (H (b, (a, w))).
Qed.
Lemma turn_loud : forall W A B (m : out (B * (A * W))), loud m -> loud (turn m).
Proof. intros W A B m [[b [a w]] ->]. cbn. now eexists. Qed.

(** If neither the conversions nor the exchange throw, swap does not. *)
Theorem mixed_silent : forall W (C D : cls W) (S : sem C) (R : sem D) X, lawful C S -> lawful D R ->
  cross_silent S R X -> forall a b w, inv C S a -> inv D R b -> silent (x_swap X a (b, w)).
Proof.
  intros W C D S R X LC LD [H1 H2 H3] a b w Ha Hb. unfold x_swap.
  rewrite (has_ok C S LC a Ha), (has_ok D R LD b Hb). cbn [check].
  destruct (c_alive a) eqn:Ea, (c_alive b) eqn:Eb; cbn [andb negb].
  - intros p. pose proof (H3 (c_raw a) (c_raw b) w (proj1 Ha Ea) (proj1 Hb Eb)) as Hx.
    destruct (exchange X _ _) as [[u [v x]]|[u [v x]]| |]; try discriminate. now destruct (Hx (u, (v, x))).
  - apply turn_silent. apply (hand_over_silent C D S LC). apply H1. now apply Ha.
  - apply (hand_over_silent D C R LD). apply H2. now apply Hb.
  - intros p. discriminate.
Qed.

(** An exception of the conversion comes out of swap. *)
Theorem mixed_right_loud : forall W (C D : cls W) (S : sem C) (R : sem D) X, lawful C S -> lawful D R ->
  forall a b w, inv C S a -> inv D R b -> c_alive a = true -> c_alive b = false ->
  loud (to_right X (c_raw b) (c_raw a, w)) -> loud (x_swap X a (b, w)).
Proof.
  intros W C D S R X LC LD a b w Ha Hb Ea Eb [[r [s x]] He]. unfold x_swap.
  rewrite (has_ok C S LC a Ha), (has_ok D R LD b Hb), Ea, Eb. cbn [check andb negb].
  apply turn_loud. unfold hand_over, o_construct. rewrite Eb. cbn [andb]. unfold from_other. rewrite Ea, He. now eexists.
Qed.
Theorem mixed_left_loud : forall W (C D : cls W) (S : sem C) (R : sem D) X, lawful C S -> lawful D R ->
  forall a b w, inv C S a -> inv D R b -> c_alive a = false -> c_alive b = true ->
  loud (to_left X (c_raw a) (c_raw b, w)) -> loud (x_swap X a (b, w)).
Proof.
  intros W C D S R X LC LD a b w Ha Hb Ea Eb [[r [s x]] He]. unfold x_swap.
  rewrite (has_ok C S LC a Ha), (has_ok D R LD b Hb), Ea, Eb. cbn [check andb negb].
  unfold hand_over, o_construct. rewrite Ea. cbn [andb]. unfold from_other. rewrite Eb, He. now eexists.
Qed.

(** swap of two option<T> is the special case. *)
Theorem mixed_same : forall W (C : cls W) a bw, x_swap (same_cross C) a bw = o_swap C a bw.
Proof.
  intros W C a [b w]. unfold x_swap, o_swap, same_cross, hand_over, turn. cbn [to_right to_left exchange].
  destruct (o_has C a) as [ha| |]; cbn [check]; try reflexivity.
  destruct (o_has C b) as [hb| |]; cbn [check]; try reflexivity.
  destruct ha, hb; cbn [andb negb]; try reflexivity.
  - change (from_other (mctor C)) with (from_cell C (mctor C)).
    destruct (o_construct C (from_cell C (mctor C)) b (a, w)) as [[t [g x]]|[t [g x]]| |]; try reflexivity.
    destruct (nothrow (o_reset C g x)) as [[g' x']|[g' x']| |]; reflexivity.
Qed.

Theorem swap_honest : forall W (C : cls W) (S : sem C) f ns, lawful C S -> truthful C S f ->
  (ns = true -> swap_silent C S) ->
  (forall a b w, inv C S a -> inv C S b ->
    declared (nothrow_swap f f ns) (o_swap C a (b, w)) = o_swap C a (b, w)) /\
  (forall a w, inv C S a -> declared (nothrow_swap f f ns) (o_self_swap C a w) = o_self_swap C a w).
Proof.
  intros W C S f ns L Y Hs. split.
  - intros a b w Ha Hb. apply silent_declared. intros Hn. unfold nothrow_swap in Hn.
    apply andb_prop in Hn as [Hn Hs']. apply andb_prop in Hn as [Hn _]. rewrite <- mixed_same.
    apply (mixed_silent W C C S S (same_cross C) L L); auto. constructor; cbn.
    + intros. now apply (y_mc _ _ _ Y Hn).
    + intros. now apply (y_mc _ _ _ Y Hn).
    + intros. now apply (proj1 (Hs Hs')).
  - intros a w Ha. apply silent_declared. intros Hn. unfold nothrow_swap in Hn.
    apply andb_prop in Hn as [Hn Hs']. unfold o_self_swap. rewrite (has_ok C S L a Ha). cbn [check].
    destruct (c_alive a) eqn:Ea; [|intros p; discriminate]. intros p.
    pose proof (proj2 (Hs Hs') (c_raw a) w (proj1 Ha Ea)) as Hx.
    destruct (self_swp C (c_raw a) w) as [[r w']|[r w']| |]; try discriminate. now destruct (Hx (r, w')).
Qed.

(** What swap of an option<T> and an option<U> does. *)
Section Exchange.
Context {W : Type} (C D : cls W) (S : sem C) (R : sem D).
Hypothesis LC : lawful C S.
Hypothesis LD : lawful D R.

Lemma hand_over_ok : forall (stop : Prop) (f : raw D -> raw C * W -> out (raw D * (raw C * W))) (conv : V S -> V R -> Prop) to from w,
  (stops R -> stop) -> (stops S -> stop) ->
  (forall a r w, ok S a -> post stop (f r (a, w))
    (fun p => ok R (fst p) /\ conv (val S a) (val R (fst p)) /\ ok S (fst (snd p)))
    (fun p => ok S (fst (snd p)) /\ (0 < lmax D -> lget D r = 0 -> lget D (fst p) = 0))) ->
  inv D R to -> inv C S from -> c_alive to = false -> c_alive from = true ->
  post stop (hand_over f to from w)
    (fun p => inv D R (fst p) /\ inv C S (fst (snd p)) /\ oval C S (fst (snd p)) = None /\
              carried conv (oval C S from) (oval D R (fst p)))
    (fun p => inv D R (fst p) /\ inv C S (fst (snd p)) /\ c_alive (fst p) = false /\ c_alive (fst (snd p)) = true).
Proof.
  intros stop f conv to from w HR HS Hf Ht Hfr Et Ef. unfold hand_over, o_construct. rewrite Et. cbn [andb].
  unfold from_other. rewrite Ef. pose proof (Hf (c_raw from) (c_raw to) w (proj1 Hfr Ef)) as Hx.
  destruct (f (c_raw to) (c_raw from, w)) as [[r [s x]]|[r [s x]]| |]; cbn [post fst snd] in *; auto.
  - destruct Hx as (Hr & Hv & Hs).
    assert (Hok : inv D R (mkcell r 1 true)) by (apply inv_alive; auto).
    assert (Hok' : inv D R (mkcell r (c_flag to) true) \/ lmax D = 0).
    { destruct (N.eq_dec (lmax D) 0) as [E|E]; [now right|left]. apply inv_alive; [exact Hr|]. intros Hm. contradiction. }
    assert (Hfrom : inv C S (mkcell s (c_flag from) true)) by now apply inv_set.
    assert (Hgo : forall t, inv D R t -> c_raw t = r -> c_alive t = true ->
      post stop match nothrow (o_reset C (mkcell s (c_flag from) true) x) with
        | Ret (from'', w'') => Ret (t, (from'', w''))
        | Exn (from'', w'') => Exn (t, (from'', w''))
        | Abort => Abort
        | Undef => Undef
        end
        (fun p => inv D R (fst p) /\ inv C S (fst (snd p)) /\ oval C S (fst (snd p)) = None /\
              carried conv (oval C S from) (oval D R (fst p)))
        (fun p => inv D R (fst p) /\ inv C S (fst (snd p)) /\ c_alive (fst p) = false /\ c_alive (fst (snd p)) = true)).
    { intros t Hti Htr Hta. rewrite (nothrow_reset W C S LC).
      pose proof (reset_ok C S LC _ x Hfrom) as Hreset.
      destruct (o_reset C (mkcell s (c_flag from) true) x) as [[g y]|[g y]| |]; cbn [post fst snd] in *; auto; try contradiction.
      destruct Hreset as (Hg & Hga & _). repeat split; try apply Hti; try apply Hg.
      - unfold oval. now rewrite Hga.
      - unfold oval. rewrite Ef, Hta, Htr. exact Hv. }
    destruct (traits_spec D) as [[Htr Hm]|[Htr Hm]]; rewrite Htr.
    + destruct Hok' as [Hok'|Hok']; [|lia]. cbn zeta. rewrite (has_ok D R LD _ Hok'). cbn [check c_alive].
      apply Hgo; auto.
    + apply Hgo; auto.
  - destruct Hx as [Hs Hq]. repeat split; cbn; try discriminate; try congruence.
    + intros Hm _. apply Hq; [exact Hm|]. apply Ht; auto.
    + intros Hm. destruct Ht as (_ & _ & Ht). now rewrite (Ht Hm), Et.
    + intros Hm. destruct Hfr as (_ & _ & Hfr). now rewrite (Hfr Hm), Ef.
Qed.
End Exchange.

Theorem mixed_ok : forall W (C D : cls W) (S : sem C) (R : sem D) X to fro, lawful C S -> lawful D R ->
  cross_lawful S R X (stops S \/ stops R) to fro ->
  forall a b w, inv C S a -> inv D R b ->
  post (stops S \/ stops R) (x_swap X a (b, w))
    (fun p => inv C S (fst p) /\ inv D R (fst (snd p)) /\
              carried to (oval C S a) (oval D R (fst (snd p))) /\ carried fro (oval D R b) (oval C S (fst p)))
    (fun p => inv C S (fst p) /\ inv D R (fst (snd p)) /\ c_alive (fst p) = c_alive a /\ c_alive (fst (snd p)) = c_alive b).
Proof.
  intros W C D S R X to fro LC LD [H1 H2 H3] a b w Ha Hb. unfold x_swap.
  rewrite (has_ok C S LC a Ha), (has_ok D R LD b Hb). cbn [check].
  destruct (c_alive a) eqn:Ea, (c_alive b) eqn:Eb; cbn [andb negb].
  - pose proof (H3 (c_raw a) (c_raw b) w (proj1 Ha Ea) (proj1 Hb Eb)) as Hx.
    destruct (exchange X _ _) as [[u [v x]]|[u [v x]]| |]; cbn [post fst snd] in *; auto.
    + destruct Hx as (P1 & P2 & P3 & P4). pose proof (inv_set C S a u Ha Ea P1). pose proof (inv_set D R b v Hb Eb P2).
      repeat split; try apply H; try apply H0; unfold oval; rewrite ?Ea, ?Eb; cbn; auto.
    + destruct Hx as (P1 & P2). pose proof (inv_set C S a u Ha Ea P1). pose proof (inv_set D R b v Hb Eb P2).
      repeat split; try apply H; try apply H0; reflexivity.
  - pose proof (hand_over_ok C D S R LC LD (stops S \/ stops R) (to_right X) to b a w (@or_intror _ _) (@or_introl _ _) H1 Hb Ha Eb Ea) as Hx.
    destruct (hand_over (to_right X) b a w) as [[t [g x]]|[t [g x]]| |]; cbn [turn post fst snd] in *; auto.
    + destruct Hx as (P1 & P2 & P3 & P4). repeat split; try apply P1; try apply P2; [exact P4|].
      rewrite P3. unfold oval. now rewrite Eb.
    + destruct Hx as (P1 & P2 & P3 & P4). repeat split; try apply P1; try apply P2; assumption.
  - pose proof (hand_over_ok D C R S LD LC (stops S \/ stops R) (to_left X) fro a b w (@or_introl _ _) (@or_intror _ _) H2 Ha Hb Ea Eb) as Hx.
    destruct (hand_over (to_left X) a b w) as [[t [g x]]|[t [g x]]| |]; cbn [post fst snd] in *; auto.
    + destruct Hx as (P1 & P2 & P3 & P4). repeat split; try apply P1; try apply P2; [|exact P4].
      rewrite P3. unfold oval. now rewrite Ea.
  - cbn. repeat split; try apply Ha; try apply Hb; unfold oval; rewrite ?Ea, ?Eb; exact I.
Qed.

(** * Lookups *)
Section Lookups.
Context {W E : Type} (k : container W E).

Lemma after_silent : forall A (m : out (A * W)) (f : A -> W -> out (option E * W)),
  silent (after m f) <-> silent m /\ (forall a w, m = Ret (a, w) -> silent (f a w)).
Proof.
  intros A m f. destruct m as [[a w]|[a w]| |]; cbn [after].
  - split.
    + intros H. split; [intros p; discriminate|]. intros a' w' [= <- <-]. exact H.
    + intros [_ H]. now apply H.
  - split.
    + intros H. now destruct (H (None, w)).
    + intros [H _]. now destruct (H (a, w)).
  - split; [intros _; split; [intros p; discriminate|discriminate]|intros _ p; discriminate].
  - split; [intros _; split; [intros p; discriminate|discriminate]|intros _ p; discriminate].
Qed.

Lemma stored_silent : forall m,
  silent (stored k m) <-> silent m /\ (forall e w, m = Ret (e, w) -> silent (k_store k e w)).
Proof.
  intros m. unfold stored. rewrite after_silent. split; intros [H1 H2]; split; auto.
  - intros e w Hm. specialize (H2 e w Hm). now apply after_silent in H2.
  - intros e w Hm. apply after_silent. split; [now apply H2|]. intros a w' _ p. discriminate.
Qed.

Theorem at_exact : forall i w, silent (at_body k i w) <->
  silent (k_size k w) /\
  (forall n w1, k_size k w = Ret (n, w1) -> i < n ->
     silent (k_index k i w1) /\ (forall e w2, k_index k i w1 = Ret (e, w2) -> silent (k_store k e w2))).
Proof.
  intros i w. unfold at_body. rewrite after_silent. split; intros [H1 H2]; split; auto.
  - intros n w1 Hn Hi. specialize (H2 n w1 Hn). destruct (N.leb_spec n i); [lia|]. now apply stored_silent.
  - intros n w1 Hn. destruct (N.leb_spec n i); [intros p; discriminate|]. apply stored_silent. now apply (H2 n w1).
Qed.

Lemma end_exact : forall g w,
  silent (after (k_size k w) (fun n w => if n =? 0 then Ret (None, w) else stored k (g w))) <->
  silent (k_size k w) /\
  (forall n w1, k_size k w = Ret (n, w1) -> n <> 0 ->
     silent (g w1) /\ (forall e w2, g w1 = Ret (e, w2) -> silent (k_store k e w2))).
Proof.
  intros g w. rewrite after_silent. split; intros [H1 H2]; split; auto.
  - intros n w1 Hn Hi. specialize (H2 n w1 Hn). destruct (N.eqb_spec n 0); [contradiction|]. now apply stored_silent.
  - intros n w1 Hn. destruct (N.eqb_spec n 0); [intros p; discriminate|]. apply stored_silent. now apply (H2 n w1).
Qed.
End Lookups.

(** * Sentinels *)
Section Sentinels.
Context {A : Type}.

(** The first sentinel whose comparison is not "different" decides. *)
Theorem scan_spec : forall (eq : A -> out bool) vals i pre v post, vals = pre ++ v :: post ->
  (forall u, In u pre -> eq u = Ret false) ->
  scan eq i vals =
    match eq v with
    | Ret true => Ret (i + N.of_nat (length pre))
    | Ret false => scan eq (i + N.of_nat (length pre)) (v :: post)
    | Exn _ => Abort
    | Abort => Abort
    | Undef => Undef
    end.
Proof.
  intros eq vals i pre v post -> Hp. revert i. induction pre as [|u pre IH]; intros i; cbn [app length].
  - rewrite N.add_0_r. cbn [scan]. destruct (eq v) as [[|]|b| |] eqn:E; cbn [nothrow]; try reflexivity.
  - cbn [scan]. rewrite (Hp u) by now left. rewrite IH by (intros; apply Hp; now right).
    replace (i + N.of_nat (S (length pre))) with (i + 1 + N.of_nat (length pre)) by lia.
    destruct (eq v) as [[|]|b| |] eqn:E; cbn [nothrow]; try reflexivity.
    cbn [scan]. rewrite E. now destruct (scan eq _ post).
Qed.

(** With comparisons that return, it is the computation of Types.v. *)
Theorem scan_plain : forall (eq : Z -> out bool) x, (forall v, eq v = Ret (x =? v)%Z) ->
  forall vals i, scan eq i vals = Ret (sentinel_get_impl i vals x).
Proof.
  intros eq x H vals. induction vals as [|v vals IH]; intros i; cbn [scan sentinel_get_impl]; [reflexivity|].
  rewrite H. destruct (x =? v)%Z; [reflexivity|]. now rewrite IH.
Qed.

Theorem scan_aborts : forall (eq : A -> out bool) vals i,
  scan eq i vals = Abort <->
  exists pre v post, vals = pre ++ v :: post /\ (forall u, In u pre -> eq u = Ret false) /\ (loud (eq v) \/ eq v = Abort).
Proof.
  intros eq vals. induction vals as [|v vals IH]; intros i; cbn [scan].
  - split; [discriminate|]. intros (pre & v & post & H & _). now destruct pre.
  - split.
    + destruct (eq v) as [[|]|b| |] eqn:E; cbn [nothrow]; intros H; try discriminate.
      * assert (Hs : scan eq (i + 1) vals = Abort \/ loud (scan eq (i + 1) vals)).
        { destruct (scan eq (i + 1) vals) as [x|x| |]; try discriminate; [right; now eexists|now left]. }
        assert (Hs' : scan eq (i + 1) vals = Abort).
        { destruct Hs as [Hs|[y Hy]]; [exact Hs|]. destruct vals as [|u vals]; cbn [scan] in Hy; [discriminate|].
          destruct (eq u) as [[|]|b| |]; cbn in Hy; try discriminate. now destruct (scan eq (i + 1 + 1) vals). }
        apply IH in Hs' as (pre & u & post & -> & Hp & Hu). exists (v :: pre), u, post. repeat split; auto.
        intros z [<-|Hz]; [exact E|now apply Hp].
      * exists [], v, vals. repeat split; [intros u []|]. left. now exists b.
      * exists [], v, vals. repeat split; [intros u []|]. now right.
    + intros (pre & u & post & H & Hp & Hu). destruct pre as [|y pre]; injection H as -> ->.
      * destruct Hu as [[b Hb]| Hu]; [rewrite Hb|rewrite Hu]; reflexivity.
      * rewrite (Hp y) by now left. assert (Hs : scan eq (i + 1) (pre ++ u :: post) = Abort).
        { apply IH. exists pre, u, post. repeat split; auto. intros z Hz. apply Hp. now right. }
        now rewrite Hs.
Qed.

Theorem put_aborts : forall R (set : A -> out R) vals i l,
  put set i vals l = Abort <->
  match nth_error vals (N.to_nat (l - i)) with
  | Some v => if i <=? l then loud (set v) \/ set v = Abort else True
  | None => True
  end.
Proof.
  intros R set vals. induction vals as [|v vals IH]; intros i l; cbn [put].
  - destruct (N.to_nat (l - i)); cbn; now split.
  - destruct (N.eqb_spec l i) as [->|Hne].
    + rewrite N.sub_diag. cbn [N.to_nat nth_error]. rewrite N.leb_refl. destruct (set v) as [x|x| |]; cbn; split; intros H; try discriminate; auto.
      * destruct H as [[y H]|H]; discriminate.
      * left. now eexists.
      * destruct H as [[y H]|H]; discriminate.
    + assert (Hput : forall j, nothrow (put set j vals l) = put set j vals l).
      { intros j. destruct vals as [|u vals]; [reflexivity|]. cbn [put]. now destruct (if l =? j then set u else put set (j + 1) vals l). }
      rewrite Hput, IH. destruct (N.leb_spec i l) as [Hle|Hgt].
      * replace (N.to_nat (l - i)) with (S (N.to_nat (l - (i + 1)))) by lia. cbn [nth_error].
        destruct (nth_error vals (N.to_nat (l - (i + 1)))) as [u|]; [|reflexivity].
        destruct (N.leb_spec (i + 1) l); [reflexivity|lia].
      * replace (l - (i + 1)) with 0 by lia. replace (l - i) with 0 by lia. cbn [N.to_nat nth_error].
        destruct vals as [|u vals]; cbn [nth_error]; [tauto|]. destruct (N.leb_spec (i + 1) l); [lia|tauto].
Qed.

(** The level 0 is found only at the first sentinel. *)
Lemma scan_zero : forall (eq : A -> out bool) vals i, 0 < i -> scan eq i vals <> Ret 0.
Proof.
  intros eq vals. induction vals as [|v vals IH]; intros i Hi; cbn [scan]; [discriminate|].
  destruct (eq v) as [[|]|b| |]; cbn [nothrow]; try discriminate.
  - intros H. injection H. lia.
  - destruct (scan eq (i + 1) vals) as [x|b| |] eqn:E; try discriminate. intros H. injection H as ->. apply (IH (i + 1)); [lia|exact E].
Qed.
Theorem has_values : forall (eq : A -> out bool) v vals,
  (sentinel_has eq (v :: vals) = Ret false <-> eq v = Ret true) /\
  (sentinel_has eq (v :: vals) = Abort <->
    exists pre u post, v :: vals = pre ++ u :: post /\ (forall w, In w pre -> eq w = Ret false) /\ (loud (eq u) \/ eq u = Abort)) /\
  ((forall u, In u (v :: vals) -> exists b, eq u = Ret b) -> eq v = Ret false -> sentinel_has eq (v :: vals) = Ret true).
Proof.
  intros eq v vals. assert (H0 : sentinel_has eq (v :: vals) = Ret false <-> eq v = Ret true).
  { unfold sentinel_has. cbn [scan]. destruct (eq v) as [[|]|b| |]; cbn [nothrow]; try (split; discriminate).
    - split; reflexivity.
    - destruct (scan eq (0 + 1) vals) as [x|b| |] eqn:E; cbn [nothrow]; try (split; discriminate).
      destruct (N.eqb_spec x 0) as [->|N]; cbn [negb]; [|split; discriminate].
      destruct (scan_zero eq vals (0 + 1) ltac:(lia) E). }
  split; [exact H0|].
  assert (H1 : sentinel_has eq (v :: vals) = Abort <-> scan eq 0 (v :: vals) = Abort).
  { assert (L : forall x, scan eq 0 (v :: vals) <> Exn x).
    { intros x. cbn [scan]. destruct (eq v) as [[|]|b| |]; cbn [nothrow]; try discriminate. now destruct (scan eq (0 + 1) vals). }
    unfold sentinel_has. destruct (scan eq 0 (v :: vals)) as [x|b| |]; try (split; discriminate); [now destruct (L b)|tauto]. }
  split; [rewrite H1; apply scan_aborts|].
  intros Hb Hv.
  assert (R : forall vs i, (forall u, In u vs -> exists b, eq u = Ret b) -> exists l, scan eq i vs = Ret l).
  { induction vs as [|u vs IH]; intros i Hu; cbn [scan]; [now eexists|].
    destruct (Hu u) as [b ->]; [now left|]. destruct b; cbn [nothrow]; [now eexists|].
    destruct (IH (i + 1)) as [l ->]; [intros; apply Hu; now right|]. cbn [nothrow]. now eexists. }
  destruct (R (v :: vals) 0 Hb) as [l Hl]. unfold sentinel_has in *. rewrite Hl in *.
  destruct (l =? 0); cbn [negb] in *; [|reflexivity]. destruct H0 as [H0 _]. rewrite (H0 eq_refl) in Hv. discriminate.
Qed.
End Sentinels.
