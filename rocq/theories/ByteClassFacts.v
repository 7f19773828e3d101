(** Types of the universe are lawful classes, and the two models of option agree. *)
From Coq Require Import ZArith NArith List Bool Lia ZifyBool ZifyNat ZifyN.
From Verif Require Import Outcome Words WordsFacts Ints IntsFacts Types OptBytes TypesSpec EnumFacts TypesFacts OptBytesFacts.
From Verif Require Import Lifetime LifetimeSpec LifetimeFacts ByteClass.
Import ListNotations.
Open Scope N_scope.

Lemma sizedb_spec n b : sizedb n b = true <-> sized n b.
Proof.
  unfold sizedb, sized, is_bytes. rewrite andb_true_iff, Nat.eqb_eq, forallb_forall, Forall_forall.
  split; intros [H1 H2]; (split; [exact H1|]); intros x Hx; specialize (H2 x Hx); lia.
Qed.

Lemma content_sized n (s : storage n) : sized n (content s).
Proof. apply sizedb_spec. exact (proj2_sig s). Qed.

Lemma content_store n (s : storage n) b : sized n b -> content (store s b) = b.
Proof.
  intros H. unfold store. destruct (bool_dec (sizedb n b) true) as [e|e]; [reflexivity|].
  apply sizedb_spec in H. contradiction.
Qed.

Lemma umax_pos : 0 < umax_base.
Proof. reflexivity. Qed.

Section Lawful.
Context (W : Type) (k : triviality) (t : ty).
Notation C := (byte_cls W k t).
Notation S := (byte_sem W k t).

Lemma byte_level_ok s l : get_level t (content s) = Ok l -> l < umax_base -> byte_level t s = l.
Proof. intros H Hl. unfold byte_level. rewrite H. lia. Qed.

Lemma byte_level_small s : byte_level t s < levels t -> wf t -> get_level t (content s) = Ok (byte_level t s).
Proof.
  intros H Hw. pose proof (contract_all t Hw) as [Cm Cl _ _]. unfold byte_level in *.
  destruct (get_level t (content s)) as [l| |]; try lia. f_equal. lia.
Qed.

Lemma byte_set_ok s l : wf t -> l < levels t ->
  set_level t l (content s) = Ok (content (byte_set t l s)) /\ byte_level t (byte_set t l s) = l.
Proof.
  intros Hw Hl. pose proof (contract_all t Hw) as [Cm Cl Cs _].
  destruct (Cs l (content s) Hl (content_sized _ s)) as [b' [H1 [H2 H3]]].
  assert (content (byte_set t l s) = b') as E.
  { unfold byte_set. rewrite H1. now apply content_store. }
  rewrite E. split; [exact H1|]. apply byte_level_ok; [now rewrite E|lia].
Qed.

Lemma byte_valid_level s : wf t -> 0 < levels t -> valid t (content s) ->
  exists l, get_level t (content s) = Ok l /\ byte_level t s = l /\ levels t <= l.
Proof.
  intros Hw Hl Hv. pose proof (contract_all t Hw) as [Cm Cl _ Cv].
  destruct (Cv (content s) ltac:(lia) Hv) as [l [H1 [H2 H3]]].
  exists l. split; [exact H1|]. split; [now apply byte_level_ok|lia].
Qed.

Theorem byte_lawful : wf t -> sane k -> lawful C S.
Proof.
  intros Hw (K1 & K2 & K3). pose proof (contract_all t Hw) as [Cm Cl _ _].
  constructor; cbn; try (intros; exact I || reflexivity || tauto || (repeat split; (assumption || reflexivity))).
  - intros [s Hs] r w. left. cbn. repeat split. exact Hs.
  - intros [s Hs] r w _. left. cbn. repeat split. exact Hs.
  - intros s l Hl. now apply byte_set_ok.
  - intros s Hl Hv. destruct (byte_valid_level s Hw Hl Hv) as (l & _ & -> & H). exact H.
  - intros s. unfold byte_level. destruct (get_level t (content s)); unfold umax_base; lia.
  - lia.
  - discriminate.
  - discriminate.
Qed.

Theorem byte_steady : steady C S.
Proof. constructor; cbn; intros; discriminate. Qed.
End Lawful.

(** * The two models of option *)

(** What relates a class to a type of the universe. *)
Record shows {W} (C : cls W) (S : sem C) (t : ty) (R : repr C) : Prop := {
  sh_lmax : lmax C = levels t;
  sh_sized : forall r b, R r b -> sized (sizeof t) b;
  sh_valid : forall r b, R r b -> ok S r -> valid t b;
  sh_get : forall r b, 0 < levels t -> R r b -> (ok S r \/ lget C r < levels t) -> get_level t b = Ok (lget C r);
  sh_set : forall r b l, R r b -> l < levels t -> exists b', set_level t l b = Ok b' /\ R (lset C l r) b';
  sh_dtor : forall r b w r' w', R r b -> ok S r -> dtor C r w = Ret (r', w') -> w' = w /\ R r' b
}.

Lemma byte_shows W k t : wf t -> shows (byte_cls W k t) (byte_sem W k t) t (byte_repr k t).
Proof.
  intros Hw. constructor; cbn.
  - reflexivity.
  - unfold byte_repr. intros r b ->. apply content_sized.
  - unfold byte_repr. intros r b -> H. exact H.
  - unfold byte_repr. intros r b Hl -> [H|H].
    + destruct (byte_valid_level t r Hw Hl H) as (l & H1 & -> & _). exact H1.
    + now apply byte_level_small.
  - unfold byte_repr. intros r b l -> Hl. destruct (byte_set_ok t r l Hw Hl) as [H _]. eauto.
  - unfold byte_repr. intros r b w r' w' -> _ H. injection H as <- <-. auto.
Qed.

Lemma read_bool_word off b : read_bool off b =
  if read_word off 1 b =? 0 then Ok false else if read_word off 1 b =? 1 then Ok true else UB.
Proof. reflexivity. Qed.

Section Ops.
Context {W : Type} (C : cls W) (S : sem C) (t : ty) (R : repr C).
Context (L : lawful C S) (Hw : wf (TOption t)) (Sh : shows C S t R).
Notation Ro := (opt_repr t R).

Lemma traits_max : traits C = negb (max_level t =? 0).
Proof.
  unfold traits. rewrite (sh_lmax _ _ _ _ Sh). destruct Hw as [Hwt [H|H]].
  - pose proof (c_levels t (contract_all t Hwt)). replace (levels t) with 0 by lia. now rewrite H.
  - pose proof (c_levels t (contract_all t Hwt)). f_equal. lia.
Qed.

Lemma traits_levels : traits C = true -> 0 < levels t /\ max_level t <> 0.
Proof.
  rewrite traits_max. intros H. destruct Hw as [_ [E|E]]; split; lia.
Qed.

(** has_value() sees the same, also of a cell that is being made. *)
Lemma has_raw : forall c b, Ro c b -> (ok S (c_raw c) \/ lget C (c_raw c) < levels t) ->
  opt_has_value t b = o_has C c.
Proof.
  intros c b (H1 & H2 & H3) Hr. unfold opt_has_value, o_has. rewrite traits_max.
  destruct (N.eqb_spec (max_level t) 0) as [E|E]; cbn [negb].
  - rewrite read_bool_word, (H3 E). reflexivity.
  - assert (0 < levels t) as Hl by (destruct Hw as [_ [?|?]]; lia).
    rewrite option_size_traits in H1 by exact E.
    rewrite slice_all in H2 by (symmetry; apply H1).
    now rewrite (sh_get _ _ _ _ Sh _ _ Hl H2 Hr).
Qed.

Lemma inv_raw : forall c, traits C = true -> inv C S c -> ok S (c_raw c) \/ lget C (c_raw c) < levels t.
Proof.
  intros c Ht (I1 & I2 & _). destruct (traits_levels Ht) as [Hl _]. destruct (c_alive c); [left; auto|right].
  rewrite I2; [exact Hl| |reflexivity]. rewrite (sh_lmax _ _ _ _ Sh). exact Hl.
Qed.

Theorem has_agrees : forall c b, inv C S c -> Ro c b -> opt_has_value t b = o_has C c.
Proof.
  intros c b Hi Hr. destruct (traits C) eqn:Ht.
  - apply has_raw; [exact Hr|]. now apply inv_raw.
  - destruct Hr as (H1 & H2 & H3). unfold opt_has_value, o_has. rewrite Ht.
    rewrite traits_max in Ht. assert (max_level t = 0) as E by lia. rewrite E. cbn [N.eqb].
    rewrite read_bool_word, (H3 E). reflexivity.
Qed.

Lemma repr_flag : forall (c : cell C) b (v a : bool), Ro c b -> max_level t = 0 ->
  Ro (mkcell (c_raw c) (if v then 1 else 0) a) (write_bool (sizeof t) v b).
Proof.
  intros c b v a (H1 & H2 & H3) E. destruct Hw as [Hwt _]. pose proof (sizeof_flagged t Hwt E) as Hs.
  split; [|split]; cbn [c_raw c_flag].
  - now apply sized_write_bool.
  - unfold write_bool, write_word. rewrite slice_splice_disjoint; [exact H2| |]; rewrite le_encode_length; destruct H1; lia.
  - intros _. unfold write_bool. rewrite read_write_word by (destruct H1; lia). destruct v; reflexivity.
Qed.

Lemma repr_traits : forall (c : cell C) b, max_level t <> 0 -> (Ro c b <-> sized (sizeof t) b /\ R (c_raw c) b).
Proof.
  intros c b E. unfold opt_repr. rewrite option_size_traits by exact E. split.
  - intros (H1 & H2 & _). rewrite slice_all in H2 by (symmetry; apply H1). auto.
  - intros (H1 & H2). rewrite slice_all by (symmetry; apply H1). split; [exact H1|]. split; [exact H2|lia].
Qed.

(** Recording emptiness. *)
Lemma clear_agrees : forall (c : cell C) b (a : bool), Ro c b -> 
  exists b', opt_default t b = Ok b' /\
    Ro (mkcell (if traits C then lset C 0 (c_raw c) else c_raw c) (if traits C then c_flag c else 0) a) b'.
Proof.
  intros c b a Hr. unfold opt_default. rewrite traits_max. destruct (N.eqb_spec (max_level t) 0) as [E|E]; cbn [negb].
  - eexists. split; [reflexivity|]. exact (repr_flag c b false a Hr E).
  - assert (0 < levels t) as Hl by (destruct Hw as [_ [?|?]]; lia).
    apply repr_traits in Hr as [H1 H2]; [|exact E].
    destruct (sh_set _ _ _ _ Sh (c_raw c) b 0 H2 Hl) as [b' [Hs Hb]]. rewrite Hs. cbn [rbind].
    assert (Ro (mkcell (lset C 0 (c_raw c)) (c_flag c) a) b') as Hr'.
    { apply repr_traits; [exact E|]. split; [eapply sh_sized; eassumption|exact Hb]. }
    assert (lget C (lset C 0 (c_raw c)) = 0) as Hz.
    { apply (l_level _ _ L). rewrite (sh_lmax _ _ _ _ Sh). exact Hl. }
    rewrite (has_raw _ _ Hr').
    + unfold o_has. rewrite traits_max. apply N.eqb_neq in E as ->. cbn [negb c_raw]. rewrite Hz. cbn [N.eqb negb rbind verify].
      eauto.
    + right. cbn [c_raw]. rewrite Hz. exact Hl.
Qed.

Theorem default_agrees : forall c b, Ro c b ->
  exists c' b', o_default C c = Ret c' /\ opt_default t b = Ok b' /\ Ro c' b'.
Proof.
  intros c b Hr. destruct (clear_agrees c b false Hr) as [b' [H1 H2]].
  destruct (default_ok C S L c) as (c' & Hd & _ & _). exists c', b'. split; [exact Hd|]. split; [exact H1|].
  unfold o_default in Hd. destruct (traits C) eqn:Ht.
  - revert Hd. destruct (o_has C _) as [h| |]; cbn [check]; try discriminate. destruct h; [discriminate|].
    intros E. injection E as <-. exact H2.
  - injection Hd as <-. exact H2.
Qed.

Theorem reset_agrees : forall c b w, inv C S c -> Ro c b ->
  match o_reset C c w with
  | Ret (c', w') => w' = w /\ exists b', opt_reset (td C) t b = Ok b' /\ Ro c' b'
  | _ => stops S
  end.
Proof.
  intros c b w Hi Hr.
  assert (forall c b, Ro c b -> exists c' b', o_empty C c w = Ret (c', w) /\ opt_default t b = Ok b' /\ Ro c' b') as He.
  { clear c b Hi Hr. intros c b Hr. destruct (default_agrees c b Hr) as (c' & b' & H1 & H2 & H3). exists c', b'.
    split; [|auto]. unfold o_default in H1. unfold o_empty. destruct (traits C); [|now injection H1 as ->].
    destruct (o_has C _) as [h| |]; cbn [check] in *; try discriminate. destruct h; [discriminate|]. now injection H1 as ->. }
  pose proof (reset_ok C S L c w Hi) as Hpost. unfold o_reset in *. unfold opt_reset. fold (opt_default t b). destruct (td C).
  - destruct (He c b Hr) as (c' & b' & -> & -> & H3). eauto.
  - rewrite (has_agrees c b Hi Hr). rewrite (has_ok C S L c Hi) in *. cbn [check rbind] in *.
    destruct (c_alive c) eqn:Ea; [|eauto].
    unfold destroy_value in *. rewrite Ea in *.
    destruct (dtor C (c_raw c) w) as [[r1 w1]|[r1 w1]| |] eqn:Ed; cbn [nothrow post] in *; try tauto.
    assert (w1 = w /\ R r1 (slice 0 (sizeof t) b)) as [-> Hr1].
    { destruct Hr as (_ & H2 & _). eapply sh_dtor; try eassumption. now apply Hi. }
    destruct (He (mkcell r1 (c_flag c) false) b) as (c' & b' & -> & -> & H3).
    { destruct Hr as (H1 & _ & H4). split; [exact H1|]. split; [exact Hr1|exact H4]. }
    eauto.
Qed.

Lemma put_agrees : forall (c : cell C) b r v f a, Ro c b -> R r v -> (max_level t = 0 -> f = c_flag c) ->
  Ro (mkcell r f a) (splice 0 v b).
Proof.
  intros c b r v f a (H1 & H2 & H3) Hv Hf. destruct Hw as [Hwt _].
  pose proof (sh_sized _ _ _ _ Sh _ _ Hv) as Hvs. pose proof (option_size_ge t Hwt) as Hge. split; [|split]; cbn [c_raw c_flag].
  - now apply (sized_splice 0 (sizeof t)).
  - rewrite slice_splice_same; [exact Hv|symmetry; apply Hvs|destruct H1; lia].
  - intros E. pose proof (sizeof_flagged t Hwt E). unfold read_word. rewrite slice_splice_disjoint by (destruct H1, Hvs; lia).
    rewrite (Hf E). now apply H3.
Qed.


(** has_value() after an object r, represented by v, was put into the storage. *)
Lemma put_has : forall (c : cell C) b r v f a, Ro c b -> R r v -> (max_level t = 0 -> f = c_flag c) ->
  ok S r \/ none_pattern C r -> opt_has_value t (splice 0 v b) = o_has C (mkcell r f a).
Proof.
  intros c b r v f a Hr Hv Hf Hk. pose proof (put_agrees c b r v f a Hr Hv Hf) as Hp.
  apply has_raw; [exact Hp|]. cbn [c_raw]. destruct Hk as [Hk|[H1 H2]]; [now left|right].
  rewrite H2. now rewrite <- (sh_lmax _ _ _ _ Sh).
Qed.

(** Construction of an object r, represented by v; it may be the pattern of the empty option. *)
Theorem construct_agrees : forall X (mk : raw C -> X -> out (raw C * X)) (c : cell C) b r v x x',
  Ro c b -> td C = true \/ c_alive c = false ->
  mk (c_raw c) x = Ret (r, x') -> R r v -> ok S r \/ none_pattern C r ->
  match o_construct C mk c x with
  | Ret (c', x1) => x1 = x' /\ exists b', opt_construct t v b = Ok b' /\ Ro c' b'
  | Abort => opt_construct t v b = Verify
  | _ => False
  end.
Proof.
  intros X mk c b r v x x' Hr Ht Hm Hv Hk. unfold o_construct.
  replace (c_alive c && negb (td C)) with false by (destruct Ht as [-> | ->]; destruct (c_alive c); reflexivity).
  rewrite Hm. unfold opt_construct. destruct (traits C) eqn:Et.
  - pose proof (traits_levels Et) as [_ E]. apply N.eqb_neq in E as E'. rewrite E'.
    rewrite (put_has c b r v (c_flag c) true Hr Hv (fun _ => eq_refl) Hk).
    unfold o_has at 1. rewrite Et. cbn [check c_raw]. unfold o_has. rewrite Et. cbn [rbind c_raw].
    destruct (negb (lget C r =? 0)); cbn [verify]; [|reflexivity]. split; [reflexivity|]. eexists. split; [reflexivity|].
    apply (put_agrees c); auto.
  - assert (max_level t = 0) as E by (rewrite traits_max in Et; lia). rewrite E. cbn [N.eqb].
    split; [reflexivity|]. eexists. split; [reflexivity|].
    exact (repr_flag (mkcell r (c_flag c) true) _ true true (put_agrees c b r v _ true Hr Hv (fun _ => eq_refl)) E).
Qed.

(** Assignment to a present value with the check of 2923, 2944, 2967. *)
Theorem assign_value_agrees : forall X (f : raw C -> X -> out (raw C * X)) (c : cell C) b r v x x',
  inv C S c -> c_alive c = true -> Ro c b -> f (c_raw c) x = Ret (r, x') -> R r v -> ok S r \/ none_pattern C r ->
  match o_assign_value C f c x with
  | Ret (c', x1) => x1 = x' /\ exists b', opt_assign_value false t v b = Ok b' /\ Ro c' b'
  | Abort => opt_assign_value false t v b = Verify
  | _ => False
  end.
Proof.
  intros X f c b r v x x' Hi Ha Hr Hm Hv Hk. unfold o_assign_value. rewrite Ha, Hm.
  unfold opt_assign_value. rewrite (has_agrees c b Hi Hr), (has_ok C S L c Hi), Ha. cbn [rbind].
  rewrite (put_has c b r v (c_flag c) true Hr Hv (fun _ => eq_refl) Hk).
  destruct (o_has C (mkcell r (c_flag c) true)) as [h| |] eqn:Eh; cbn [check rbind].
  - destruct h; cbn [verify]; [|reflexivity]. split; [reflexivity|]. eexists. split; [reflexivity|]. now apply (put_agrees c).
  - unfold o_has in Eh. destruct (traits C); [discriminate|]. destruct (_ =? _); [discriminate|]. destruct (_ =? _); discriminate.
  - unfold o_has in Eh. destruct (traits C) eqn:Et; [discriminate|]. destruct Hi as (_ & _ & Hf).
    assert (lmax C = 0) as E0 by (unfold traits in Et; lia). specialize (Hf E0). rewrite Ha in Hf. cbn [c_flag] in Eh.
    rewrite Hf in Eh. discriminate.
Qed.

(** operator=(U&&), 2916. *)
Theorem assign_agrees : forall i (c : cell C) b r v (w w' : W), inv C S c -> Ro c b -> R r v -> ok S r ->
  (if negb (scalar C) && c_alive c then asgn C i else ctor C i) (c_raw c) w = Ret (r, w') ->
  match o_asgn C (IVal i) c w with
  | Ret (c', w1) => w1 = w' /\ exists b', opt_assign_value (scalar C) t v b = Ok b' /\ Ro c' b'
  | _ => False
  end.
Proof.
  intros i c b r v w w' Hi Hr Hv Hk Hm. cbn [o_asgn].
  assert (forall m : out (cell C * W), match m with Ret (c', w1) => w1 = w' /\ exists b', opt_construct t v b = Ok b' /\ Ro c' b'
    | Abort => opt_construct t v b = Verify | _ => False end ->
    match m with Ret (c', w1) => w1 = w' /\ exists b', opt_construct t v b = Ok b' /\ Ro c' b' | _ => False end) as Hno.
  { intros [[c' w1]|p| |] H; try assumption.
    destruct (opt_construct_ok t v b Hw (sh_valid _ _ _ _ Sh _ _ Hv Hk) (proj1 Hr)) as [b' [E _]]. congruence. }
  destruct (scalar C) eqn:Es; cbn [opt_assign_value negb andb] in *.
  - apply Hno. eapply construct_agrees; eauto. left. now apply (l_scalar_td _ _ L).
  - rewrite (has_ok C S L c Hi). cbn [check]. destruct (c_alive c) eqn:Ea.
    + pose proof (assign_value_agrees W (asgn C i) c b r v w w' Hi Ea Hr Hm Hv (or_introl Hk)) as H.
      destruct (o_assign_value C (asgn C i) c w) as [[c' w1]|p| |]; try assumption.
      pose proof (sh_valid _ _ _ _ Sh _ _ Hv Hk) as Hvv.
      unfold opt_assign_value in H. rewrite (has_agrees c b Hi Hr), (has_ok C S L c Hi), Ea in H. cbn [rbind] in H.
      destruct (opt_put_ok t v b Hw Hvv (proj1 Hr)) as (_ & P & _).
      { now rewrite (has_agrees c b Hi Hr), (has_ok C S L c Hi), Ea. }
      rewrite P in H. discriminate.
    + unfold opt_assign_value. rewrite (has_agrees c b Hi Hr), (has_ok C S L c Hi), Ea. cbn [rbind].
      apply Hno. eapply construct_agrees; eauto.
Qed.

Theorem get_agrees : forall c b, inv C S c -> Ro c b ->
  opt_get t b = if c_alive c then Ok (slice 0 (sizeof t) b) else Verify.
Proof.
  intros c b Hi Hr. unfold opt_get. rewrite (has_agrees c b Hi Hr), (has_ok C S L c Hi). cbn [rbind]. now destruct (c_alive c).
Qed.

(** A present object is a value of T; the bytes of a proper option are a value of option<T>. *)
Theorem repr_valid : forall c b, inv C S c -> Ro c b -> valid (TOption t) b.
Proof.
  intros c b Hi Hr. cbn [valid]. split; [apply Hr|]. rewrite (has_agrees c b Hi Hr), (has_ok C S L c Hi).
  destruct (c_alive c) eqn:Ea; [right|now left]. split; [reflexivity|].
  eapply sh_valid; [exact Sh|apply Hr|now apply Hi].
Qed.

(** emplace 3002 and try_emplace 3010. *)
Theorem emplace_agrees : forall i (c c1 : cell C) b r v (w w' : W), inv C S c -> Ro c b -> R r v -> ok S r ->
  o_reset C c w = Ret (c1, w) -> ctor C i (c_raw c1) w = Ret (r, w') ->
  exists c' b', o_emplace C (o_reset C) (ctor C i) c w = Ret (c', w') /\ opt_emplace (td C) t v b = Ok b' /\ Ro c' b'.
Proof.
  intros i c c1 b r v w w' Hi Hr Hv Hk Hc1 Hc. unfold o_emplace, opt_emplace.
  pose proof (reset_agrees c b w Hi Hr) as H. pose proof (reset_ok C S L c w Hi) as Hp.
  rewrite Hc1 in *. destruct H as [_ [b1 [-> Hr1]]]. cbn [rbind].
  destruct Hp as (_ & Hd & _).
  pose proof (construct_agrees W (ctor C i) c1 b1 r v w w' Hr1 (or_intror Hd) Hc Hv (or_introl Hk)) as H.
  destruct (o_construct C (ctor C i) c1 w) as [[c' w1]|p| |]; try tauto.
  - destruct H as [-> [b' [E Hb]]]. eauto.
  - destruct (opt_construct_ok t v b1 Hw (sh_valid _ _ _ _ Sh _ _ Hv Hk) (proj1 Hr1)) as [b' [E _]]. congruence.
Qed.

Theorem try_emplace_agrees : forall i (c : cell C) b r v (w w' : W), inv C S c -> Ro c b -> R r v -> ok S r ->
  ctor C i (c_raw c) w = Ret (r, w') ->
  exists c' b', o_try_emplace C i c w = Ret (c', if c_alive c then w else w') /\ opt_try_emplace t v b = Ok b' /\ Ro c' b'.
Proof.
  intros i c b r v w w' Hi Hr Hv Hk Hc. unfold o_try_emplace, opt_try_emplace.
  rewrite (has_agrees c b Hi Hr), (has_ok C S L c Hi). cbn [check rbind]. destruct (c_alive c) eqn:Ea; [eauto|].
  pose proof (construct_agrees W (ctor C i) c b r v w w' Hr (or_intror Ea) Hc Hv (or_introl Hk)) as H.
  destruct (o_construct C (ctor C i) c w) as [[c' w1]|p| |]; try tauto.
  - destruct H as [-> [b' [E Hb]]]. eauto.
  - destruct (opt_construct_ok t v b Hw (sh_valid _ _ _ _ Sh _ _ Hv Hk) (proj1 Hr)) as [b' [E _]]. congruence.
Qed.

Theorem option_shows : shows (opt_cls C) (opt_sem C S) (TOption t) Ro.
Proof.
  destruct Hw as [Hwt Hl]. constructor.
  - cbn [opt_cls lmax levels]. rewrite traits_max. destruct (N.eqb_spec (max_level t) 0) as [E|E]; cbn [negb]; [reflexivity|].
    now rewrite (sh_lmax _ _ _ _ Sh).
  - intros c b Hr. apply Hr.
  - intros c b Hr Hi. now apply (repr_valid c).
  - intros c b Hp Hr Hk. cbn [opt_cls lget levels get_level] in *. rewrite traits_max in *.
    destruct (N.eqb_spec (max_level t) 0) as [E|E]; cbn [negb] in *.
    + destruct Hr as (_ & _ & H3). unfold bool_get, word_get. rewrite (H3 E). reflexivity.
    + assert (0 < levels t) as Hlp by lia. pose proof (proj1 (repr_traits c b E) Hr) as [H1 H2].
      assert (ok S (c_raw c) \/ lget C (c_raw c) < levels t) as Hk'.
      { destruct Hk as [Hi|Hlt].
        - apply inv_raw; [rewrite traits_max; lia|exact Hi].
        - right. cbn [raw opt_cls] in c. pose proof (l_bound _ _ L (c_raw c)) as Hb. pose proof (c_max t (contract_all t Hwt)).
          pose proof (c_levels t (contract_all t Hwt)).
          destruct (N.eq_dec (lget C (c_raw c)) 0) as [Z|Z]; [lia|].
          rewrite wsub_ge in Hlt by lia. lia. }
      unfold avail_get. now rewrite (sh_get _ _ _ _ Sh _ _ Hlp H2 Hk').
  - intros c b l Hr Hll. cbn [opt_cls lset levels set_level] in *. rewrite traits_max in *.
    destruct (N.eqb_spec (max_level t) 0) as [E|E]; cbn [negb] in *.
    + unfold bool_set, word_set. assert (l <? 254 = true) as -> by lia. cbn [verify]. eexists. split; [reflexivity|].
      destruct Hr as (H1 & H2 & H3). pose proof (sizeof_flagged t Hwt E) as Hs. split; [|split]; cbn [c_raw c_flag].
      * now apply sized_write.
      * unfold write_word. rewrite slice_splice_disjoint; [exact H2| |]; rewrite le_encode_length; destruct H1; lia.
      * intros _. rewrite read_write_word by (destruct H1; lia). rewrite N.add_comm. reflexivity.
    + pose proof (proj1 (repr_traits c b E) Hr) as [H1 H2]. pose proof (c_max t (contract_all t Hwt)).
      pose proof (c_levels t (contract_all t Hwt)).
      unfold avail_set, to_umax. rewrite N.mod_small by lia.
      destruct (sh_set _ _ _ _ Sh (c_raw c) b (l + 1) H2 ltac:(lia)) as [b' [Hs Hb]]. exists b'. split; [exact Hs|].
      apply repr_traits; [exact E|]. split; [eapply sh_sized; eassumption|exact Hb].
  - intros c b w c' w' Hr Hi Hd. cbn [opt_cls dtor] in Hd. unfold o_dtor in Hd. destruct (td C).
    + injection Hd as <- <-. split; [reflexivity|]. destruct Hr as (H1 & H2 & H3). exact (conj H1 (conj H2 H3)).
    + cbn [opt_sem ok] in Hi. rewrite (has_ok C S L c Hi) in Hd. cbn [check] in Hd. destruct (c_alive c) eqn:Ea.
      * unfold destroy_value in Hd. rewrite Ea in Hd.
        destruct (dtor C (c_raw c) w) as [[r1 w1]|p| |] eqn:Ed; try discriminate. cbn [nothrow] in Hd. injection Hd as <- <-.
        destruct Hr as (H1 & H2 & H3). destruct (sh_dtor _ _ _ _ Sh _ _ _ _ _ H2 (proj1 Hi Ea) Ed) as [-> H4].
        split; [reflexivity|]. exact (conj H1 (conj H4 H3)).
      * injection Hd as <- <-. auto.
Qed.
End Ops.

Theorem nest_shows : forall W (C : cls W) S t R n, lawful C S -> steady C S -> shows C S t R -> wf (nest n t) ->
  shows (nest_cls n C) (nest_sem n C S) (nest n t) (nest_repr n C t R).
Proof.
  intros W C S t R n L N Sh. induction n as [|n IH]; intros Hw; [exact Sh|].
  cbn [nest_cls nest_sem nest nest_repr]. apply option_shows; [|exact Hw|apply IH, wf_nest_le, Hw].
  now apply nest_lawful.
Qed.
