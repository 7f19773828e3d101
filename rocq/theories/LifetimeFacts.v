(** option<T> of a lawful class is a lawful class. *)
From Coq Require Import NArith ZArith Bool List Lia ZifyBool ZifyN.
From Verif Require Import Outcome Words Lifetime LifetimeSpec.
Import ListNotations.
Open Scope N_scope.
Ltac Zify.zify_post_hook ::= Z.div_mod_to_equations.

Lemma post_mono : forall A B (m : out A) (R R' E E' : A -> Prop),
  post B m R E -> (forall a, R a -> R' a) -> (forall a, E a -> E' a) -> post B m R' E'.
Proof. intros A B [a|a| |] R R' E E' H HR HE; cbn in *; auto. Qed.

Section Facts.
Context {W : Type} (C : cls W) (S : sem C).
Hypothesis L : lawful C S.
Notation inv := (inv C S).
Notation oval := (oval C S).
Notation oown := (oown C S).
Notation cnt := (cnt S).

Lemma traits_spec : traits C = true /\ 0 < lmax C \/ traits C = false /\ lmax C = 0.
Proof. unfold traits. destruct (N.eqb_spec (lmax C) 0); [right|left]; cbn; split; auto; lia. Qed.

Lemma has_ok : forall c, inv c -> o_has C c = Ok (c_alive c).
Proof.
  intros c (H1 & H2 & H3). unfold o_has. destruct traits_spec as [[-> Hm]|[-> Hm]].
  - destruct (c_alive c) eqn:E.
    + pose proof (l_ok_level _ _ L _ Hm (H1 eq_refl)). destruct (N.eqb_spec (lget C (c_raw c)) 0); [lia|reflexivity].
    + rewrite (H2 Hm eq_refl). reflexivity.
  - rewrite (H3 Hm). destruct (c_alive c); reflexivity.
Qed.

(** A cell with a live proper object and, for flag storage, the flag set. *)
Lemma inv_alive : forall r f, ok S r -> (lmax C = 0 -> f = 1) -> inv (mkcell r f true).
Proof. intros r f H Hf. split; [|split]; cbn; auto. discriminate. Qed.

Lemma inv_set : forall c r, inv c -> c_alive c = true -> ok S r -> inv (mkcell r (c_flag c) true).
Proof.
  intros c r (H1 & H2 & H3) E Hr. apply inv_alive; [exact Hr|]. intros Hm. rewrite (H3 Hm), E. reflexivity.
Qed.

Lemma oval_set : forall r f, oval (mkcell r f true) = Some (val S r).
Proof. reflexivity. Qed.

Lemma default_ok : forall c, exists c', o_default C c = Ret c' /\ inv c' /\ c_alive c' = false.
Proof.
  intros c. unfold o_default. destruct traits_spec as [[-> Hm]|[-> Hm]].
  - pose proof (l_level _ _ L 0 (c_raw c) Hm) as HL.
    eexists. split; [|split].
    + rewrite has_ok; [reflexivity|]. split; [|split]; cbn; try discriminate; auto. lia.
    + split; [|split]; cbn; try discriminate; auto. lia.
    + reflexivity.
  - eexists. split; [reflexivity|]. split; [|reflexivity]. split; [|split]; cbn; try discriminate; auto. lia.
Qed.

Lemma empty_ok : forall (c : cell C) (w : W),
  exists c', o_empty C c w = Ret (c', w) /\ inv c' /\ c_alive c' = false.
Proof.
  intros c w. destruct (default_ok c) as (c' & H & Hi & Ha). unfold o_default in H.
  exists c'. unfold o_empty. split; [|now split]. destruct (traits C).
  - cbn zeta in *. destruct (o_has C _) as [[|]| |]; cbn in *; try discriminate. now injection H as <-.
  - now injection H as <-.
Qed.

Lemma dead_own : forall c, c_alive c = false -> oown c = 0%Z.
Proof. intros c H. unfold LifetimeSpec.oown. now rewrite H. Qed.

Lemma td_own : forall c, inv c -> td C = true -> oown c = 0%Z.
Proof.
  intros c Hi H. unfold LifetimeSpec.oown. destruct (c_alive c) eqn:E; [|reflexivity].
  apply (l_td_own _ _ L); [exact H|]. now apply Hi.
Qed.

Lemma destroy_ok : forall c w, inv c -> c_alive c = true ->
  post (stops S) (destroy_value C (dtor C) c w)
    (fun p => c_alive (fst p) = false /\ (cnt (snd p) + oown c = cnt w)%Z) (fun _ => False).
Proof.
  intros c w Hi Ha. unfold destroy_value. rewrite Ha.
  pose proof (l_dtor _ _ L (c_raw c) w (proj1 Hi Ha)) as H.
  destruct (dtor C (c_raw c) w) as [[r w']|[r w']| |]; cbn in *; auto 12; try contradiction.
  unfold LifetimeSpec.oown. rewrite Ha. split; [reflexivity|lia].
Qed.

Lemma reset_ok : forall c w, inv c ->
  post (stops S) (o_reset C c w)
    (fun p => inv (fst p) /\ c_alive (fst p) = false /\ (cnt (snd p) + oown c = cnt w)%Z) (fun _ => False).
Proof.
  intros c w Hi. unfold o_reset. destruct (td C) eqn:Etd.
  - destruct (empty_ok c w) as (c' & -> & Hc & Ha). cbn. rewrite (td_own _ Hi Etd). repeat split; auto; try apply Hc. lia.
  - rewrite (has_ok c Hi). cbn [check]. destruct (c_alive c) eqn:Ha.
    + pose proof (destroy_ok c w Hi Ha) as H. destruct (destroy_value C (dtor C) c w) as [[c1 w1]|p| |]; cbn in *; auto 12; try contradiction.
      destruct (empty_ok c1 w1) as (c' & -> & Hc & Ha'). cbn. repeat split; auto; try apply Hc. apply H.
    + cbn. rewrite (dead_own _ Ha). repeat split; auto; try apply Hi. lia.
Qed.

Lemma dtor_ok : forall c w, inv c ->
  post (stops S) (o_dtor C c w) (fun p => c_alive (fst p) = false /\ (cnt (snd p) + oown c = cnt w)%Z) (fun _ => False).
Proof.
  intros c w Hi. unfold o_dtor. destruct (td C) eqn:Etd.
  - cbn. rewrite (td_own _ Hi Etd). split; [reflexivity|lia].
  - rewrite (has_ok c Hi). cbn [check]. destruct (c_alive c) eqn:Ha.
    + now apply destroy_ok.
    + cbn. rewrite (dead_own _ Ha). split; [exact Ha|lia].
Qed.

Lemma construct_ok : forall W' (mk : raw C -> W' -> out (raw C * W')) c w (R : raw C -> W' -> Prop) (E : W' -> Prop),
  inv c -> (c_alive c = true -> td C = true) ->
  post (stops S) (mk (c_raw c) w)
    (fun p => ok S (fst p) /\ R (fst p) (snd p) \/ (stops S /\ none_pattern C (fst p)))
    (fun p => E (snd p) /\ (c_alive c = false -> 0 < lmax C -> lget C (fst p) = 0) /\ (c_alive c = true -> fst p = c_raw c)) ->
  post (stops S) (o_construct C mk c w)
    (fun p => inv (fst p) /\ c_alive (fst p) = true /\ R (c_raw (fst p)) (snd p))
    (fun p => inv (fst p) /\ c_alive (fst p) = c_alive c /\ oval (fst p) = oval c /\ E (snd p)).
Proof.
  intros W' mk c w R E Hi Htd H. unfold o_construct.
  assert (Hg : (c_alive c && negb (td C))%bool = false).
  { destruct (c_alive c) eqn:E1; [rewrite (Htd eq_refl)|]; reflexivity. }
  rewrite Hg. destruct (mk (c_raw c) w) as [[r w']|[r w']| |]; cbn [post fst snd] in *; auto 12.
  - destruct traits_spec as [[-> Hm]|[-> Hm]].
    + destruct H as [[Hr HR]|[Hst [_ Hn]]].
      * cbn zeta. rewrite has_ok; cbn.
        -- split; [|now split]. apply inv_alive; [exact Hr|lia].
        -- apply inv_alive; [exact Hr|lia].
      * unfold o_has. cbn. destruct traits_spec as [[-> _]|[_ Hx]]; [|lia]. rewrite Hn. cbn. exact Hst.
    + destruct H as [[Hr HR]|[_ [Hx _]]]; [|lia]. cbn. split; [|now split]. apply inv_alive; auto 12.
  - destruct H as (HE & Hq & Hsame). destruct (c_alive c) eqn:Ea.
    + rewrite (Hsame eq_refl) in *. split; [|split; [reflexivity|split; [|exact HE]]].
      * destruct c as [rr ff aa]; cbn in *; subst. exact Hi.
      * unfold LifetimeSpec.oval. now rewrite Ea.
    + split; [|split; [reflexivity|split; [|exact HE]]].
      * split; [|split]; cbn; try discriminate; auto. intros Hm. destruct Hi as (_ & _ & Hf). rewrite (Hf Hm), Ea. reflexivity.
      * unfold LifetimeSpec.oval. now rewrite Ea.
Qed.

Lemma construct_dead : forall W' (mk : raw C -> W' -> out (raw C * W')) c w (R : raw C -> W' -> Prop) (E : W' -> Prop),
  inv c -> c_alive c = false ->
  post (stops S) (mk (c_raw c) w)
    (fun p => ok S (fst p) /\ R (fst p) (snd p) \/ (stops S /\ none_pattern C (fst p)))
    (fun p => E (snd p) /\ (0 < lmax C -> lget C (fst p) = 0)) ->
  post (stops S) (o_construct C mk c w)
    (fun p => inv (fst p) /\ c_alive (fst p) = true /\ R (c_raw (fst p)) (snd p))
    (fun p => inv (fst p) /\ c_alive (fst p) = false /\ oval (fst p) = None /\ E (snd p)).
Proof.
  intros W' mk c w R E Hi Ha H. eapply post_mono; [apply construct_ok with (R := R) (E := E); [exact Hi|congruence|]| |].
  - eapply post_mono; [exact H|auto|]. cbn. intros p [H1 H2]. split; [exact H1|]. split; [auto|congruence].
  - auto 12.
  - cbn. intros p (H1 & H2 & H3 & H4). rewrite Ha in H2. unfold LifetimeSpec.oval. rewrite H2. auto 12.
Qed.

Lemma with_base_ok : forall W' (dt : cell C -> W' -> out (cell C * W')) body c w (R : cell C * W' -> Prop) (E : W' -> Prop),
  (forall c1 w1, inv c1 -> c_alive c1 = false -> E w1 -> post (stops S) (dt c1 w1) (fun p => E (snd p)) (fun _ => stops S)) ->
  (forall c0, inv c0 -> c_alive c0 = false -> post (stops S) (body c0 w) R (fun p => inv (fst p) /\ c_alive (fst p) = false /\ E (snd p))) ->
  post (stops S) (with_base C dt body c w) R (fun p => E (snd p)).
Proof.
  intros W' dt body c w R E Hd Hb. unfold with_base.
  destruct (default_ok c) as (c0 & -> & Hi & Ha). specialize (Hb c0 Hi Ha).
  destruct (body c0 w) as [p|[c1 w1]| |]; cbn in *; auto 12; try contradiction.
  destruct Hb as (Hi1 & Ha1 & HE). specialize (Hd c1 w1 Hi1 Ha1 HE).
  destruct (dt c1 w1) as [p|p| |]; cbn in *; auto 12; try contradiction.
Qed.

(** Constructing T from arguments, by copy, by move, in an empty option. *)

Lemma construct_init_ok : forall i c w, quiet_init C i -> inv c -> (c_alive c = true -> scalar C = true) ->
  post (stops S) (o_construct C (ctor C i) c w)
    (fun p => inv (fst p) /\ c_alive (fst p) = true /\ denotes S i (val S (c_raw (fst p))) /\
              (cnt (snd p) + oown c = cnt w + own S (c_raw (fst p)))%Z)
    (fun p => inv (fst p) /\ c_alive (fst p) = c_alive c /\ oval (fst p) = oval c /\ cnt (snd p) = cnt w).
Proof.
  intros i c w Qi Hi Hs.
  assert (Ho : oown c = 0%Z).
  { destruct (c_alive c) eqn:Ea; [|now apply dead_own]. apply td_own; [exact Hi|]. apply (l_scalar_td _ _ L); auto. }
  apply construct_ok with (R := fun r w' => denotes S i (val S r) /\ (cnt w' + oown c = cnt w + own S r)%Z)
    (E := fun w' => cnt w' = cnt w); auto 12.
  - intros Ea. apply (l_scalar_td _ _ L); auto 12.
  - pose proof (l_ctor _ _ L i (c_raw c) w) as H.
    destruct (ctor C i (c_raw c) w) as [[r w']|[r w']| |] eqn:Ec; cbn in *; auto 12; try contradiction.
    + destruct H as [(H1 & H2 & H3)|H]; [left|now right]. split; [exact H1|]. split; [exact H2|lia].
    + split; [exact H|]. split.
      * intros Ea Hm. destruct Hi as (_ & H0 & _).
        rewrite (Qi (c_raw c) w r w' Hm); [now apply H0| |exact Ec]. rewrite (H0 Hm Ea). exact Hm.
      * intros Ea. eapply (l_scalar_throw _ _ L); eauto.
Qed.

Lemma construct_copy_ok : forall s c w, quiet_copy C S -> ok S s -> inv c -> c_alive c = false ->
  post (stops S) (o_construct C (cctor C s) c w)
    (fun p => inv (fst p) /\ c_alive (fst p) = true /\ val S (c_raw (fst p)) = val S s /\
              cnt (snd p) = (cnt w + own S (c_raw (fst p)))%Z)
    (fun p => inv (fst p) /\ c_alive (fst p) = false /\ oval (fst p) = None /\ cnt (snd p) = cnt w).
Proof.
  intros s c w Qc Hs Hi Ha.
  apply construct_dead with (R := fun r w' => val S r = val S s /\ cnt w' = (cnt w + own S r)%Z)
    (E := fun w' => cnt w' = cnt w); auto 12.
  pose proof (l_cctor _ _ L s (c_raw c) w Hs) as H.
  destruct (cctor C s (c_raw c) w) as [[r w']|[r w']| |] eqn:Ec; cbn in *; auto 12; try contradiction.
  split; [exact H|]. intros Hm. destruct Hi as (_ & H0 & _).
  rewrite (Qc s (c_raw c) w r w' Hs Hm); [now apply H0| |exact Ec]. rewrite (H0 Hm Ha). exact Hm.
Qed.

Lemma construct_move_ok : forall s c w, quiet_move C S -> inv s -> c_alive s = true -> inv c -> c_alive c = false ->
  post (stops S) (o_construct C (from_cell C (mctor C)) c (s, w))
    (fun p => inv (fst p) /\ c_alive (fst p) = true /\ val S (c_raw (fst p)) = val S (c_raw s) /\
              inv (fst (snd p)) /\ c_alive (fst (snd p)) = true /\
              mv S (val S (c_raw s)) (val S (c_raw (fst (snd p)))) /\
              (cnt (snd (snd p)) + oown s = cnt w + own S (c_raw (fst p)) + oown (fst (snd p)))%Z)
    (fun p => inv (fst p) /\ c_alive (fst p) = false /\ oval (fst p) = None /\
              inv (fst (snd p)) /\ c_alive (fst (snd p)) = true /\
              (cnt (snd (snd p)) + oown s = cnt w + oown (fst (snd p)))%Z).
Proof.
  intros s c w Qm Hs Has Hi Ha.
  apply construct_dead with
    (R := fun r (x : cell C * W) => val S r = val S (c_raw s) /\ inv (fst x) /\ c_alive (fst x) = true /\
              mv S (val S (c_raw s)) (val S (c_raw (fst x))) /\
              (cnt (snd x) + oown s = cnt w + own S r + oown (fst x))%Z)
    (E := fun (x : cell C * W) => inv (fst x) /\ c_alive (fst x) = true /\
              (cnt (snd x) + oown s = cnt w + oown (fst x))%Z); auto 12.
  unfold from_cell. rewrite Has.
  pose proof (l_mctor _ _ L (c_raw s) (c_raw c) w (proj1 Hs Has)) as H.
  destruct (mctor C (c_raw c) (c_raw s, w)) as [[r [s' w']]|[r [s' w']]| |] eqn:Ec; cbn in *; auto 12; try contradiction.
  - destruct H as (H1 & H2 & H3 & H4 & H5). left. split; [exact H1|]. split; [exact H2|].
    split; [now apply inv_set|]. split; [reflexivity|]. split; [exact H4|]. unfold LifetimeSpec.oown. rewrite Has. cbn. exact H5.
  - destruct H as (H1 & H2). split; [split; [now apply inv_set|split; [reflexivity|]]|].
    + unfold LifetimeSpec.oown. rewrite Has. cbn. exact H2.
    + intros Hm. destruct Hi as (_ & H0 & _).
      rewrite (Qm (c_raw s) (c_raw c) w r (s', w') (proj1 Hs Has) Hm); [now apply H0| |exact Ec].
      rewrite (H0 Hm Ha). exact Hm.
Qed.

(** In-place construction into arbitrary storage. *)
Lemma inplace_ok : forall i c w,
  post (stops S) (o_inplace C i c w)
    (fun p => inv (fst p) /\ c_alive (fst p) = true /\ denotes S i (val S (c_raw (fst p))) /\
              cnt (snd p) = (cnt w + own S (c_raw (fst p)))%Z)
    (fun p => cnt (snd p) = cnt w).
Proof.
  intros i c w. unfold o_inplace. pose proof (l_ctor _ _ L i (c_raw c) w) as H.
  destruct (ctor C i (c_raw c) w) as [[r w']|[r w']| |]; cbn in *; auto 12; try contradiction.
  destruct traits_spec as [[-> Hm]|[-> Hm]].
  - destruct H as [(H1 & H2 & H3)|[Hst [_ Hn]]].
    + cbn zeta. assert (Hi : inv (mkcell r (c_flag c) true)) by (apply inv_alive; [exact H1|lia]).
      rewrite has_ok by exact Hi. cbn. auto 12.
    + unfold o_has. cbn. destruct traits_spec as [[-> _]|[_ Hx]]; [|lia]. rewrite Hn. cbn. exact Hst.
  - destruct H as [(H1 & H2 & H3)|[_ [Hx _]]]; [|lia]. cbn. split; [apply inv_alive; auto|auto].
Qed.

Lemma dtor_dead : forall c1 w1, inv c1 -> c_alive c1 = false ->
  post (stops S) (o_dtor C c1 w1) (fun p => cnt (snd p) = cnt w1) (fun _ => stops S).
Proof.
  intros c1 w1 Hi Ha. eapply post_mono; [apply (dtor_ok c1 w1 Hi)| |intros p []].
  cbn. intros p [_ H]. rewrite (dead_own _ Ha) in H. lia.
Qed.

Lemma oval_alive : forall c, c_alive c = true -> oval c = Some (val S (c_raw c)).
Proof. intros c H. unfold LifetimeSpec.oval. now rewrite H. Qed.
Lemma oval_dead : forall c, c_alive c = false -> oval c = None.
Proof. intros c H. unfold LifetimeSpec.oval. now rewrite H. Qed.
Lemma oown_alive : forall c, c_alive c = true -> oown c = own S (c_raw c).
Proof. intros c H. unfold LifetimeSpec.oown. now rewrite H. Qed.

Lemma ctor_ok : forall i c w, (forall i', i = IConv (Some i') -> quiet_init C i') ->
  post (stops S) (o_ctor C i c w)
    (fun p => inv (fst p) /\ odenotes C S i (oval (fst p)) /\ cnt (snd p) = (cnt w + oown (fst p))%Z)
    (fun p => cnt (snd p) = cnt w).
Proof.
  intros i c w Q. destruct i as [|i|[i|]]; cbn [o_ctor odenotes]; try (assert (Qi := Q _ eq_refl)).
  - destruct (default_ok c) as (c' & -> & Hi & Ha). cbn. rewrite (oval_dead _ Ha), (dead_own _ Ha). repeat split; try apply Hi. lia.
  - eapply post_mono; [apply inplace_ok| |auto]. cbn. intros p (H1 & H2 & H3 & H4).
    rewrite (oval_alive _ H2), (oown_alive _ H2). split; [exact H1|]. split; [eauto|exact H4].
  - apply with_base_ok with (E := fun w' => cnt w' = cnt w).
    + intros c1 w1 Hi Ha HE. eapply post_mono; [now apply dtor_dead| |auto]. cbn. intros; lia.
    + intros c0 Hi Ha. eapply post_mono; [apply construct_init_ok; [exact Qi|exact Hi|congruence]| |].
      * cbn. intros p (H1 & H2 & H3 & H4). rewrite (oval_alive _ H2), (oown_alive _ H2). rewrite (dead_own _ Ha) in H4.
        split; [exact H1|]. split; [eauto|lia].
      * cbn. intros p (H1 & H2 & H3 & H4). rewrite H2. auto 12.
  - apply with_base_ok with (E := fun w' => cnt w' = cnt w).
    + intros c1 w1 Hi Ha HE. eapply post_mono; [now apply dtor_dead| |auto]. cbn. intros; lia.
    + intros c0 Hi Ha. cbn. rewrite (oval_dead _ Ha), (dead_own _ Ha). split; [exact Hi|]. split; [reflexivity|lia].
Qed.

Lemma cctor_ok : forall s c w, quiet_copy C S -> inv s ->
  post (stops S) (o_cctor C s c w)
    (fun p => inv (fst p) /\ oval (fst p) = oval s /\ cnt (snd p) = (cnt w + oown (fst p))%Z)
    (fun p => cnt (snd p) = cnt w).
Proof.
  intros s c w Qc Hs. unfold o_cctor. destruct (tcc C) eqn:Et.
  - cbn. pose proof (td_own s Hs (l_tcc_td _ _ L Et)). split; [exact Hs|]. split; [reflexivity|lia].
  - apply with_base_ok with (E := fun w' => cnt w' = cnt w).
    + intros c1 w1 Hi Ha HE. eapply post_mono; [now apply dtor_dead| |auto]. cbn. intros; lia.
    + intros c0 Hi Ha. rewrite (has_ok s Hs). cbn [check]. destruct (c_alive s) eqn:Es.
      * eapply post_mono; [apply construct_copy_ok; [exact Qc|now apply Hs|exact Hi|exact Ha]| |].
        -- cbn. intros p (H1 & H2 & H3 & H4). rewrite (oval_alive _ H2), (oown_alive _ H2), (oval_alive _ Es), H3. auto 12.
        -- cbn. intros p (H1 & H2 & H3 & H4). split; [exact H1|]. split; [exact H2|exact H4].
      * cbn. rewrite !oval_dead, dead_own by assumption. split; [exact Hi|]. split; [reflexivity|lia].
Qed.

Lemma mctor_ok : forall s c w, quiet_move C S -> inv s ->
  post (stops S) (o_mctor C c (s, w))
    (fun p => inv (fst p) /\ oval (fst p) = oval s /\ inv (fst (snd p)) /\
              opt_rel (mv S) (oval s) (oval (fst (snd p))) /\
              (cnt (snd (snd p)) + oown s = cnt w + oown (fst p) + oown (fst (snd p)))%Z)
    (fun p => inv (fst (snd p)) /\ c_alive s = true /\ c_alive (fst (snd p)) = true /\
              (cnt (snd (snd p)) + oown s = cnt w + oown (fst (snd p)))%Z).
Proof.
  intros s c w Qm Hs. unfold o_mctor. destruct (tmc C) eqn:Et.
  - cbn. rewrite (td_own s Hs (l_tmc_td _ _ L Et)). split; [exact Hs|]. split; [reflexivity|]. split; [exact Hs|].
    split; [|lia]. unfold LifetimeSpec.oval. destruct (c_alive s); cbn; [|exact I]. now apply (l_tmc_mv _ _ L).
  - apply with_base_ok with (E := fun sw : cell C * W => inv (fst sw) /\ c_alive s = true /\ c_alive (fst sw) = true /\
        (cnt (snd sw) + oown s = cnt w + oown (fst sw))%Z).
    + intros c1 w1 Hi Ha (HE1 & HE2 & HE3 & HE4). unfold lift. pose proof (dtor_dead c1 (snd w1) Hi Ha) as H.
      destruct (o_dtor C c1 (snd w1)) as [[c2 w2]|[c2 w2]| |]; cbn in *; auto. repeat split; auto; try apply HE1. lia.
    + intros c0 Hi Ha. cbn [fst]. rewrite (has_ok s Hs). cbn [check]. destruct (c_alive s) eqn:Es.
      * eapply post_mono; [apply construct_move_ok; [exact Qm|exact Hs|exact Es|exact Hi|exact Ha]| |].
        -- cbn. intros p (H1 & H2 & H3 & H4 & H5 & H6 & H7).
           rewrite (oval_alive _ H2), (oown_alive (fst p) H2), (oval_alive _ Es), (oval_alive _ H5), H3. cbn. auto 12.
        -- cbn. intros p (H1 & H2 & H3 & H4 & H5 & H6). auto 12.
      * cbn. rewrite !oval_dead, (dead_own c0) by assumption. cbn. split; [exact Hi|]. split; [reflexivity|]. split; [exact Hs|]. split; [exact I|lia].
Qed.

Lemma cassign_ok : forall s c w, quiet_copy C S -> inv s -> inv c ->
  post (stops S) (o_cassign C s c w)
    (fun p => inv (fst p) /\ oval (fst p) = oval s /\ (cnt (snd p) + oown c = cnt w + oown (fst p))%Z)
    (fun p => inv (fst p) /\ c_alive s = true /\ c_alive (fst p) = c_alive c /\
              (cnt (snd p) + oown c = cnt w + oown (fst p))%Z).
Proof.
  intros s c w Qc Hs Hc. unfold o_cassign. destruct (tcc C && (tca C && td C))%bool eqn:Et.
  - apply andb_prop in Et. pose proof (l_tcc_td _ _ L (proj1 Et)) as Htd. cbn.
    rewrite (td_own s Hs Htd), (td_own c Hc Htd). split; [exact Hs|]. split; [reflexivity|lia].
  - rewrite (has_ok s Hs). cbn [check]. destruct (c_alive s) eqn:Es.
    + rewrite (has_ok c Hc). cbn [check]. destruct (c_alive c) eqn:Ec; cbn [andb].
      * pose proof (l_cassign _ _ L (c_raw s) (c_raw c) w (proj1 Hs Es) (proj1 Hc Ec)) as H.
        destruct (cassign C (c_raw s) (c_raw c) w) as [[r w']|[r w']| |]; cbn in *; auto 12; try contradiction.
        -- destruct H as (H1 & H2 & H3). split; [now apply inv_set|]. unfold LifetimeSpec.oval, LifetimeSpec.oown. rewrite Es, Ec. cbn.
           rewrite H2. auto 12.
        -- destruct H as (H1 & H3). split; [now apply inv_set|]. unfold LifetimeSpec.oown. rewrite Ec. cbn. auto 12.
      * eapply post_mono; [apply construct_copy_ok; [exact Qc|now apply Hs|exact Hc|exact Ec]| |].
        -- cbn. intros p (H1 & H2 & H3 & H4). rewrite (oval_alive _ H2), (oown_alive _ H2), (oval_alive _ Es), H3, (dead_own _ Ec).
           split; [exact H1|]. split; [reflexivity|lia].
        -- cbn. intros p (H1 & H2 & H3 & H4). rewrite (dead_own _ H2), (dead_own _ Ec). repeat split; auto; try apply H1. lia.
    + eapply post_mono; [apply (reset_ok c w Hc)| |intros p []].
      cbn. intros p (H1 & H2 & H3). rewrite !oval_dead, (dead_own _ H2) by assumption. split; [exact H1|]. split; [reflexivity|lia].
Qed.

Lemma massign_ok : forall s c w, quiet_move C S -> inv s -> inv c ->
  post (stops S) (o_massign C c (s, w))
    (fun p => inv (fst p) /\ oval (fst p) = oval s /\ inv (fst (snd p)) /\
              opt_rel (mv S) (oval s) (oval (fst (snd p))) /\
              (cnt (snd (snd p)) + oown c + oown s = cnt w + oown (fst p) + oown (fst (snd p)))%Z)
    (fun p => inv (fst p) /\ inv (fst (snd p)) /\ c_alive s = true /\ c_alive (fst p) = c_alive c /\
              c_alive (fst (snd p)) = true /\
              (cnt (snd (snd p)) + oown c + oown s = cnt w + oown (fst p) + oown (fst (snd p)))%Z).
Proof.
  intros s c w Qm Hs Hc. unfold o_massign. destruct (tmc C && (tma C && td C))%bool eqn:Et.
  - apply andb_prop in Et. pose proof (l_tmc_td _ _ L (proj1 Et)) as Htd. cbn.
    rewrite (td_own s Hs Htd), (td_own c Hc Htd). split; [exact Hs|]. split; [reflexivity|]. split; [exact Hs|].
    split; [|lia]. unfold LifetimeSpec.oval. destruct (c_alive s); cbn; [|exact I]. now apply (l_tmc_mv _ _ L).
  - cbn [fst]. rewrite (has_ok s Hs). cbn [check]. destruct (c_alive s) eqn:Es.
    + rewrite (has_ok c Hc). cbn [check]. destruct (c_alive c) eqn:Ec; cbn [andb].
      * unfold from_cell. rewrite Es. pose proof (l_massign _ _ L (c_raw s) (c_raw c) w (proj1 Hs Es) (proj1 Hc Ec)) as H.
        destruct (massign C (c_raw c) (c_raw s, w)) as [[r [s' w']]|[r [s' w']]| |]; cbn in *; auto 12; try contradiction.
        -- destruct H as (H1 & H2 & H3 & H4 & H5). split; [now apply inv_set|]. unfold LifetimeSpec.oval, LifetimeSpec.oown. rewrite Es, Ec. cbn.
           rewrite H2. split; [reflexivity|]. split; [|auto].
           destruct Hs as (_ & _ & Hf). apply inv_alive; [exact H3|]. intros Hm. rewrite (Hf Hm), Es. reflexivity.
        -- destruct H as (H1 & H2 & H3). split; [now apply inv_set|]. split.
           ++ destruct Hs as (_ & _ & Hf). apply inv_alive; [exact H2|]. intros Hm. rewrite (Hf Hm), Es. reflexivity.
           ++ unfold LifetimeSpec.oown. rewrite Ec, Es. cbn. auto 12.
      * eapply post_mono; [apply construct_move_ok; [exact Qm|exact Hs|exact Es|exact Hc|exact Ec]| |].
        -- cbn. intros p (H1 & H2 & H3 & H4 & H5 & H6 & H7).
           rewrite (oval_alive _ H2), (oown_alive (fst p) H2), (oval_alive _ Es), (oval_alive _ H5), H3, (dead_own _ Ec). cbn.
           split; [exact H1|]. split; [reflexivity|]. split; [exact H4|]. split; [exact H6|lia].
        -- cbn. intros p (H1 & H2 & H3 & H4 & H5 & H6). rewrite (dead_own _ H2), (dead_own _ Ec). repeat split; auto; try apply H1; try apply H4. lia.
    + unfold lift. cbn [snd fst]. pose proof (reset_ok c w Hc) as H. destruct (o_reset C c w) as [[c' w']|[c' w']| |]; cbn in *; auto 12; try contradiction.
      * destruct H as (H1 & H2 & H3). rewrite !oval_dead, (dead_own _ H2), (dead_own _ Es) by assumption.
        split; [exact H1|]. split; [reflexivity|]. split; [exact Hs|]. split; [exact I|lia].
Qed.

Lemma self_op_ok : forall (f : raw C -> W -> out (raw C * W)) c w (R : raw C -> Prop),
  inv c -> c_alive c = true ->
  post (stops S) (f (c_raw c) w)
    (fun p => ok S (fst p) /\ R (fst p) /\ (cnt (snd p) + own S (c_raw c) = cnt w + own S (fst p))%Z)
    (fun p => ok S (fst p) /\ (cnt (snd p) + own S (c_raw c) = cnt w + own S (fst p))%Z) ->
  post (stops S) (match f (c_raw c) w with
        | Ret (r, w') => Ret (mkcell r (c_flag c) true, w')
        | Exn (r, w') => Exn (mkcell r (c_flag c) true, w')
        | Abort => Abort
        | Undef => Undef
        end)
    (fun p => inv (fst p) /\ c_alive (fst p) = true /\ R (c_raw (fst p)) /\ (cnt (snd p) + oown c = cnt w + oown (fst p))%Z)
    (fun p => inv (fst p) /\ c_alive (fst p) = true /\ (cnt (snd p) + oown c = cnt w + oown (fst p))%Z).
Proof.
  intros f c w R Hi Ha H. destruct (f (c_raw c) w) as [[r w']|[r w']| |]; cbn in *; auto 12; try contradiction.
  - destruct H as (H1 & H2 & H3). split; [now apply inv_set|]. unfold LifetimeSpec.oown. rewrite Ha. cbn. auto 12.
  - destruct H as (H1 & H3). split; [now apply inv_set|]. unfold LifetimeSpec.oown. rewrite Ha. cbn. auto 12.
Qed.

Lemma self_cassign_ok : forall c w, inv c ->
  post (stops S) (o_self_cassign C c w)
    (fun p => inv (fst p) /\ oval (fst p) = oval c /\ (cnt (snd p) + oown c = cnt w + oown (fst p))%Z)
    (fun p => inv (fst p) /\ c_alive c = true /\ c_alive (fst p) = true /\ (cnt (snd p) + oown c = cnt w + oown (fst p))%Z).
Proof.
  intros c w Hc. unfold o_self_cassign. destruct (tcc C && (tca C && td C))%bool.
  - cbn. split; [exact Hc|]. split; [reflexivity|lia].
  - rewrite (has_ok c Hc). cbn [check]. destruct (c_alive c) eqn:Ec.
    + eapply post_mono; [apply self_op_ok with (R := fun r => val S r = val S (c_raw c)); auto; apply (l_self_cassign _ _ L); now apply Hc| |].
      * cbn. intros p (H1 & H2 & H3 & H4). rewrite (oval_alive _ H2), (oval_alive _ Ec), H3. auto 12.
      * cbn. intros p (H1 & H2 & H3). auto 12.
    + eapply post_mono; [apply (reset_ok c w Hc)| |intros p []].
      cbn. intros p (H1 & H2 & H3). rewrite !oval_dead, (dead_own _ H2) by assumption. split; [exact H1|]. split; [reflexivity|lia].
Qed.

Lemma self_massign_ok : forall c w, inv c ->
  post (stops S) (o_self_massign C c w)
    (fun p => inv (fst p) /\ opt_rel (selfmv S) (oval c) (oval (fst p)) /\ (cnt (snd p) + oown c = cnt w + oown (fst p))%Z)
    (fun p => inv (fst p) /\ c_alive c = true /\ c_alive (fst p) = true /\ (cnt (snd p) + oown c = cnt w + oown (fst p))%Z).
Proof.
  intros c w Hc. unfold o_self_massign. destruct (tmc C && (tma C && td C))%bool eqn:Et.
  - cbn. split; [exact Hc|]. split; [|lia]. apply andb_prop in Et. unfold LifetimeSpec.oval. destruct (c_alive c); cbn; [|exact I].
    destruct Et as [E1 E2]. apply andb_prop in E2. apply (l_tma_selfmv _ _ L); [exact E1|apply E2].
  - rewrite (has_ok c Hc). cbn [check]. destruct (c_alive c) eqn:Ec.
    + eapply post_mono; [apply self_op_ok with (R := fun r => selfmv S (val S (c_raw c)) (val S r)); auto; apply (l_self_massign _ _ L); now apply Hc| |].
      * cbn. intros p (H1 & H2 & H3 & H4). rewrite (oval_alive _ H2), (oval_alive _ Ec). cbn. auto 12.
      * cbn. intros p (H1 & H2 & H3). auto 12.
    + eapply post_mono; [apply (reset_ok c w Hc)| |intros p []].
      cbn. intros p (H1 & H2 & H3). rewrite !oval_dead, (dead_own _ H2) by assumption. cbn. split; [exact H1|]. split; [exact I|lia].
Qed.

Lemma assign_value_ok : forall i c w, inv c -> c_alive c = true ->
  post (stops S) (o_assign_value C (asgn C i) c w)
    (fun p => inv (fst p) /\ c_alive (fst p) = true /\ denotes S i (val S (c_raw (fst p))) /\
              (cnt (snd p) + oown c = cnt w + oown (fst p))%Z)
    (fun p => inv (fst p) /\ c_alive (fst p) = true /\ (cnt (snd p) + oown c = cnt w + oown (fst p))%Z).
Proof.
  intros i c w Hc Ea. unfold o_assign_value. rewrite Ea.
  pose proof (l_asgn _ _ L i (c_raw c) w (proj1 Hc Ea)) as H.
  destruct (asgn C i (c_raw c) w) as [[r w']|[r w']| |]; cbn in *; auto 12; try contradiction.
  - destruct H as [(H1 & H2 & H3)|[Hst [Hm Hn]]].
    + rewrite has_ok by (now apply inv_set). cbn. split; [now apply inv_set|]. unfold LifetimeSpec.oown. rewrite Ea. cbn. auto 12.
    + unfold o_has. cbn. destruct traits_spec as [[-> _]|[_ Hx]]; [|lia]. rewrite Hn. cbn. exact Hst.
  - destruct H as (H1 & H2). split; [now apply inv_set|]. unfold LifetimeSpec.oown. rewrite Ea. cbn. auto 12.
Qed.

Lemma assign_or_construct_ok : forall i c w, quiet_init C i -> inv c ->
  post (stops S) (check (o_has C c) (fun h => if h then o_assign_value C (asgn C i) c w else o_construct C (ctor C i) c w))
    (fun p => inv (fst p) /\ (exists v, oval (fst p) = Some v /\ denotes S i v) /\
              (cnt (snd p) + oown c = cnt w + oown (fst p))%Z)
    (fun p => inv (fst p) /\ c_alive (fst p) = c_alive c /\ (cnt (snd p) + oown c = cnt w + oown (fst p))%Z).
Proof.
  intros i c w Qi Hc. rewrite (has_ok c Hc). cbn [check]. destruct (c_alive c) eqn:Ec.
  - eapply post_mono; [now apply assign_value_ok| |].
    + cbn. intros p (H1 & H2 & H3 & H4). rewrite (oval_alive _ H2). eauto.
    + cbn. intros p H. exact H.
  - eapply post_mono; [apply construct_init_ok; [exact Qi|exact Hc|congruence]| |].
    + cbn. intros p (H1 & H2 & H3 & H4). rewrite (oval_alive _ H2), (oown_alive _ H2). eauto.
    + cbn. intros p (H1 & H2 & H3 & H4). rewrite Ec in H2. rewrite (dead_own _ H2), (dead_own _ Ec). split; [exact H1|]. split; [exact H2|lia].
Qed.

Lemma asgn_ok : forall i c w, (forall i', i = IVal i' \/ i = IConv (Some i') -> quiet_init C i') -> inv c ->
  post (stops S) (o_asgn C i c w)
    (fun p => inv (fst p) /\ odenotes C S i (oval (fst p)) /\ (cnt (snd p) + oown c = cnt w + oown (fst p))%Z)
    (fun p => inv (fst p) /\ c_alive (fst p) = c_alive c /\ (cnt (snd p) + oown c = cnt w + oown (fst p))%Z).
Proof.
  intros i c w Q Hc.
  assert (Hr : post (stops S) (o_reset C c w)
    (fun p => inv (fst p) /\ oval (fst p) = None /\ (cnt (snd p) + oown c = cnt w + oown (fst p))%Z)
    (fun p => inv (fst p) /\ c_alive (fst p) = c_alive c /\ (cnt (snd p) + oown c = cnt w + oown (fst p))%Z)).
  { eapply post_mono; [apply (reset_ok c w Hc)| |intros p []].
    cbn. intros p (H1 & H2 & H3). rewrite !oval_dead, (dead_own _ H2) by assumption. split; [exact H1|]. split; [reflexivity|lia]. }
  destruct i as [|i|[i|]]; cbn [o_asgn odenotes]; auto; (assert (Qi : quiet_init C i) by (apply Q; auto)); [|now apply assign_or_construct_ok].
  destruct (scalar C) eqn:Esc; [|now apply assign_or_construct_ok].
  eapply post_mono; [apply construct_init_ok; [exact Qi|exact Hc|auto]| |].
  + cbn. intros p (H1 & H2 & H3 & H4). rewrite (oval_alive _ H2), (oown_alive _ H2). eauto.
  + cbn. intros p (H1 & H2 & H3 & H4). pose proof (l_scalar_td _ _ L Esc) as Htd.
    rewrite (td_own _ H1 Htd), (td_own _ Hc Htd). split; [exact H1|]. split; [exact H2|lia].
Qed.

Lemma swap_ok : forall a b w, quiet_move C S -> inv a -> inv b ->
  post (stops S) (o_swap C a (b, w))
    (fun p => inv (fst p) /\ inv (fst (snd p)) /\ oval (fst p) = oval b /\ oval (fst (snd p)) = oval a /\
              (cnt (snd (snd p)) + oown a + oown b = cnt w + oown (fst p) + oown (fst (snd p)))%Z)
    (fun p => inv (fst p) /\ inv (fst (snd p)) /\ c_alive (fst p) = c_alive a /\ c_alive (fst (snd p)) = c_alive b /\
              (cnt (snd (snd p)) + oown a + oown b = cnt w + oown (fst p) + oown (fst (snd p)))%Z).
Proof.
  intros a b w Qm Ha Hb. unfold o_swap. rewrite (has_ok a Ha), (has_ok b Hb). cbn [check].
  destruct (c_alive a) eqn:Ea, (c_alive b) eqn:Eb; cbn [negb andb].
  - pose proof (l_swp _ _ L (c_raw a) (c_raw b) w (proj1 Ha Ea) (proj1 Hb Eb)) as H.
    destruct (swp C (c_raw a) (c_raw b, w)) as [[ra [rb w']]|[ra [rb w']]| |]; cbn in *; auto 12; try contradiction.
    + destruct H as (H1 & H2 & H3 & H4 & H5). split; [now apply inv_set|]. split; [now apply inv_set|].
      unfold LifetimeSpec.oval, LifetimeSpec.oown. rewrite Ea, Eb. cbn. rewrite H3, H4. auto 12.
    + destruct H as (H1 & H2 & H5). split; [now apply inv_set|]. split; [now apply inv_set|].
      unfold LifetimeSpec.oown. rewrite Ea, Eb. cbn. auto 12.
  - pose proof (construct_move_ok a b w Qm Ha Ea Hb Eb) as H.
    destruct (o_construct C (from_cell C (mctor C)) b (a, w)) as [[b' [a' w']]|[b' [a' w']]| |]; cbn in *; auto 12; try contradiction.
    + destruct H as (H1 & H2 & H3 & H4 & H5 & H6 & H7).
      pose proof (reset_ok a' w' H4) as Hr. destruct (o_reset C a' w') as [[a'' w'']|[a'' w'']| |]; cbn in *; auto 12; try contradiction.
      destruct Hr as (R1 & R2 & R3). rewrite (oval_dead _ R2), (oval_dead _ Eb), (oval_alive _ H2), (oval_alive _ Ea), H3.
      rewrite (dead_own _ R2), (dead_own _ Eb), (oown_alive b' H2). repeat split; auto; try apply R1; try apply H1. lia.
    + destruct H as (H1 & H2 & H3 & H4 & H5 & H6). rewrite (dead_own _ H2), (dead_own _ Eb).
      repeat split; auto; try apply H4; try apply H1. lia.
  - pose proof (construct_move_ok b a w Qm Hb Eb Ha Ea) as H.
    destruct (o_construct C (from_cell C (mctor C)) a (b, w)) as [[a' [b' w']]|[a' [b' w']]| |]; cbn in *; auto 12; try contradiction.
    + destruct H as (H1 & H2 & H3 & H4 & H5 & H6 & H7).
      pose proof (reset_ok b' w' H4) as Hr. destruct (o_reset C b' w') as [[b'' w'']|[b'' w'']| |]; cbn in *; auto 12; try contradiction.
      destruct Hr as (R1 & R2 & R3). rewrite (oval_dead _ R2), (oval_dead _ Ea), (oval_alive _ H2), (oval_alive _ Eb), H3.
      rewrite (dead_own _ R2), (dead_own _ Ea), (oown_alive a' H2). repeat split; auto; try apply R1; try apply H1. lia.
    + destruct H as (H1 & H2 & H3 & H4 & H5 & H6). rewrite (dead_own _ H2), (dead_own _ Ea).
      repeat split; auto; try apply H4; try apply H1. lia.
  - cbn. rewrite !oval_dead, !dead_own by assumption. repeat split; auto; try apply Ha; try apply Hb.
Qed.

Lemma self_swap_ok : forall c w, inv c ->
  post (stops S) (o_self_swap C c w)
    (fun p => inv (fst p) /\ oval (fst p) = oval c /\ (cnt (snd p) + oown c = cnt w + oown (fst p))%Z)
    (fun p => inv (fst p) /\ c_alive c = true /\ c_alive (fst p) = true /\ (cnt (snd p) + oown c = cnt w + oown (fst p))%Z).
Proof.
  intros c w Hc. unfold o_self_swap. rewrite (has_ok c Hc). cbn [check]. destruct (c_alive c) eqn:Ec.
  - eapply post_mono; [apply self_op_ok with (R := fun r => val S r = val S (c_raw c)); auto; apply (l_self_swp _ _ L); now apply Hc| |].
    + cbn. intros p (H1 & H2 & H3 & H4). rewrite (oval_alive _ H2), (oval_alive _ Ec), H3. auto 12.
    + cbn. intros p (H1 & H2 & H3). auto 12.
  - cbn. split; [exact Hc|]. split; [reflexivity|lia].
Qed.

(** std::swap of two options. *)
Lemma std_swap_ok : forall a b w, quiet_move C S -> inv a -> inv b ->
  post (stops S) (o_std_swap C a (b, w))
    (fun p => inv (fst p) /\ inv (fst (snd p)) /\ oval (fst p) = oval b /\ oval (fst (snd p)) = oval a /\
              (cnt (snd (snd p)) + oown a + oown b = cnt w + oown (fst p) + oown (fst (snd p)))%Z)
    (fun p => inv (fst p) /\ inv (fst (snd p)) /\
              (cnt (snd (snd p)) + oown a + oown b = cnt w + oown (fst p) + oown (fst (snd p)))%Z).
Proof.
  intros a b w Qm Ha Hb. unfold o_std_swap. cbn zeta.
  pose proof (mctor_ok a (mkcell (c_raw a) (c_flag a) false) w Qm Ha) as H.
  destruct (o_mctor C _ (a, w)) as [[t [a1 w1]]|[t [a1 w1]]| |]; cbn [post fst snd] in *; auto.
  2: { destruct H as (H1 & _ & _ & H4). repeat split; try apply H1; try apply Hb. lia. }
  destruct H as (T1 & T2 & A1 & _ & Ct).
  pose proof (massign_ok b a1 w1 Qm Hb A1) as H.
  destruct (o_massign C a1 (b, w1)) as [[a2 [b1 w2]]|[a2 [b1 w2]]| |]; cbn [post fst snd] in *; auto.
  2: { destruct H as (H1 & H2 & _ & _ & _ & H3). pose proof (dtor_ok t w2 T1) as D.
       destruct (o_dtor C t w2) as [[t' w']|[t' w']| |]; cbn in *; auto; try contradiction.
       destruct D as [_ D]. split; [exact H1|]. split; [exact H2|lia]. }
  destruct H as (B1 & B2 & B3 & _ & Cb).
  pose proof (massign_ok t b1 w2 Qm T1 B3) as H.
  destruct (o_massign C b1 (t, w2)) as [[b2 [t1 w3]]|[b2 [t1 w3]]| |]; cbn [post fst snd] in *; auto.
  - destruct H as (E1 & E2 & E3 & _ & Ce). pose proof (dtor_ok t1 w3 E3) as D.
    destruct (o_dtor C t1 w3) as [[t' w']|[t' w']| |]; cbn in *; auto; try contradiction.
    destruct D as [_ D]. split; [exact B1|]. split; [exact E1|]. split; [exact B2|]. split; [congruence|lia].
  - destruct H as (E1 & E2 & _ & _ & _ & Ce). pose proof (dtor_ok t1 w3 E2) as D.
    destruct (o_dtor C t1 w3) as [[t' w']|[t' w']| |]; cbn in *; auto; try contradiction.
    destruct D as [_ D]. split; [exact B1|]. split; [exact E1|lia].
Qed.

Lemma self_std_swap_ok : forall c w, quiet_move C S -> inv c ->
  post (stops S) (o_self_std_swap C c w)
    (fun p => inv (fst p) /\ oval (fst p) = oval c /\ (cnt (snd p) + oown c = cnt w + oown (fst p))%Z)
    (fun p => inv (fst p) /\ (cnt (snd p) + oown c = cnt w + oown (fst p))%Z).
Proof.
  intros c w Qm Hc. unfold o_self_std_swap. cbn zeta.
  pose proof (mctor_ok c (mkcell (c_raw c) (c_flag c) false) w Qm Hc) as H.
  destruct (o_mctor C _ (c, w)) as [[t [c1 w1]]|[t [c1 w1]]| |]; cbn [post fst snd] in *; auto.
  2: { destruct H as (H1 & _ & _ & H4). repeat split; try apply H1. lia. }
  destruct H as (T1 & T2 & A1 & _ & Ct).
  pose proof (self_massign_ok c1 w1 A1) as H.
  destruct (o_self_massign C c1 w1) as [[c2 w2]|[c2 w2]| |]; cbn [post fst snd] in *; auto.
  2: { destruct H as (H1 & _ & _ & H3). pose proof (dtor_ok t w2 T1) as D.
       destruct (o_dtor C t w2) as [[t' w']|[t' w']| |]; cbn in *; auto; try contradiction.
       destruct D as [_ D]. split; [exact H1|lia]. }
  destruct H as (B1 & _ & Cb).
  pose proof (massign_ok t c2 w2 Qm T1 B1) as H.
  destruct (o_massign C c2 (t, w2)) as [[c3 [t1 w3]]|[c3 [t1 w3]]| |]; cbn [post fst snd] in *; auto.
  - destruct H as (E1 & E2 & E3 & _ & Ce). pose proof (dtor_ok t1 w3 E3) as D.
    destruct (o_dtor C t1 w3) as [[t' w']|[t' w']| |]; cbn in *; auto; try contradiction.
    destruct D as [_ D]. split; [exact E1|]. split; [congruence|lia].
  - destruct H as (E1 & E2 & _ & _ & _ & Ce). pose proof (dtor_ok t1 w3 E2) as D.
    destruct (o_dtor C t1 w3) as [[t' w']|[t' w']| |]; cbn in *; auto; try contradiction.
    destruct D as [_ D]. split; [exact E1|lia].
Qed.

(** x = *y *)
Lemma set_from_ok : forall s c w, quiet_copy C S -> ok S s -> inv c ->
  post (stops S) (o_set_from C s c w)
    (fun p => inv (fst p) /\ oval (fst p) = Some (val S s) /\ (cnt (snd p) + oown c = cnt w + oown (fst p))%Z)
    (fun p => inv (fst p) /\ c_alive (fst p) = c_alive c /\ (cnt (snd p) + oown c = cnt w + oown (fst p))%Z).
Proof.
  intros s c w Qc Hs Hc. unfold o_set_from.
  assert (Hdead : c_alive c = false -> post (stops S) (o_construct C (cctor C s) c w)
    (fun p => inv (fst p) /\ oval (fst p) = Some (val S s) /\ (cnt (snd p) + oown c = cnt w + oown (fst p))%Z)
    (fun p => inv (fst p) /\ c_alive (fst p) = c_alive c /\ (cnt (snd p) + oown c = cnt w + oown (fst p))%Z)).
  { intros Ec. eapply post_mono; [apply (construct_copy_ok s c w Qc Hs Hc Ec)| |].
    - cbn. intros p (A1 & A2 & A3 & A4). rewrite (oval_alive _ A2), (oown_alive _ A2), A3, (dead_own _ Ec). split; [exact A1|]. split; [reflexivity|lia].
    - cbn. intros p (A1 & A2 & A3 & A4). rewrite (dead_own _ A2), (dead_own _ Ec), Ec. split; [exact A1|]. split; [exact A2|lia]. }
  destruct (scalar C) eqn:Esc.
  - destruct (c_alive c) eqn:Ec; [|auto].
    assert (Htd := l_scalar_td _ _ L Esc).
    eapply post_mono; [apply construct_ok with (R := fun r w' => val S r = val S s /\ cnt w' = (cnt w + own S r)%Z) (E := fun _ => False); auto| |].
    + pose proof (l_cctor _ _ L s (c_raw c) w Hs) as H.
      destruct (cctor C s (c_raw c) w) as [p|p| |] eqn:E; cbn in *; auto. destruct (l_scalar_copy _ _ L _ _ _ _ Esc Hs E).
    + cbn. intros p (A1 & A2 & A3 & A4). rewrite (oval_alive _ A2), A3, (td_own _ A1 Htd), (td_own _ Hc Htd).
      rewrite <- (oown_alive _ A2), (td_own _ A1 Htd) in A4. split; [exact A1|]. split; [reflexivity|lia].
    + cbn. intros p (_ & _ & _ & []).
  - rewrite (has_ok c Hc). cbn [check]. destruct (c_alive c) eqn:Ec; [|auto].
    unfold o_assign_value. rewrite Ec.
    pose proof (l_cassign _ _ L s (c_raw c) w Hs (proj1 Hc Ec)) as H.
    destruct (cassign C s (c_raw c) w) as [[r w']|[r w']| |]; cbn in *; auto.
    + destruct H as (H1 & H2 & H3). rewrite has_ok by (now apply inv_set). cbn. split; [now apply inv_set|].
      unfold LifetimeSpec.oown, LifetimeSpec.oval. rewrite Ec. cbn. rewrite H2. auto.
    + destruct H as (H1 & H3). split; [now apply inv_set|]. unfold LifetimeSpec.oown. rewrite Ec. cbn. auto.
Qed.

Lemma set_self_ok : forall c w, quiet_copy C S -> inv c -> c_alive c = true ->
  post (stops S) (o_set_self C c w)
    (fun p => inv (fst p) /\ oval (fst p) = oval c /\ (cnt (snd p) + oown c = cnt w + oown (fst p))%Z)
    (fun p => inv (fst p) /\ c_alive (fst p) = true /\ (cnt (snd p) + oown c = cnt w + oown (fst p))%Z).
Proof.
  intros c w Qc Hc Ec. unfold o_set_self. destruct (scalar C) eqn:Esc.
  - pose proof (set_from_ok (c_raw c) c w Qc (proj1 Hc Ec) Hc) as H. unfold o_set_from in H. rewrite Esc in H.
    rewrite (oval_alive _ Ec). rewrite Ec in H. exact H.
  - rewrite (has_ok c Hc). cbn [check]. rewrite Ec. unfold o_assign_value. rewrite Ec.
    pose proof (l_self_cassign _ _ L (c_raw c) w (proj1 Hc Ec)) as H.
    destruct (self_cassign C (c_raw c) w) as [[r w']|[r w']| |]; cbn in *; auto.
    + destruct H as (H1 & H2 & H3). rewrite has_ok by (now apply inv_set). cbn. split; [now apply inv_set|].
      unfold LifetimeSpec.oown, LifetimeSpec.oval. rewrite Ec. cbn. rewrite H2. auto.
    + destruct H as (H1 & H3). split; [now apply inv_set|]. unfold LifetimeSpec.oown. rewrite Ec. cbn. auto.
Qed.

(** emplace and try_emplace. *)
Lemma emplace_ok : forall i c w, quiet_init C i -> inv c ->
  post (stops S) (o_emplace C (o_reset C) (ctor C i) c w)
    (fun p => inv (fst p) /\ (exists v, oval (fst p) = Some v /\ denotes S i v) /\ (cnt (snd p) + oown c = cnt w + oown (fst p))%Z)
    (fun p => inv (fst p) /\ oval (fst p) = None /\ (cnt (snd p) + oown c = cnt w + oown (fst p))%Z).
Proof.
  intros i c w Qi Hc. unfold o_emplace. pose proof (reset_ok c w Hc) as H.
  destruct (o_reset C c w) as [[c' w']|p| |]; cbn in *; auto; try contradiction. destruct H as (H1 & H2 & H3).
  eapply post_mono; [apply construct_init_ok; [exact Qi|exact H1|congruence]| |].
  - cbn. intros p (A1 & A2 & A3 & A4). rewrite (oval_alive _ A2), (oown_alive _ A2). rewrite (dead_own _ H2) in A4.
    split; [exact A1|]. split; [eauto|lia].
  - cbn. intros p (A1 & A2 & A3 & A4). rewrite H2 in A2. rewrite (oval_dead _ A2), (dead_own _ A2). split; [exact A1|]. split; [reflexivity|lia].
Qed.

Lemma emplace_copy_ok : forall s c w, quiet_copy C S -> ok S s -> inv c ->
  post (stops S) (o_emplace C (o_reset C) (cctor C s) c w)
    (fun p => inv (fst p) /\ oval (fst p) = Some (val S s) /\ (cnt (snd p) + oown c = cnt w + oown (fst p))%Z)
    (fun p => inv (fst p) /\ oval (fst p) = None /\ (cnt (snd p) + oown c = cnt w + oown (fst p))%Z).
Proof.
  intros s c w Qc Hs Hc. unfold o_emplace. pose proof (reset_ok c w Hc) as H.
  destruct (o_reset C c w) as [[c' w']|p| |]; cbn in *; auto; try contradiction. destruct H as (H1 & H2 & H3).
  eapply post_mono; [apply (construct_copy_ok s c' w' Qc Hs H1 H2)| |].
  - cbn. intros p (A1 & A2 & A3 & A4). rewrite (oval_alive _ A2), (oown_alive _ A2), A3. split; [exact A1|]. split; [reflexivity|lia].
  - cbn. intros p (A1 & A2 & A3 & A4). rewrite (dead_own _ A2). split; [exact A1|]. split; [exact A3|lia].
Qed.

Lemma try_emplace_ok : forall i c w, quiet_init C i -> inv c ->
  post (stops S) (o_try_emplace C i c w)
    (fun p => inv (fst p) /\
       match oval c with Some v => oval (fst p) = Some v /\ snd p = w | None => exists v, oval (fst p) = Some v /\ denotes S i v end /\
       (cnt (snd p) + oown c = cnt w + oown (fst p))%Z)
    (fun p => inv (fst p) /\ oval c = None /\ oval (fst p) = None /\ (cnt (snd p) + oown c = cnt w + oown (fst p))%Z).
Proof.
  intros i c w Qi Hc. unfold o_try_emplace. rewrite (has_ok c Hc). cbn [check]. destruct (c_alive c) eqn:Ec.
  - rewrite (oval_alive _ Ec). cbn. split; [exact Hc|]. rewrite (oval_alive _ Ec). split; [auto|lia].
  - rewrite (oval_dead _ Ec). eapply post_mono; [apply construct_init_ok; [exact Qi|exact Hc|congruence]| |].
    + cbn. intros p (H1 & H2 & H3 & H4). rewrite (oval_alive _ H2), (oown_alive _ H2). eauto.
    + cbn. intros p (H1 & H2 & H3 & H4). rewrite Ec in H2. rewrite (oval_dead _ H2), (dead_own _ H2), (dead_own _ Ec). repeat split; auto; try apply H1. lia.
Qed.

(** take. *)
Lemma take_ok : forall nrvo c s w, quiet_move C S -> inv s ->
  post (stops S) (o_take C nrvo c (s, w))
    (fun p => inv (fst p) /\ oval (fst p) = oval s /\ inv (fst (snd p)) /\ oval (fst (snd p)) = None /\
              (cnt (snd (snd p)) + oown s = cnt w + oown (fst p) + oown (fst (snd p)))%Z)
    (fun p => inv (fst (snd p)) /\ c_alive s = true /\ (cnt (snd (snd p)) + oown s = cnt w + oown (fst (snd p)))%Z /\
              (nrvo = true -> c_alive (fst (snd p)) = true)).
Proof.
  intros nrvo c s w Qm Hs. unfold o_take. pose proof (mctor_ok s c w Qm Hs) as H.
  destruct (o_mctor C c (s, w)) as [[tmp [s' w']]|[tmp [s' w']]| |] eqn:Em; cbn [post fst snd] in *; auto 12.
  2: { destruct H as (H1 & H2 & H3 & H4). repeat split; auto; try apply H1. }
  destruct H as (H1 & H2 & H3 & H4 & H5).
  pose proof (reset_ok s' w' H3) as Hr. destruct (o_reset C s' w') as [[s2 w2]|[s2 w2]| |]; cbn [post fst snd nothrow] in *; auto 12; try contradiction.
  destruct Hr as (R1 & R2 & R3). destruct nrvo.
  - cbn. rewrite (oval_dead _ R2), (dead_own _ R2). repeat split; auto; try apply H1; try apply R1. lia.
  - pose proof (mctor_ok tmp c w2 Qm H1) as H'.
    destruct (o_mctor C c (tmp, w2)) as [[res [tmp' w3]]|[res [tmp' w3]]| |]; cbn [post fst snd] in *; auto 12.
    + destruct H' as (A1 & A2 & A3 & A4 & A5). pose proof (dtor_ok tmp' w3 A3) as Hd.
      destruct (o_dtor C tmp' w3) as [[t w4]|[t w4]| |]; cbn in *; auto; try contradiction. destruct Hd as [_ Hd].
      rewrite (oval_dead _ R2), (dead_own _ R2), A2. repeat split; auto; try apply A1; try apply R1. lia.
    + destruct H' as (A1 & A2 & A3 & A4). pose proof (dtor_ok tmp' w3 A1) as Hd.
      destruct (o_dtor C tmp' w3) as [[t w4]|[t w4]| |]; cbn in *; auto; try contradiction. destruct Hd as [_ Hd].
      rewrite (dead_own _ R2). repeat split; auto; try apply R1.
      * destruct (c_alive s) eqn:E; [reflexivity|]. rewrite (oval_dead _ E), (oval_alive _ A2) in H2. discriminate.
      * lia.
      * discriminate.
Qed.

(** Uses of the contained object by the program. *)
Lemma with_value_ok : forall W' B (f : raw C -> W' -> out (raw C * W')) c w (R E : raw C -> W' -> Prop),
  inv c ->
  (c_alive c = true -> post B (f (c_raw c) w) (fun p => ok S (fst p) /\ R (fst p) (snd p)) (fun p => ok S (fst p) /\ E (fst p) (snd p))) ->
  post (c_alive c = false \/ B) (o_with_value C f c w)
    (fun p => c_alive c = true /\ inv (fst p) /\ c_alive (fst p) = true /\ R (c_raw (fst p)) (snd p))
    (fun p => c_alive c = true /\ inv (fst p) /\ c_alive (fst p) = true /\ E (c_raw (fst p)) (snd p)).
Proof.
  intros W' B f c w R E Hc H. unfold o_with_value. rewrite (has_ok c Hc). cbn [check].
  destruct (c_alive c) eqn:Ec; [|left; reflexivity]. specialize (H eq_refl).
  destruct (f (c_raw c) w) as [[r w']|[r w']| |]; cbn in *; auto.
  - destruct H as [H1 H2]. split; [reflexivity|]. split; [now apply inv_set|auto].
  - destruct H as [H1 H2]. split; [reflexivity|]. split; [now apply inv_set|auto].
Qed.

(** The contract for option<T>. *)
Hypothesis Q : quiet C S.
Let Qi := q_ctor _ _ Q.
Let Qc := q_cctor _ _ Q.
Let Qm := q_mctor _ _ Q.

Theorem opt_lawful : lawful (opt_cls C) (opt_sem C S).
Proof.
  constructor; cbn -[o_ctor o_cctor o_mctor o_asgn o_cassign o_massign o_self_cassign o_self_massign o_swap o_self_swap o_std_swap o_self_std_swap o_dtor].
  - intros i r w. eapply post_mono; [apply ctor_ok; intros; apply Qi| |auto]. cbn. intros p H. left. exact H.
  - intros s r w Hs. apply cctor_ok; [exact Qc|exact Hs].
  - intros s r w Hs. eapply post_mono; [apply mctor_ok; [exact Qm|exact Hs]| |]; cbn; intros p H; [exact H|]. split; apply H.
  - intros i r w Hr. eapply post_mono; [apply asgn_ok; [intros; apply Qi|exact Hr]| |]; cbn; intros p H; [left; exact H|]. split; apply H.
  - intros s r w Hs Hr. eapply post_mono; [apply cassign_ok; [exact Qc|assumption|assumption]| |]; cbn; intros p H; [exact H|]. split; apply H.
  - intros s r w Hs Hr. eapply post_mono; [apply massign_ok; [exact Qm|assumption|assumption]| |]; cbn; intros p H; [exact H|].
    split; [apply H|]. split; apply H.
  - intros r w Hr. eapply post_mono; [apply self_cassign_ok; assumption| |]; cbn; intros p H; [exact H|]. split; apply H.
  - intros r w Hr. eapply post_mono; [apply self_massign_ok; assumption| |]; cbn; intros p H; [exact H|]. split; apply H.
  - intros a b w Ha Hb. now apply std_swap_ok.
  - intros r w Hr. now apply self_std_swap_ok.
  - intros r w Hr. eapply post_mono; [apply dtor_ok; exact Hr| |intros p []]. cbn. intros p [_ H]. exact H.
  - intros l c Hl. destruct traits_spec as [[E Hm]|[E Hm]]; rewrite E in *; cbn.
    + rewrite (l_level _ _ L) by lia. unfold wsub. pose proof (l_max_bound _ _ L). unfold umax_base in *. lia.
    + unfold wsub. lia.
  - intros c Hm (H1 & H2 & H3). destruct traits_spec as [[E Hmm]|[E Hmm]]; rewrite E in *.
    + unfold wsub. pose proof (l_bound _ _ L (c_raw c)). pose proof (l_max_bound _ _ L). destruct (c_alive c) eqn:Ea.
      * pose proof (l_ok_level _ _ L _ Hmm (H1 eq_refl)). unfold umax_base in *. lia.
      * rewrite (H2 Hmm eq_refl). unfold umax_base in *. lia.
    + rewrite (H3 Hmm). destruct (c_alive c); unfold wsub; lia.
  - intros c. destruct traits_spec as [[E Hmm]|[E Hmm]]; rewrite E in *; unfold wsub, umax_base; lia.
  - pose proof (l_max_bound _ _ L). destruct traits_spec as [[E Hmm]|[E Hmm]]; rewrite E in *; unfold umax_base in *; lia.
  - exact (l_tcc_td _ _ L).
  - exact (l_tmc_td _ _ L).
  - discriminate.
  - intros c Htd Hi. now apply td_own.
  - intros [v|] Ht; cbn; [|exact I]. now apply (l_tmc_mv _ _ L).
  - intros [v|] Ht Ha; cbn; [|exact I]. apply andb_prop in Ha. destruct Ha as [E1 E2]. apply andb_prop in E2. apply (l_tma_selfmv _ _ L); [exact E1|apply E2].
  - discriminate.
  - discriminate.
Qed.

(** If T's constructors do not throw, neither do option<T>'s, and the contract nests. *)
Hypothesis N : steady C S.

Lemma construct_steady : forall W' (mk : raw C -> W' -> out (raw C * W')) c w p,
  (forall p, mk (c_raw c) w <> Exn p) -> o_construct C mk c w <> Exn p.
Proof.
  intros W' mk c w p H. unfold o_construct. destruct (_ && _)%bool; [discriminate|].
  destruct (mk (c_raw c) w) as [[r w']|[r w']| |] eqn:E; try discriminate; [|now destruct (H (r, w'))].
  destruct (traits C); [|discriminate]. cbn zeta. destruct (o_has C _) as [[|]| |]; discriminate.
Qed.

Lemma with_base_steady : forall W' dt (body : cell C -> W' -> out (cell C * W')) c w p,
  (forall c0 p, body c0 w <> Exn p) -> with_base C dt body c w <> Exn p.
Proof.
  intros W' dt body c w p H. unfold with_base. destruct (default_ok c) as (c0 & -> & _).
  destruct (body c0 w) as [q|q| |] eqn:E; try discriminate. now destruct (H c0 q).
Qed.

Theorem opt_steady : steady (opt_cls C) (opt_sem C S).
Proof.
  constructor; cbn -[o_ctor o_cctor o_mctor].
  - intros i c w p. destruct i as [|i|[i|]]; cbn [o_ctor].
    + destruct (default_ok c) as (c0 & -> & _). discriminate.
    + unfold o_inplace. destruct (ctor C i (c_raw c) w) as [[r w']|q| |] eqn:E; try discriminate.
      * destruct (traits C); [|discriminate]. cbn zeta. destruct (o_has C _) as [[|]| |]; discriminate.
      * now destruct (s_ctor _ _ N i (c_raw c) w q).
    + apply with_base_steady. intros c0 q. apply construct_steady. intros q'. apply (s_ctor _ _ N).
    + apply with_base_steady. discriminate.
  - intros s c w p Hs. unfold o_cctor. destruct (tcc C); [discriminate|]. apply with_base_steady. intros c0 q.
    change (check (o_has C s) (fun h => if h then if c_alive s then o_construct C (cctor C (c_raw s)) c0 w else Undef else Ret (c0, w)) <> Exn q).
    rewrite (has_ok s Hs). cbn [check]. destruct (c_alive s) eqn:Es; [|discriminate].
    apply construct_steady. intros q'. apply (s_cctor _ _ N). now apply Hs.
  - intros s c w p Hs. unfold o_mctor. destruct (tmc C); [discriminate|]. apply with_base_steady. intros c0 q.
    cbn [fst]. rewrite (has_ok s Hs). cbn [check]. destruct (c_alive s) eqn:Es; [|discriminate].
    apply construct_steady. intros [r' x]. unfold from_cell. rewrite Es.
    destruct (mctor C (c_raw c0) (c_raw s, w)) as [[r [s' w']]|[r [s' w']]| |] eqn:E; try discriminate.
    destruct (s_mctor _ _ N (c_raw s) (c_raw c0) w (r, (s', w')) (proj1 Hs Es) E).
Qed.

Lemma steady_quiet : quiet C S.
Proof.
  constructor.
  - intros i r w r' w' _ _ H. destruct (s_ctor _ _ N _ _ _ _ H).
  - intros s r w r' w' Hs _ _ H. destruct (s_cctor _ _ N _ _ _ _ Hs H).
  - intros s r w r' x Hs _ _ H. destruct (s_mctor _ _ N _ _ _ _ Hs H).
Qed.
End Facts.

(** Any nesting depth. *)
Theorem nest_lawful : forall W n (C : cls W) S, lawful C S -> steady C S ->
  lawful (nest_cls n C) (nest_sem n C S) /\ steady (nest_cls n C) (nest_sem n C S).
Proof.
  intros W n C S L N. induction n as [|n [IL IN]]; [now split|]. cbn [nest_cls nest_sem]. split.
  - apply opt_lawful; [exact IL|]. now apply steady_quiet.
  - now apply opt_steady.
Qed.
