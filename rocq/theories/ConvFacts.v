(** Conversions between options of different classes. *)
From Coq Require Import NArith ZArith Bool List Lia ZifyBool ZifyN.
From Verif Require Import Outcome Words Lifetime LifetimeSpec LifetimeFacts Api ApiSpec ApiFacts ApiLaws.
Import ListNotations.
Open Scope N_scope.

Section Conv.
Context {W : Type} (C D : cls W) (S : sem C) (T : sem D).
Hypothesis L : lawful C S.
Hypothesis LD : lawful D T.
Hypothesis Same : forall w, cnt T w = cnt S w.

(** Construction in an empty option from the contained object of another. *)
Lemma conv_construct_ok : forall mk R d c w, attempts S T mk R -> quiet_conv S mk ->
  inv D T d -> c_alive d = false -> inv C S c -> c_alive c = true ->
  post (stops S \/ stops T) (o_construct D (with_get C mk) d (c, w))
    (fun p => inv D T (fst p) /\ c_alive (fst p) = true /\ inv C S (fst (snd p)) /\ c_alive (fst (snd p)) = true /\
       R (val S (c_raw c)) (val T (c_raw (fst p))) (val S (c_raw (fst (snd p)))) /\
       (cnt S (snd (snd p)) + oown C S c = cnt S w + oown D T (fst p) + oown C S (fst (snd p)))%Z)
    (fun p => inv D T (fst p) /\ c_alive (fst p) = false /\ inv C S (fst (snd p)) /\ c_alive (fst (snd p)) = true /\
       (cnt S (snd (snd p)) + oown C S c = cnt S w + oown C S (fst (snd p)))%Z).
Proof.
  intros mk R d c w Hm Hq Hd Hda Hi Ha. unfold o_construct. rewrite Hda. cbn [andb].
  rewrite (with_get_alive C S L) by assumption. rewrite (oown_alive C S c Ha).
  pose proof (Hm (c_raw d) (c_raw c) w (proj1 Hi Ha)) as H.
  destruct (mk (c_raw d) (c_raw c, w)) as [(x & r & w')|(x & r & w')| |] eqn:Em; cbn [post fst snd] in *; auto.
  - destruct (traits_spec D) as [[Ht Hx]|[Ht Hx]]; rewrite Ht.
    + destruct H as [(H1 & H2 & H3 & H4)|[Hst [_ Hn]]].
      * assert (Hi1 : inv D T (mkcell x (c_flag d) true)) by (apply inv_alive; [exact H1|lia]).
        cbn zeta. rewrite (has_ok D T LD _ Hi1). cbn. split; [exact Hi1|]. split; [reflexivity|].
        split; [now apply (inv_set C S)|auto].
      * unfold o_has. cbn. rewrite Ht, Hn. cbn. auto.
    + destruct H as [(H1 & H2 & H3 & H4)|[_ [Hn _]]]; [|lia]. cbn.
      split; [apply inv_alive; auto|]. split; [reflexivity|]. split; [now apply (inv_set C S)|auto].
  - destruct H as (H1 & H2). split; [|split; [reflexivity|split; [now apply (inv_set C S)|auto]]].
    destruct Hd as (_ & D2 & D3). split; [|split]; cbn; try discriminate.
    + intros Hx _. rewrite (Hq _ _ _ _ _ (proj1 Hi Ha) Hx (eq_ind_r (fun z => z < lmax D) Hx (D2 Hx Hda)) Em). auto.
    + intros Hx. now rewrite (D3 Hx), Hda.
Qed.

Lemma lift_dtor_dead : forall (d : cell D) (q : cell C * W), inv D T d -> c_alive d = false ->
  post (stops S \/ stops T) (lift (o_dtor D) d q)
    (fun p => fst (snd p) = fst q /\ cnt S (snd (snd p)) = cnt S (snd q)) (fun _ => False).
Proof.
  intros d q Hd Ha. unfold lift. pose proof (dtor_ok D T LD d (snd q) Hd) as H.
  destruct (o_dtor D d (snd q)) as [[x w']|[x w']| |]; cbn in *; auto; rewrite ?Same, ?(dead_own D T d Ha) in H.
  split; [reflexivity|lia].
Qed.

(** Converting construction. *)
Lemma conv_ctor_ok : forall mk R d c w, attempts S T mk R -> quiet_conv S mk -> inv C S c ->
  post (stops S \/ stops T) (a_conv_ctor C D mk d (c, w))
    (fun p => inv D T (fst p) /\ inv C S (fst (snd p)) /\
       match oval C S c with
       | None => oval D T (fst p) = None /\ snd p = (c, w)
       | Some v => exists u v', R v u v' /\ oval D T (fst p) = Some u /\ oval C S (fst (snd p)) = Some v'
       end /\
       (cnt S (snd (snd p)) + oown C S c = cnt S w + oown D T (fst p) + oown C S (fst (snd p)))%Z)
    (fun p => inv C S (fst (snd p)) /\ c_alive c = true /\ c_alive (fst (snd p)) = true /\
       (cnt S (snd (snd p)) + oown C S c = cnt S w + oown C S (fst (snd p)))%Z).
Proof.
  intros mk R d c w Hm Hq Hi. unfold a_conv_ctor, with_base.
  destruct (default_ok D T LD d) as (d0 & -> & Hd0 & Ha0). cbn [fst]. rewrite (has_ok C S L c Hi). cbn [check].
  destruct (c_alive c) eqn:Ha.
  - rewrite (oval_alive C S c Ha). pose proof (conv_construct_ok mk R d0 c w Hm Hq Hd0 Ha0 Hi Ha) as H.
    destruct (o_construct D (with_get C mk) d0 (c, w)) as [p|[d1 q]| |]; cbn [post fst snd] in *; auto.
    + destruct H as (H1 & H2 & H3 & H4 & H5 & H6). rewrite (oval_alive D T _ H2), (oval_alive C S _ H4). eauto 12.
    + destruct H as (H1 & H2 & H3 & H4 & H5). pose proof (lift_dtor_dead d1 q H1 H2) as H.
      destruct (lift (o_dtor D) d1 q) as [p|p| |]; cbn in *; auto; try contradiction.
      destruct H as (-> & ->). auto.
  - rewrite (oval_dead C S c Ha). cbn. rewrite (oval_dead D T d0 Ha0), (dead_own D T d0 Ha0), (dead_own C S c Ha).
    split; [exact Hd0|]. split; [exact Hi|]. split; [auto|lia].
Qed.

(** Converting assignment. *)
Lemma conv_assign_ok : forall mk asg R d c w, attempts S T mk R -> quiet_conv S mk -> assigns S T asg R ->
  inv D T d -> inv C S c ->
  post (stops S \/ stops T) (a_conv_assign C D mk asg d (c, w))
    (fun p => inv D T (fst p) /\ inv C S (fst (snd p)) /\
       match oval C S c with
       | None => oval D T (fst p) = None /\ fst (snd p) = c
       | Some v => exists u v', R v u v' /\ oval D T (fst p) = Some u /\ oval C S (fst (snd p)) = Some v'
       end /\
       (cnt S (snd (snd p)) + oown D T d + oown C S c = cnt S w + oown D T (fst p) + oown C S (fst (snd p)))%Z)
    (fun p => inv D T (fst p) /\ inv C S (fst (snd p)) /\ c_alive c = true /\ c_alive (fst (snd p)) = true /\
       c_alive (fst p) = c_alive d /\
       (cnt S (snd (snd p)) + oown D T d + oown C S c = cnt S w + oown D T (fst p) + oown C S (fst (snd p)))%Z).
Proof.
  intros mk asg R d c w Hm Hq Hs Hd Hi. unfold a_conv_assign. cbn [fst].
  rewrite (has_ok C S L c Hi), (has_ok D T LD d Hd). cbn [check].
  destruct (c_alive c) eqn:Ha; [destruct (c_alive d) eqn:Hda|].
  - rewrite (oval_alive C S c Ha), (oown_alive C S c Ha), (oown_alive D T d Hda). unfold o_assign_value. rewrite Hda.
    rewrite (with_get_alive C S L) by assumption.
    pose proof (Hs (c_raw d) (c_raw c) w (proj1 Hd Hda) (proj1 Hi Ha)) as H.
    destruct (asg (c_raw d) (c_raw c, w)) as [(x & r & w')|(x & r & w')| |]; cbn [post fst snd] in *; auto.
    + destruct H as [(H1 & H2 & H3 & H4)|[Hst [Hx Hn]]].
      * assert (Hi1 : inv D T (mkcell x (c_flag d) true)) by (now apply (inv_set D T)).
        cbn zeta. rewrite (has_ok D T LD _ Hi1). cbn. split; [exact Hi1|]. split; [now apply (inv_set C S)|].
        split; [eauto 8|exact H4].
      * unfold o_has. cbn zeta. cbn [c_raw]. destruct (traits_spec D) as [[Ht _]|[_ Hz]]; [|lia]. rewrite Ht, Hn. cbn. auto.
    + destruct H as (H1 & H2 & H3). split; [now apply (inv_set D T)|]. split; [now apply (inv_set C S)|auto].
  - rewrite (oval_alive C S c Ha), (dead_own D T d Hda).
    pose proof (conv_construct_ok mk R d c w Hm Hq Hd Hda Hi Ha) as H. eapply post_mono; [exact H| |].
    + cbn. intros p (H1 & H2 & H3 & H4 & H5 & H6). rewrite (oval_alive D T _ H2), (oval_alive C S _ H4).
      split; [exact H1|]. split; [exact H3|]. split; [eauto 8|lia].
    + cbn. intros p (H1 & H2 & H3 & H4 & H5). rewrite (dead_own D T _ H2). repeat split; auto; try apply H1; try apply H3. lia.
  - rewrite (oval_dead C S c Ha), (dead_own C S c Ha). unfold lift. cbn [snd fst].
    pose proof (reset_ok D T LD d w Hd) as H.
    destruct (o_reset D d w) as [[d' w']|[d' w']| |]; cbn in *; auto; try contradiction.
    rewrite !Same in H. destruct H as (H1 & H2 & H3).
    rewrite (oval_dead D T d' H2), (dead_own D T d' H2), (dead_own C S c Ha).
    split; [exact H1|]. split; [exact Hi|]. split; [auto|lia].
Qed.

(** The conversion runs once, on the contained object, iff there is one. *)
Lemma conv_ctor_calls : forall d c w, inv C S c ->
  (c_alive c = true -> exists d0, o_default D d = Ret d0 /\ forall mk mk',
     mk (c_raw d0) (c_raw c, w) = mk' (c_raw d0) (c_raw c, w) ->
     a_conv_ctor C D mk d (c, w) = a_conv_ctor C D mk' d (c, w)) /\
  (c_alive c = false -> never_calls (fun mk => a_conv_ctor C D mk d (c, w))).
Proof.
  intros d c w Hi. unfold a_conv_ctor, with_base. destruct (default_ok D T LD d) as (d0 & -> & Hd0 & Ha0).
  cbn [fst]. rewrite (has_ok C S L c Hi). split; intros Ha; rewrite Ha; cbn [check].
  - exists d0. split; [reflexivity|]. intros mk mk' E. unfold o_construct. rewrite Ha0. cbn [andb].
    rewrite !(with_get_alive C S L) by assumption. now rewrite E.
  - intros mk mk'. reflexivity.
Qed.
End Conv.
