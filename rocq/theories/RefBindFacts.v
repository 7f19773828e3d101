(** Proofs about what options of references are bound to. *)
From Coq Require Import List Bool Arith.
From Verif Require Import RefBind RefBindSpec.
Import ListNotations.

Lemma derived_lies L n t p : derived L n t = Some p <-> lies L n t p.
Proof.
  unfold derived. destruct (Nat.eqb_spec n t) as [->|N]; split.
  - intros H. injection H as <-. constructor.
  - inversion 1; subst; [reflexivity|congruence].
  - intros H. now constructor.
  - inversion 1; subst; congruence.
Qed.
Lemma derived_none L n t : derived L n t = None <-> unrelated L n t.
Proof. unfold derived, unrelated. destruct (Nat.eqb_spec n t) as [->|N]; split; intros H; try discriminate; intuition. Qed.
Lemma implb_keeps a b : implb a b = true <-> keeps a b.
Proof. unfold keeps. destruct a, b; cbn; intuition discriminate. Qed.
Lemma lies_once L n t p q : lies L n t p -> lies L n t q -> p = q.
Proof. rewrite <- !derived_lies. congruence. Qed.

Lemma kind_fits L T e : same_kind L T e = true <-> exists p, fits L T e p.
Proof.
  unfold same_kind, fits. destruct (e_type e) as [n|c n].
  - destruct (derived L n (r_type T)) as [p|] eqn:D.
    + rewrite andb_true_iff, implb_keeps. split.
      * intros [K E]. apply Bool.eqb_prop in E. exists p, n. rewrite <- derived_lies. auto.
      * intros (q & m & [= <-] & _ & K & ->). split; [exact K|apply Bool.eqb_reflx].
    + split; [discriminate|]. intros (q & m & [= <-] & Q & _). apply derived_lies in Q. congruence.
  - split; [discriminate|]. intros (q & m & H & _). discriminate.
Qed.
Lemma wrapper_wraps T e : same_wrapper T e = true <-> wraps T e.
Proof.
  unfold same_wrapper, wraps. destruct (e_type e) as [n|c n].
  - split; [discriminate|]. intros (_ & c & H & _). discriminate.
  - split.
    + intros H. apply andb_prop in H. destruct H as [H H3]. apply andb_prop in H. destruct H as [H1 H2].
      apply Nat.eqb_eq in H2. subst n. split; [now apply negb_true_iff|]. exists c. split; [reflexivity|].
      intros ->. destruct (r_const T); [reflexivity|discriminate H3].
    + intros (-> & c' & [= <- ->] & K). rewrite Nat.eqb_refl. cbn [negb andb].
      destruct c, (r_const T); try reflexivity. now specialize (K eq_refl).
Qed.

Lemma fits_ptr L T e p : fits L T e p -> ref_to_ptr L T e = Some (Part p).
Proof.
  intros (n & E & D & K & V). apply derived_lies in D. apply implb_keeps in K.
  unfold ref_to_ptr, bind. rewrite E, D, K, V. destruct (r_rv T); reflexivity.
Qed.
Lemma wraps_ptr L T e : wraps T e -> ref_to_ptr L T e = Some (Referent []).
Proof.
  intros (_ & c & E & K). apply implb_keeps in K. unfold ref_to_ptr, derived. now rewrite E, Nat.eqb_refl, K.
Qed.
Lemma not_both L T e p : fits L T e p -> wraps T e -> False.
Proof. intros (n & E & _) (_ & c & E' & _). congruence. Qed.

Theorem value_exact L T e g : bound L Value T e = Some g <->
  is_option L (e_type e) = false /\ ((exists p, fits L T e p /\ g = Part p) \/ (wraps T e /\ g = Referent [])).
Proof.
  cbn [bound]. unfold from_value_ctor. destruct (is_option L (e_type e)); cbn [negb andb]; [split; [discriminate|intros [H _]; discriminate]|].
  destruct (same_wrapper T e) eqn:W; cbn [orb].
  - apply wrapper_wraps in W. rewrite (wraps_ptr L T e W). split.
    + intros [= <-]. split; [reflexivity|]. right. auto.
    + intros [_ [(p & F & _)|[_ ->]]]; [destruct (not_both _ _ _ _ F W)|reflexivity].
  - destruct (same_kind L T e) eqn:K.
    + apply kind_fits in K. destruct K as [p F]. rewrite (fits_ptr _ _ _ _ F). split.
      * intros [= <-]. split; [reflexivity|]. left. eauto.
      * intros [_ [(q & F' & ->)|[W' _]]]; [|apply wrapper_wraps in W'; congruence].
        apply fits_ptr in F, F'. congruence.
    + split; [discriminate|]. intros [_ [(p & F & _)|[W' _]]].
      * assert (same_kind L T e = true) by (apply kind_fits; eauto). congruence.
      * apply wrapper_wraps in W'. congruence.
Qed.
Theorem assign_exact L T e g : bound L Assign T e = Some g <->
  is_self L (e_type e) = false /\ ((exists p, fits L T e p /\ g = Part p) \/ (wraps T e /\ g = Referent [])).
Proof.
  cbn [bound]. unfold from_value_assign. destruct (is_self L (e_type e)); cbn [negb andb]; [split; [discriminate|intros [H _]; discriminate]|].
  destruct (same_wrapper T e) eqn:W; cbn [orb].
  - apply wrapper_wraps in W. rewrite (wraps_ptr L T e W). split.
    + intros [= <-]. split; [reflexivity|]. right. auto.
    + intros [_ [(p & F & _)|[_ ->]]]; [destruct (not_both _ _ _ _ F W)|reflexivity].
  - destruct (same_kind L T e) eqn:K.
    + apply kind_fits in K. destruct K as [p F]. rewrite (fits_ptr _ _ _ _ F). split.
      * intros [= <-]. split; [reflexivity|]. left. eauto.
      * intros [_ [(q & F' & ->)|[W' _]]]; [|apply wrapper_wraps in W'; congruence].
        apply fits_ptr in F, F'. congruence.
    + split; [discriminate|]. intros [_ [(p & F & _)|[W' _]]].
      * assert (same_kind L T e = true) by (apply kind_fits; eauto). congruence.
      * apply wrapper_wraps in W'. congruence.
Qed.

(** No enabled call fails to compile inside. *)
Theorem enabled_compiles L T e :
  (from_value_ctor L T e = true -> bound L Value T e <> None) /\
  (from_value_assign L T e = true -> bound L Assign T e <> None).
Proof.
  assert (P : same_wrapper T e || same_kind L T e = true -> ref_to_ptr L T e <> None).
  { intros H. apply orb_prop in H. destruct H as [H|H].
    - apply wrapper_wraps in H. rewrite (wraps_ptr L T e H). discriminate.
    - apply kind_fits in H. destruct H as [p H]. rewrite (fits_ptr _ _ _ _ H). discriminate. }
  split; intros H; cbn [bound]; rewrite H; unfold from_value_ctor, from_value_assign in H;
    apply andb_prop in H; destruct H as [_ H]; now apply P.
Qed.

Theorem lasting L w T e g : w = Value \/ w = Assign -> bound L w T e = Some g -> outlives g.
Proof.
  intros [->| ->] H; [apply value_exact in H|apply assign_exact in H];
    destruct H as [_ [(p & _ & ->)|[_ ->]]]; discriminate.
Qed.

(** Binding as the language does it. *)
Theorem like_language L w T e g : w = Value \/ w = Assign -> r_rv T = false -> bound L w T e = Some g -> bind L T e = Some g.
Proof.
  intros W R H. assert (C : (exists p, fits L T e p /\ g = Part p) \/ (wraps T e /\ g = Referent [])).
  { destruct W as [->| ->]; [apply value_exact in H|apply assign_exact in H]; tauto. }
  destruct C as [(p & F & ->)|[(_ & c & E & K) ->]].
  - pose proof (fits_ptr _ _ _ _ F) as P. destruct F as (n & E & _). unfold ref_to_ptr in P. now rewrite E in P.
  - unfold bind, derived. apply implb_keeps in K. now rewrite E, Nat.eqb_refl, R, K.
Qed.
Theorem like_language_rvalue L w T e g : w = Value \/ w = Assign -> r_rv T = true -> bound L w T e = Some g ->
  bind L T e = (match e_type e with Plain _ => Some g | Wrapper _ _ => None end).
Proof.
  intros W R H. assert (C : (exists p, fits L T e p /\ g = Part p) \/ (wraps T e /\ g = Referent [])).
  { destruct W as [->| ->]; [apply value_exact in H|apply assign_exact in H]; tauto. }
  destruct C as [(p & F & ->)|[(_ & c & E & K) ->]].
  - pose proof (fits_ptr _ _ _ _ F) as P. destruct F as (n & E & _). unfold ref_to_ptr in P. rewrite E in P |- *. exact P.
  - unfold bind, derived. now rewrite E, Nat.eqb_refl, R.
Qed.

(** Calls without constraint. *)
Theorem in_place_exact L w T e g : w = InPlace \/ w = Emplace -> bound L w T e = Some g <->
  (exists n p, e_type e = Plain n /\ lies L n (r_type T) p /\ keeps (e_const e) (r_const T) /\ g = Part p /\
     (if r_rv T then e_lv e = false else e_lv e = true \/ r_const T = true)) \/
  (exists c n p, e_type e = Wrapper c n /\ lies L n (r_type T) p /\ keeps c (r_const T) /\ g = Referent p) \/
  (exists n c, e_type e = Plain n /\ unrelated L n (r_type T) /\ l_gives L n (r_type T) = Some c /\ r_rv T = false /\
     keeps c (r_const T) /\ g = Given) \/
  (exists n, e_type e = Plain n /\ unrelated L n (r_type T) /\ l_gives L n (r_type T) = None /\
     (r_rv T = true \/ r_const T = true) /\ l_makes L (e_type e) (r_type T) = true /\ g = Temporary).
Proof.
  intros W. assert (B : bound L w T e = ref_to_ptr L T e) by (destruct W as [->| ->]; reflexivity). rewrite B. clear W B.
  unfold ref_to_ptr, bind. destruct (e_type e) as [n|c n] eqn:E.
  - destruct (derived L n (r_type T)) as [p|] eqn:D.
    + apply derived_lies in D. split.
      * intros H. left. exists n, p. destruct (implb (e_const e) (r_const T)) eqn:K; [|discriminate].
        apply implb_keeps in K. cbn [andb] in H. destruct (r_rv T), (e_lv e), (r_const T); try discriminate H; injection H as <-; auto 8.
      * intros [(m & q & [= <-] & Q & K & -> & V)|[(c & m & q & ? & _)|[(m & c & [= <-] & U & _)|(m & [= <-] & U & _)]]].
        -- apply implb_keeps in K. rewrite K, (lies_once _ _ _ _ _ D Q).
           destruct (r_rv T); [rewrite V; reflexivity|]. destruct V as [-> | ->]; cbn; rewrite ?orb_true_r; reflexivity.
        -- discriminate.
        -- apply derived_none in U. apply derived_lies in D. congruence.
        -- apply derived_none in U. apply derived_lies in D. congruence.
    + pose proof D as U. apply derived_none in U. destruct (l_gives L n (r_type T)) as [c|] eqn:G.
      * split.
        -- intros H. right; right; left. exists n, c. destruct (r_rv T); [discriminate|]. cbn [negb andb] in H.
           destruct (implb c (r_const T)) eqn:K; [|discriminate]. apply implb_keeps in K. injection H as <-. auto 8.
        -- intros [(m & q & [= <-] & Q & _)|[(c' & m & q & ? & _)|[(m & c' & [= <-] & _ & G' & R & K & ->)|(m & [= <-] & _ & G' & _)]]].
           ++ apply derived_lies in Q. congruence.
           ++ discriminate.
           ++ rewrite G' in G. injection G as <-. apply implb_keeps in K. now rewrite R, K.
           ++ congruence.
      * split.
        -- intros H. right; right; right. exists n. destruct (r_rv T || r_const T) eqn:R; [|discriminate].
           apply orb_prop in R. destruct (l_makes L (Plain n) (r_type T)) eqn:M; [|discriminate]. injection H as <-. auto 8.
        -- intros [(m & q & [= <-] & Q & _)|[(c' & m & q & ? & _)|[(m & c' & [= <-] & _ & G' & _)|(m & [= <-] & _ & _ & R & M & ->)]]].
           ++ apply derived_lies in Q. congruence.
           ++ discriminate.
           ++ congruence.
           ++ rewrite M. now destruct R as [-> | ->]; rewrite ?orb_true_r.
  - destruct (derived L n (r_type T)) as [p|] eqn:D.
    + apply derived_lies in D. split.
      * intros H. right; left. exists c, n, p. destruct (implb c (r_const T)) eqn:K; [|discriminate]. injection H as <-.
        apply implb_keeps in K. auto.
      * intros [(m & q & ? & _)|[(c' & m & q & [= <- <-] & Q & K & ->)|[(m & c' & ? & _)|(m & ? & _)]]]; try discriminate.
        apply implb_keeps in K. now rewrite K, (lies_once _ _ _ _ _ D Q).
    + split; [discriminate|].
      intros [(m & q & ? & _)|[(c' & m & q & [= <- <-] & Q & _)|[(m & c' & ? & _)|(m & ? & _)]]]; try discriminate.
      apply derived_lies in Q. congruence.
Qed.

(** Functions: what they return as a reference is bound like an argument, and a temporary is made in the same cases. *)
Theorem invoke_exact L pr T e g : bound L (Invoke pr) T e = Some g <->
  bound L InPlace T e = Some g /\ (pr = true -> e_const e = false /\ exists c n, e_type e = Wrapper c n).
Proof.
  cbn [bound]. destruct pr; cbn [negb orb].
  - destruct (e_type e) as [n|c n]; [split; [discriminate|]; intros [_ H]; destruct (H eq_refl) as [_ (c & m & E)]; discriminate|].
    destruct (e_const e); cbn [negb].
    + split; [discriminate|]. intros [_ H]. destruct (H eq_refl) as [E _]. discriminate.
    + split; [|tauto]. intros H. split; [exact H|]. intros _. split; eauto.
  - split; [|tauto]. intros H. split; [exact H|discriminate].
Qed.
Theorem invoke_same L T e : e_type e = Plain (r_type T) -> r_const T = e_const e -> e_lv e = negb (r_rv T) -> bound L (Invoke false) T e = Some (Part []).
Proof.
  intros E C V. cbn [bound negb orb]. apply fits_ptr. exists (r_type T). split; [exact E|]. split; [constructor|].
  split; [|exact V]. unfold keeps. congruence.
Qed.
