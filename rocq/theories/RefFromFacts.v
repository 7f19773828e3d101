(** Proofs about options of references that are made from other options. *)
From Coq Require Import List Bool Arith.
From Verif Require Import RefBind RefBindSpec RefBindFacts RefFrom RefFromSpec.
Import ListNotations.

Lemma same_type_spec T o : same_type T o = true <-> same_option T o.
Proof.
  unfold same_type, same_option. destruct o as [k c [n|d n] r m y]; cbn.
  - destruct k, (r_rv T); cbn; rewrite ?andb_true_iff, ?eqb_true_iff, ?Nat.eqb_eq; split; intuition (try discriminate; try congruence).
  - destruct k; split; intuition discriminate.
Qed.
Lemma left_kin T o : is_left (o_held o) = negb (r_rv T) <-> kin T o.
Proof. unfold kin. destruct (o_held o), (r_rv T); cbn; intuition discriminate. Qed.
Lemma like_exact L T o : option_like L T o = true <->
  ~ same_option T o /\ ((kin T o /\ exists p, holds_a L T o p) \/ holds_wrapper T o).
Proof.
  unfold option_like. cbv zeta. rewrite andb_true_iff, orb_true_iff, negb_true_iff, wrapper_wraps, kind_fits, <- not_true_iff_false, same_type_spec.
  unfold wraps, holds_wrapper, fits, holds_a. cbn. rewrite <- left_kin. firstorder.
Qed.
Lemma ptr_wrapper L T o : holds_wrapper T o -> ref_to_ptr L T (got o) = Some (Referent []).
Proof.
  intros (C & c & E & K). assert (X : e_type (got o) = Wrapper c (r_type T)) by (unfold got; destruct (o_held o), (o_rvalue o); exact E).
  unfold ref_to_ptr. rewrite X. unfold derived. rewrite Nat.eqb_refl. apply implb_keeps in K. now rewrite K.
Qed.
Lemma got_plain o n : o_type o = Plain n -> e_type (got o) = Plain n.
Proof. intros E. unfold got. now destruct (o_held o), (o_rvalue o). Qed.
Lemma ptr_plain L T o p : kin T o -> holds_a L T o p ->
  ref_to_ptr L T (got o) = if r_rv T && negb (o_rvalue o) then None else Some (Part p).
Proof.
  intros K (n & E & I & C). destruct (r_rv T && negb (o_rvalue o)) eqn:R.
  - apply andb_true_iff in R. destruct R as [R V]. apply negb_true_iff in V.
    unfold ref_to_ptr. rewrite (got_plain _ _ E). unfold bind. rewrite (got_plain _ _ E).
    apply derived_lies in I. rewrite I, R.
    assert (X : e_lv (got o) = true) by (unfold got; rewrite V; now destruct (o_held o)). rewrite X. cbn. now rewrite andb_false_r.
  - apply fits_ptr. exists n. split; [exact (got_plain _ _ E)|]. split; [exact I|].
    unfold kin in K. unfold got. destruct (o_held o) eqn:H, (o_rvalue o), (r_rv T) eqn:X; cbn in *; try discriminate R;
      (split; [try exact C|reflexivity || idtac]); try (exfalso; intuition discriminate).
Qed.
Lemma not_both_held L T o p : holds_a L T o p -> holds_wrapper T o -> False.
Proof. intros (n & E & _) (_ & c & F & _). congruence. Qed.

(** Exactly what the constructor is bound to. *)
Theorem from_exact L T o g : from_option L T o = Some g <->
  ~ same_option T o /\
  ((kin T o /\ (r_rv T = true -> o_rvalue o = true) /\ exists p, holds_a L T o p /\ g = Part p) \/
   (holds_wrapper T o /\ g = Referent [])).
Proof.
  unfold from_option. destruct (option_like L T o) eqn:Q.
  - apply like_exact in Q. destruct Q as [S [(K & p & I)|W]].
    + rewrite (ptr_plain L T o p K I). split.
      * intros H. split; [exact S|]. left. split; [exact K|]. destruct (r_rv T), (o_rvalue o); cbn in H; try discriminate H;
          injection H as <-; (split; [intuition discriminate|now exists p]).
      * intros (_ & [(_ & R & q & J & ->)|(W & _)]); [|destruct (not_both_held _ _ _ _ I W)].
        assert (p = q) as ->.
        { destruct I as (n & E & I & _), J as (m & F & J & _). rewrite E in F. injection F as <-. exact (lies_once _ _ _ _ _ I J). }
        destruct (r_rv T); [now rewrite R|reflexivity].
    + rewrite (ptr_wrapper L T o W). split.
      * intros [= <-]. split; [exact S|]. right. now split.
      * intros (_ & [(_ & _ & q & J & _)|(_ & ->)]); [destruct (not_both_held _ _ _ _ J W)|reflexivity].
  - split; [discriminate|]. intros (S & H). assert (X : option_like L T o = true); [|congruence].
    apply like_exact. split; [exact S|]. destruct H as [(K & _ & p & I & _)|(W & _)]; [left; split; [exact K|now exists p]|now right].
Qed.
(** What the constraints accept compiles, unless T&& would have to be bound to an lvalue. *)
Theorem like_compiles L T o : option_like L T o = true ->
  (from_option L T o = None <-> r_rv T = true /\ o_rvalue o = false /\ exists n, o_type o = Plain n).
Proof.
  intros Q. unfold from_option. rewrite Q. apply like_exact in Q. destruct Q as [S [(K & p & I)|W]].
  - rewrite (ptr_plain L T o p K I). destruct I as (n & E & _). destruct (r_rv T), (o_rvalue o); cbn; split; intuition (try discriminate).
    now exists n.
  - rewrite (ptr_wrapper L T o W). destruct W as (_ & c & E & _). split; [discriminate|]. intros (_ & _ & n & F). congruence.
Qed.
Theorem from_lasting L T o g : from_option L T o = Some g -> outlives g.
Proof. intros H. apply from_exact in H. destruct H as (_ & [(_ & _ & p & _ & ->)|(_ & ->)]); discriminate. Qed.
(** An option<T&> never refers to something inside the other option. *)
Theorem from_outside L T o p : r_rv T = false -> from_option L T o = Some (Part p) -> o_held o = Left.
Proof. intros R H. apply from_exact in H. destruct H as (_ & [(K & _)|(_ & [=])]). now apply K. Qed.

Theorem assign_rvalue L T o : o_rvalue o = true -> assign_option L T o = from_option L T o.
Proof. intros R. unfold assign_option, from_option. now rewrite R. Qed.
Theorem assign_lvalue L T o g : o_rvalue o = false -> assign_option L T o = Some g -> g = Temporary.
Proof.
  intros R. unfold assign_option. rewrite R. destruct (option_like L T o), (new_option L o); try discriminate.
  destruct (ref_to_ptr L T _); [|discriminate]. now intros [= <-].
Qed.
(** It does not compile unless the referent can be made of an option<U>. *)
Theorem assign_lvalue_fails L T o : o_rvalue o = false -> l_makes L (Plain (o_number o)) (r_type T) = false ->
  unrelated L (o_number o) (r_type T) -> l_gives L (o_number o) (r_type T) = None -> assign_option L T o = None.
Proof.
  intros R M U G. unfold assign_option. rewrite R. destruct (option_like L T o); [|reflexivity]. destruct (new_option L o); [|reflexivity].
  unfold ref_to_ptr, bind. cbn [e_type]. apply derived_none in U. rewrite U, G, M. now destruct (r_rv T || r_const T).
Qed.
Theorem assign_lvalue_exact L T o g : o_rvalue o = false ->
  (assign_option L T o = Some g <-> g = Temporary /\ option_like L T o = true /\ remade L o /\
    exists g', bind L T (mkexpr false false (Plain (o_number o))) = Some g').
Proof.
  intros R. unfold assign_option. rewrite R. assert (N : new_option L o = true <-> remade L o).
  { unfold new_option, remade, is_option. destruct (o_held o); [| |split; [discriminate|intros [[[=] _]|[[=] _]]]].
    - split; [now left|]. now intros [[_ H]|[[=] _]].
    - destruct (o_type o) as [n|c n]; rewrite negb_true_iff; split.
      + intros H. right. split; [reflexivity|]. now intros m [= <-].
      + intros [[[=] _]|[_ H]]. now apply H.
      + intros _. right. split; [reflexivity|discriminate].
      + reflexivity. }
  destruct (option_like L T o); [|split; [discriminate|intros (_ & [=] & _)]].
  destruct (new_option L o); [|split; [discriminate|]; intros (_ & _ & M & _); apply N in M; discriminate].
  change (ref_to_ptr L T (mkexpr false false (Plain (o_number o)))) with (bind L T (mkexpr false false (Plain (o_number o)))).
  destruct (bind L T _) as [x|]; cbn.
  - split; [|intros (-> & _); reflexivity]. intros [= <-]. split; [reflexivity|]. split; [reflexivity|]. split; [now apply N|now exists x].
  - split; [discriminate|]. intros (_ & _ & _ & x & [=]).
Qed.
