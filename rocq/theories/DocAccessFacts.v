(** The functions of DocAccess.v do what their code equivalents say. *)
From Coq Require Import NArith ZArith List Bool String Lia ZifyBool ZifyNat ZifyN.
From Verif Require Import Outcome Lifetime LifetimeSpec LifetimeFacts Api Observe Lookup RefOpt DocLang DocSnippets DocSource DocSpec
  DocFacts DocMembers DocNest DocAccess DocAccessSpec.
Import ListNotations.
Open Scope N_scope.

Lemma text_access : forall W (A : dcls W),
  (forall c i, lines (value_or A c i) = doc_707) /\ (forall c i, lines (value_or_construct A c i) = doc_733) /\
  lines from_nullable = doc_1219 /\ lines (swap_function A) = doc_1285 /\
  (forall i, lines (DocAccess.get_index A i) = doc_1308) /\ (forall i, lines (DocAccess.get_type A i) = doc_1332) /\
  (forall i, lines (variant_index i) = doc_1357) /\ (forall i, lines (variant_type i) = doc_1383) /\
  (forall X i, lines (at_index (X := X) i) = doc_1477) /\ (forall X, lines (DocAccess.at_front (X := X)) = doc_1516) /\
  (forall X, lines (DocAccess.at_back (X := X)) = doc_1545) /\ lines (flatten2 A) = doc_1580 /\
  (forall X K (f : list X -> K -> N) k, lines (lookup_map f k) = doc_1677) /\
  (forall X K (f : list X -> K -> N) k, lines (lookup_set f k) = doc_1686) /\
  (forall h d, lines (hash_function A h d) = doc_2132).
Proof. intros W A. repeat (split; [ try reflexivity; intros [ | ]; reflexivity | ]). reflexivity. Qed.

Section Sequences.
Context {X : Type}.
Implicit Types c : list X.

Lemma at_rel : forall c i, reads c (at_ c i) (returned (exec (at_index i) c)).
Proof.
  intros c i. unfold at_, subscript, Lookup.size. cbn. unfold DocAccess.size. destruct (N.of_nat (List.length c) <=? i) eqn:E; cbn; [ auto | ].
  destruct (i <? N.of_nat (List.length c)) eqn:F; [ | lia ]. cbn.
  destruct (nth_error c (N.to_nat i)) eqn:G; [ cbn; auto | ]. apply nth_error_None in G. lia.
Qed.
Lemma front_rel : forall c, reads c (Lookup.at_front c) (returned (exec DocAccess.at_front c)).
Proof. intros [ | x c]; cbn; auto. Qed.
Lemma back_rel : forall c, reads c (Lookup.at_back c) (returned (exec DocAccess.at_back c)).
Proof.
  intros [ | e c]; [ cbn; auto | ]. unfold Lookup.at_back, back, Lookup.size. cbn [List.length].
  replace (N.of_nat (S (List.length c)) =? 0) with false by lia. cbn -[N.sub N.of_nat].
  split; [ | reflexivity ]. f_equal. unfold DocAccess.size. lia.
Qed.
Lemma lookup_rel : forall K (find : list X -> K -> N) c k it, find c k <= N.of_nat (List.length c) ->
  reads (c, find c k) (lookup find c k) (returned (exec (lookup_map find k) (c, it))) /\
  reads (c, find c k) (lookup find c k) (returned (exec (lookup_set find k) (c, it))).
Proof.
  intros K find c k it H. unfold lookup, entry, Lookup.size, lookup_map, lookup_set. cbn. unfold DocAccess.size.
  destruct (find c k =? N.of_nat (List.length c)) eqn:E; cbn; [ auto | ].
  destruct (find c k <? N.of_nat (List.length c)) eqn:F; [ | lia ]. cbn.
  destruct (nth_error c (N.to_nat (find c k))) eqn:G; [ cbn; auto | ]. apply nth_error_None in G. lia.
Qed.
End Sequences.

Lemma nullable_rel : forall p o, is_pointer p o ->
  exists r, returned (exec from_nullable o) = Got r o /\ is_pointer (r_from_nullable p) r.
Proof.
  intros p [a | ] H; cbn in H |- *; unfold id.
  - destruct H as [-> H]. exists (Some a). split; [ reflexivity | ]. unfold r_from_nullable. replace (a =? nullptr) with false by (unfold nullptr; lia).
    now split.
  - subst p. exists None. split; reflexivity.
Qed.

Lemma variant_rel : forall n i v p, (i < n)%nat ->
  exists r q, variant_get n i v = Ret r /\ returned (exec (variant_index i) (v, p)) = Got r (v, q) /\
    returned (exec (variant_type i) (v, p)) = Got r (v, q).
Proof.
  intros n i v p H. unfold variant_get, get_if. replace (Nat.ltb i n) with true by (symmetry; now apply Nat.ltb_lt).
  destruct v as [j | ]; cbn; [ destruct (Nat.eqb i j); cbn | ]; eauto.
Qed.

Lemma count_none : forall t ts, (forall j, nth_error ts j <> Some t) -> count_occ PeanoNat.Nat.eq_dec ts t = 0%nat.
Proof.
  intros t ts H. apply count_occ_not_In. intros F. apply In_nth_error in F. destruct F as [j F]. exact (H j F).
Qed.
Lemma only_index : forall t ts i, only_at t ts i -> type_index t ts = Some i.
Proof.
  intros t ts. unfold type_index. induction ts as [ | u ts IH]; intros i [H1 H2]; [ destruct i; discriminate | ].
  cbn [count_occ find_type]. destruct (PeanoNat.Nat.eq_dec u t) as [-> | N].
  - rewrite Nat.eqb_refl. pose proof (H2 0%nat eq_refl) as E0. subst i. rewrite count_none; [ reflexivity | ].
    intros j Hj. discriminate (H2 (S j) Hj).
  - replace (Nat.eqb t u) with false by (symmetry; apply Nat.eqb_neq; congruence).
    destruct i as [ | i]; [ cbn in H1; congruence | ].
    assert (O : only_at t ts i). { split; [ exact H1 | ]. intros j Hj. specialize (H2 (S j) Hj). lia. }
    specialize (IH i O). destruct (Nat.eqb (count_occ PeanoNat.Nat.eq_dec ts t) 1); [ | discriminate ]. now rewrite IH.
Qed.

Section One.
Context {W : Type} (C : cls W) (S : sem C) (A : dcls W) (R : raw C -> obj A -> Prop) (I : init C -> darg A -> Prop).
Hypothesis L : lawful C S.
Notation orel := (orel S R).
Notation srel := (srel C S A R).

Lemma operand_some : forall B c x (k : raw C -> out B), orel c (Some x) -> operand c k = k (c_raw c) /\ R (c_raw c) x.
Proof.
  intros B c x k H. unfold operand, a_get. rewrite (orel_has C S A R L _ _ H). cbn [check]. rewrite (orel_alive C S A R _ _ H). cbn.
  split; [ reflexivity | ]. apply H.
Qed.

Lemma get_index_rel : forall n i c o, (i < n)%nat -> orel c o ->
  exists r, Lookup.get_index n i c = Ret r /\ returned (exec (DocAccess.get_index A i) o) = Got r o.
Proof.
  intros n i c o H Hc. unfold Lookup.get_index. replace (Nat.ltb i n) with true by (symmetry; now apply Nat.ltb_lt).
  rewrite (orel_has C S A R L _ _ Hc). cbn [check]. destruct o as [x | ].
  - rewrite (proj1 (operand_some _ c x _ Hc)). cbn. eauto.
  - cbn. eauto.
Qed.
Lemma get_type_rel : forall t ts i c o, only_at t ts i -> orel c o ->
  exists r, Lookup.get_type t ts c = Ret r /\ returned (exec (DocAccess.get_type A i) o) = Got r o.
Proof.
  intros t ts i c o H Hc. unfold Lookup.get_type. rewrite (only_index t ts i H).
  assert (B : (i < List.length ts)%nat) by (apply nth_error_Some; rewrite (proj1 H); discriminate).
  destruct (get_index_rel (List.length ts) i c o B Hc) as (r & H1 & H2). exists r. split; [ exact H1 | ]. exact H2.
Qed.

Lemma hash_rel : forall h k c o,
  (forall r x, R r x -> agree (fun n m _ => n = m) (fun _ _ => True) (h r) (k x)) -> orel c o ->
  agree (fun n m q => n = m /\ q = o) (fun _ q => q = o) (c_hash h c) (returned (exec (hash_function A k 0) o)).
Proof.
  intros h k c o H Hc. unfold c_hash. rewrite (orel_has C S A R L _ _ Hc). cbn [check]. destruct o as [x | ].
  - destruct (operand_some _ c x h Hc) as [-> Hr]. specialize (H _ _ Hr). cbn.
    destruct (h (c_raw c)) as [n | n | | ], (k x) as [m q | q | | ]; cbn in *; auto; contradiction.
  - cbn. auto.
Qed.

Hypothesis Q : quiet C S.
Hypothesis M : same C S A R I.

Lemma value_or_rel : forall p i j r c t w, I i j -> orel c t ->
  agree (fun p y q => R (fst p) y /\ srel (snd p) q) (fun p q => srel (snd p) q)
    (a_value_or C p i r (c, w)) (returned (exec (value_or A (category_of p) j) (t, w))) /\
  agree (fun p y q => R (fst p) y /\ srel (snd p) q) (fun p q => srel (snd p) q)
    (a_value_or C p i r (c, w)) (returned (exec (value_or_construct A (category_of p) j) (t, w))).
Proof.
  intros p i j r c t w Hi Hc.
  enough (H : agree (fun p y q => R (fst p) y /\ srel (snd p) q) (fun p q => srel (snd p) q)
    (a_value_or C p i r (c, w)) (returned (exec (value_or A (category_of p) j) (t, w)))) by (split; exact H).
  unfold a_value_or. cbn [fst]. rewrite (orel_has C S A R L _ _ Hc). cbn [check]. destruct t as [a | ].
  - pose proof (with_get_rel C S A R I L M _ _ (from_value C p) (value_of_category A p) R r c a w
      (fun r0 Hr => from_value_rel C S A R I M p r r0 a w Hr) Hc) as H.
    destruct p; cbn [from_value value_of_category category_of] in H |- *.
    + destruct (with_get C _ r (c, w)) as [[r' sw] | [r' sw] | | ]; cbn;
        destruct (copying A (a, w)) as [y [x z] | [x z] | | ]; cbn in *; auto; try contradiction.
    + destruct (with_get C _ r (c, w)) as [[r' sw] | [r' sw] | | ]; cbn;
        destruct (d_move A (a, w)) as [y [x z] | [x z] | | ]; cbn in *; auto; try contradiction.
  - cbn. unfold lift, on. cbn. pose proof (m_ctor _ _ _ _ _ M i j r w Hi) as H.
    destruct (ctor C i r w) as [[d' w'] | [d' w'] | | ], (d_make A j w) as [y z | z | | ]; cbn in *; auto; try contradiction.
    + destruct H as [H1 H2]. split; [ exact H1 | ]. now split.
    + now split.
Qed.

Lemma swap_function_rel : forall a x b y w, orel a x -> orel b y ->
  agree (fun p _ q => orel (fst p) (fst q) /\ srel (snd p) (snd q)) (fun p q => orel (fst p) (fst q) /\ srel (snd p) (snd q))
    (o_swap C a (b, w)) (exec (swap_function A) (x, (y, w))).
Proof.
  intros a x b y w Ha Hb. pose proof (swap_rel C S A R I L Q M a x b y w Ha Hb) as H.
  cbn [swap_function exec do_ eval]. 
  destruct (o_swap C a (b, w)) as [p | p | | ], (exec (swap_member A) (x, (y, w))) as [u q | q | | ]; cbn in *; auto.
Qed.
End One.

(** Flattening twice nested options. *)
Lemma pointer_rel : forall W (C : cls W) (S : sem C) (A : dcls W) (R : raw C -> obj A -> Prop), lawful C S ->
  forall c o, orel S R c o ->
    match a_ptr_or_null C c, o with
    | Ret (Some x), Some y => R x y
    | Ret None, None => True
    | _, _ => False
    end.
Proof.
  intros W C S A R L c o H. unfold a_ptr_or_null, a_get. rewrite (orel_has C S A R L _ _ H). cbn [check].
  destruct o as [x | ]; [ | exact Logic.I ]. cbn [check]. rewrite (orel_alive C S A R _ _ H). apply H.
Qed.
Lemma flatten_rel : forall W (C : cls W) (S : sem C) (A : dcls W) (R : raw C -> obj A -> Prop),
  (forall n, lawful (nest_cls n C) (nest_sem n C S)) ->
  forall (c : raw (nest_cls 2 C)) (o : option (option (obj A))), nrel S R 2 c o ->
  exists r, returned (exec (flatten2 A) o) = Got r o /\
    match a_flatten C 1 c, r with
    | Ret (Some x), Some y => R x y
    | Ret None, None => True
    | _, _ => False
    end.
Proof.
  intros W C S A R L c o Hc. cbn [a_flatten]. change (cell (nest_cls 1 C)) in c. cbn [nrel] in Hc.
  pose proof (orel_has (nest_cls 1 C) (nest_sem 1 C S) (doc_nest 1 A) (nrel S R 1) (L 1%nat) _ _ Hc) as Hh.
  pose proof (orel_alive (nest_cls 1 C) (nest_sem 1 C S) (doc_nest 1 A) (nrel S R 1) _ _ Hc) as Ha.
  unfold a_get. rewrite Hh. cbn [check]. 
  destruct o as [o | ]; [ | exists None; split; [ reflexivity | exact Logic.I ] ].
  rewrite Ha. destruct Hc as (_ & _ & Hr). exists o. split; [ reflexivity | ]. cbn [nrel] in Hr.
  exact (pointer_rel W C S A R (L 0%nat) _ _ Hr).
Qed.

Lemma variant_type_rel : forall t ts i v p, only_at t ts i ->
  exists r q, variant_get_type t ts v = Ret r /\ returned (exec (variant_type i) (v, p)) = Got r (v, q).
Proof.
  intros t ts i v p H. unfold variant_get_type. rewrite (only_index t ts i H).
  assert (B : (i < List.length ts)%nat) by (apply nth_error_Some; rewrite (proj1 H); discriminate).
  destruct (variant_rel (List.length ts) i v p B) as (r & q & H1 & _ & H3). exists r, q. now split.
Qed.
Lemma variants_rel : forall v p,
  (forall n i, (i < n)%nat ->
    exists r q, variant_get n i v = Ret r /\ returned (exec (variant_index i) (v, p)) = Got r (v, q)) /\
  (forall t ts i, only_at t ts i ->
    exists r q, variant_get_type t ts v = Ret r /\ returned (exec (variant_type i) (v, p)) = Got r (v, q)).
Proof.
  intros v p. split.
  - intros n i H. destruct (variant_rel n i v p H) as (r & q & H1 & H2 & _). eauto.
  - intros t ts i. exact (variant_type_rel t ts i v p).
Qed.
Lemma containers_rel : forall X (c : list X),
  (forall i, reads c (at_ c i) (returned (exec (at_index i) c))) /\
  reads c (Lookup.at_front c) (returned (exec DocAccess.at_front c)) /\
  reads c (Lookup.at_back c) (returned (exec DocAccess.at_back c)).
Proof. intros X c. split; [ exact (at_rel c) | ]. split; [ exact (front_rel c) | exact (back_rel c) ]. Qed.
Lemma gets_of_rel : forall W (C : cls W) (S : sem C) (A : dcls W) (R : raw C -> obj A -> Prop), lawful C S ->
  forall c o, orel S R c o ->
  (forall n i, (i < n)%nat -> exists r, Lookup.get_index n i c = Ret r /\ returned (exec (DocAccess.get_index A i) o) = Got r o) /\
  (forall t ts i, only_at t ts i -> exists r, Lookup.get_type t ts c = Ret r /\ returned (exec (DocAccess.get_type A i) o) = Got r o).
Proof.
  intros W C S A R L c o H. split.
  - intros n i B. exact (get_index_rel C S A R L n i c o B H).
  - intros t ts i B. exact (get_type_rel C S A R L t ts i c o B H).
Qed.
