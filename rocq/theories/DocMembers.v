(** The functional members and operators do what their code equivalents do. *)
From Coq Require Import NArith ZArith List Bool Lia ZifyBool ZifyN String.
From Verif Require Import Outcome Words Lifetime LifetimeSpec LifetimeFacts Api ApiSpec DocLang DocSnippets DocSpec DocFacts.
Import ListNotations.
Open Scope list_scope.
Open Scope N_scope.

Section One.
Context {W : Type} (C : cls W) (S : sem C) (A : dcls W) (R : raw C -> obj A -> Prop) (I : init C -> darg A -> Prop).
Hypothesis L : lawful C S.
Hypothesis Q : quiet C S.
Hypothesis M : same C S A R I.
Notation orel := (orel S R).
Notation srel := (srel C S A R).
Notation result := (result C S A R).
Notation thrown := (thrown C S A R).
Notation same_predicate := (same_predicate C A R).
Notation same_visitor := (same_visitor C A R).
Notation result2 := (result2 C S A R).
Notation thrown2 := (thrown2 C S A R).

Lemma new_option_rel : forall p d s o w, orel s o ->
  agree result thrown (from_option C p d (s, w)) (new_option A (category_of p) (o, w)).
Proof.
  intros p d s o w Hs. destruct p; cbn [from_option category_of new_option].
  - unfold lift. cbn [fst snd]. pose proof (copy_constructor_rel C S A R I L Q M s o d w Hs) as H. unfold new_option.
    destruct (o_cctor C s d w) as [[c w'] | [c w'] | | ];
      destruct (exec (copy_constructor A) (None, (o, w))) as [r [t [o' q]] | [t [o' q]] | | ]; cbn in *; auto; try contradiction.
    + destruct H as (H1 & -> & ->). split; [ exact H1 | now split ].
    + destruct H as (-> & ->). now split.
  - pose proof (move_constructor_rel C S A R I L Q M s o d w Hs) as H. unfold new_option.
    destruct (o_mctor C d (s, w)) as [[c sw] | [c sw] | | ];
      destruct (exec (move_constructor A) (None, (o, w))) as [r [t s'] | [t s'] | | ]; cbn in *; auto; try contradiction.
Qed.

(** Using the contained object. *)

Lemma with_value_rel : forall f g c a w, same_predicate f g -> orel c (Some a) ->
  agree (fun p b q => fst (snd p) = b /\ orel (fst p) (Some (fst q)) /\ snd (snd p) = snd q)
        (fun p q => orel (fst p) (Some (fst q)) /\ snd (snd p) = snd q)
    (o_with_value C (fun r (bw : bool * W) => f r (snd bw)) c (false, w)) (g (a, w)).
Proof.
  intros f g c a w Hf Hc. unfold o_with_value. rewrite (orel_has C S A R L _ _ Hc). cbn [check].
  rewrite (orel_alive C S A R _ _ Hc). cbn [snd]. pose proof (Hf (c_raw c) a w (proj2 (proj2 Hc))) as H.
  destruct (f (c_raw c) w) as [[r [b w']] | [r [b w']] | | ], (g (a, w)) as [b' [a' q] | [a' q] | | ]; cbn in *; auto; try contradiction.
  - destruct H as (H1 & H2 & H3). cbn in *. split; [ exact H1 | ]. split; [ now apply (orel_set C S A R I M c a) | exact H3 ].
  - destruct H as (H2 & H3). cbn in *. split; [ now apply (orel_set C S A R I M c a) | exact H3 ].
Qed.

Lemma has_value_and_rel : forall f g c t w, same_predicate f g -> orel c t ->
  agree (fun p b q => fst (snd p) = b /\ srel (fst p, snd (snd p)) q) (fun p q => srel (fst p, snd (snd p)) q)
    (a_has_value_and C f c w) (returned (exec (has_value_and A g) (t, w))).
Proof.
  intros f g c t w Hf Hc. unfold a_has_value_and. rewrite (orel_has C S A R L _ _ Hc). cbn [check].
  destruct t as [a | ]; cbn.
  - unfold with_obj. cbn. pose proof (with_value_rel f g c a w Hf Hc) as H.
    destruct (o_with_value C _ c (false, w)) as [[c' [b w']] | [c' [b w']] | | ], (g (a, w)) as [b' [a' q] | [a' q] | | ];
      cbn in *; auto; try contradiction.
  - split; [ reflexivity | now split ].
Qed.

Lemma inspect_rel : forall f g c t w, same_visitor f g -> orel c t ->
  agree (fun p _ q => srel p q) srel (a_inspect C f c w) (returned (exec (inspect A g) (t, w))).
Proof.
  intros f g c t w Hf Hc. unfold a_inspect. rewrite (orel_has C S A R L _ _ Hc). cbn [check].
  destruct t as [a | ]; cbn.
  - unfold with_obj, o_with_value. rewrite (orel_has C S A R L _ _ Hc). cbn [check look here fst].
    rewrite (orel_alive C S A R _ _ Hc). cbn. pose proof (Hf (c_raw c) a w (proj2 (proj2 Hc))) as H.
    destruct (f (c_raw c) w) as [[r w'] | [r w'] | | ], (g (a, w)) as [[] [a' q] | [a' q] | | ]; cbn in *; auto; try contradiction;
      destruct H as (H1 & H2); cbn in *; (split; [ now apply (orel_set C S A R I M c a) | exact H2 ]).
  - now split.
Qed.

(** take and take_if. *)
Lemma take_rel : forall elided d s o w, orel s o ->
  agree (fun p r q => orel (fst p) r /\ fst (snd q) = None /\ srel (snd p) (fst q, snd (snd q)))
        (fun p q => srel (snd p) (fst q, snd (snd q)))
    (o_take C elided d (s, w)) (returned (exec (take A elided) (o, (None, w)))).
Proof.
  intros elided d s o w Hs. unfold o_take. pose proof (new_option_rel ByMove d s o w Hs) as H. cbn [from_option category_of] in H.
  unfold take. cbn [exec seq do_ return_ eval declare_tmp return_tmp]. unfold on at 1. cbn [look this_world fst snd].
  destruct (o_mctor C d (s, w)) as [[t [s1 w1]] | [t [s1 w1]] | | ], (new_option A Rvalue (o, w)) as [o1 [o2 q] | [o2 q] | | ];
    cbn in H; try contradiction; cbn; auto.
  destruct H as (H1 & H2 & H3). cbn in *. subst q. pose proof (reset_rel C S A R I L M s1 o2 w1 H2) as H.
  assert (E : destroy_in A world2 here (o2, (o1, w1)) =
    match destroy_in A world1 here (o2, w1) with
    | Got _ (x, w) => Got tt (x, (o1, w)) | Thrown (x, w) => Thrown (x, (o1, w)) | Stopped => Stopped | Wrong => Wrong end).
  { unfold destroy_in, on. cbn. destruct o2 as [x | ]; [ | reflexivity ]. destruct (d_destroy A x w1); reflexivity. }
  rewrite E. clear E.
  destruct (o_reset C s1 w1) as [[s2 w2] | | | ], (destroy_in A world1 here (o2, w1)) as [[] [x w2'] | [x w2'] | | ]; cbn in *; auto; try contradiction.
  destruct H as (H4 & H5 & H6). cbn in *. subst x w2'. destruct elided; cbn.
  - split; [ exact H1 | split; [ reflexivity | now split ] ].
  - pose proof (new_option_rel ByMove d t o1 w2 H1) as H. cbn [from_option category_of] in H. unfold on. cbn.
    destruct (o_mctor C d (t, w2)) as [[t1 [t2 w3]] | [t1 [t2 w3]] | | ], (new_option A Rvalue (o1, w2)) as [o3 [o4 q] | [o4 q] | | ];
      cbn in H; try contradiction; cbn; auto.
    + destruct H as (H7 & H8 & H9). cbn in *. subst q. pose proof (destroy_rel C S A R I L M t2 o4 w3 H8) as H.
      assert (E : destroy_in A world2 (there here) (None : option (obj A), (o4, w3)) =
        match destroy_in A world1 here (o4, w3) with
        | Got _ (x, w) => Got tt (None, (x, w)) | Thrown (x, w) => Thrown (None, (x, w)) | Stopped => Stopped | Wrong => Wrong end).
      { unfold destroy_in, on. cbn. destruct o4 as [x | ]; [ | reflexivity ]. destruct (d_destroy A x w3); reflexivity. }
      rewrite E. clear E.
      assert (N : match destroy_in A world1 here (o4, w3) with Got _ (x, _) => x = None | _ => True end).
      { unfold destroy_in, on. cbn. destruct o4 as [x | ]; [ | reflexivity ]. destruct (d_destroy A x w3); auto. }
      destruct (o_dtor C t2 w3) as [[t3 w4] | | | ], (destroy_in A world1 here (o4, w3)) as [[] [x w4'] | [x w4'] | | ]; cbn in *; auto; try contradiction.
      subst. split; [ exact H7 | split; [ reflexivity | now split ] ].
    + destruct H as (H8 & H9). cbn in *. subst q. pose proof (destroy_rel C S A R I L M t2 o4 w3 H8) as H.
      assert (E : destroy_in A world2 (there here) (None : option (obj A), (o4, w3)) =
        match destroy_in A world1 here (o4, w3) with
        | Got _ (x, w) => Got tt (None, (x, w)) | Thrown (x, w) => Thrown (None, (x, w)) | Stopped => Stopped | Wrong => Wrong end).
      { unfold destroy_in, on. cbn. destruct o4 as [x | ]; [ | reflexivity ]. destruct (d_destroy A x w3); reflexivity. }
      rewrite E. clear E.
      destruct (o_dtor C t2 w3) as [[t3 w4] | | | ], (destroy_in A world1 here (o4, w3)) as [[] [x w4'] | [x w4'] | | ]; cbn in *; auto; try contradiction.
      subst. now split.
Qed.

Lemma none_rel : forall T (d : cell C) (x : T), exists d', o_none C d x = Ret (d', x) /\ orel d' None.
Proof.
  intros T d x. unfold o_none. destruct (default_rel C S A R L d) as (d' & -> & H). exists d'. now split.
Qed.

Lemma take_if_rel : forall elided f g d s o w, same_predicate f g -> orel s o ->
  agree (fun p r q => orel (fst p) r /\ fst (snd q) = None /\ srel (snd p) (fst q, snd (snd q)))
        (fun p q => srel (snd p) (fst q, snd (snd q)))
    (o_take_if C elided f d (s, w)) (returned (exec (take_if A elided g) (o, (None, w)))).
Proof.
  intros elided f g d s o w Hf Hs. unfold o_take_if. rewrite (orel_has C S A R L _ _ Hs). cbn [check].
  destruct (default_rel C S A R L d) as (d' & Ed & Hd). destruct o as [a | ].
  - pose proof (with_value_rel f g s a w Hf Hs) as H.
    unfold take_if. cbn [exec seq if_ return_ eval etext constant and_ has_value call then_ this v_at v_name look here fst].
    unfold with_obj. cbn [look put here there whole world2 fst snd].
    destruct (o_with_value C _ s (false, w)) as [[s' [b w']] | [s' [b w']] | | ], (g (a, w)) as [b' [a' q] | [a' q] | | ];
      cbn in H; try contradiction; cbn [then_ returned agree]; auto.
    + destruct H as (<- & H1 & <-). cbn [fst snd] in *. destruct b; cbn [then_ returned].
      * pose proof (take_rel elided d s' (Some a') w' H1) as H.
        destruct (o_take C elided d (s', w')) as [p | p | | ], (returned (exec (take A elided) (Some a', (None, w')))) as [r z | z | | ];
          cbn in H; try contradiction; cbn; auto.
      * rewrite Ed. cbn. split; [ exact Hd | split; [ reflexivity | now split ] ].
  - rewrite Ed. cbn. split; [ exact Hd | split; [ reflexivity | now split ] ].
Qed.

(** Building an option of a value (guaranteed elision). *)
Lemma build_rel : forall W' T (mk : raw C -> W' -> out (raw C * W')) c w (n : step T (obj A)) (Rt : W' -> T -> Prop),
  agree (fun p a q => R (fst p) a /\ Rt (snd p) q) (fun p q => Rt (snd p) q) (mk (c_raw c) w) n ->
  agree (fun p a q => orel (fst p) (Some a) /\ Rt (snd p) q) (fun p q => Rt (snd p) q) (o_build C mk c w) n.
Proof.
  intros W' T mk c w n Rt H. unfold o_build.
  destruct (mk (c_raw c) w) as [[r w'] | [r w'] | | ], n as [a q | q | | ]; cbn [agree fst snd] in *; auto; try contradiction.
  destruct H as [Hr Ht]. assert (Ho := m_ok _ _ _ _ _ M _ _ Hr). destruct (traits_spec C) as [[-> Hm] | [-> Hm]].
  - cbn zeta. assert (Hc : inv C S (mkcell r (c_flag c) true)) by (apply inv_alive; [ exact Ho | lia ]).
    rewrite (has_ok C S L) by exact Hc. cbn. repeat split; auto; apply Hc.
  - cbn. split; [ | exact Ht ]. split; [ apply inv_alive; auto | now split ].
Qed.

(** Making something from the contained object. *)
Lemma with_get_rel : forall X Y (f : X -> raw C * W -> out (X * (raw C * W))) (g : obj A * W -> step (obj A * W) Y) (P : X -> Y -> Prop) x c a w,
  (forall r, R r a -> agree (fun p y q => P (fst p) y /\ stays R (snd p) q) (fun p q => stays R (snd p) q) (f x (r, w)) (g (a, w))) ->
  orel c (Some a) ->
  agree (fun p y q => P (fst p) y /\ srel (snd p) (Some (fst q), snd q)) (fun p q => srel (snd p) (Some (fst q), snd q))
    (with_get C f x (c, w)) (g (a, w)).
Proof.
  intros X Y f g P x c a w Hf Hc. unfold with_get. rewrite (orel_has C S A R L _ _ Hc). cbn [check].
  rewrite (orel_alive C S A R _ _ Hc). specialize (Hf (c_raw c) (proj2 (proj2 Hc))).
  destruct (f x (c_raw c, w)) as [[x' [r w']] | [x' [r w']] | | ], (g (a, w)) as [y [a' q] | [a' q] | | ]; cbn in *; auto; try contradiction.
  - destruct Hf as (H1 & H2 & H3). cbn in *. split; [ exact H1 | ]. split; [ now apply (orel_set C S A R I M c a) | exact H3 ].
  - destruct Hf as (H2 & H3). cbn in *. split; [ now apply (orel_set C S A R I M c a) | exact H3 ].
Qed.

Definition value_of_category (p : pass) : obj A * W -> step (obj A * W) (obj A) :=
  match p with ByCopy => copying A | ByMove => d_move A end.
Lemma from_value_rel : forall p x r a w, R r a ->
  agree (fun p y q => R (fst p) y /\ stays R (snd p) q) (fun p q => stays R (snd p) q)
    (from_value C p x (r, w)) (value_of_category p (a, w)).
Proof.
  intros p x r a w Hr. destruct p; cbn [from_value value_of_category].
  - unfold copy_from, lift, copying. cbn [fst snd]. pose proof (m_cctor _ _ _ _ _ M r a x w Hr) as H.
    destruct (cctor C r x w) as [[r' w'] | [r' w'] | | ], (d_copy A a w) as [b q | q | | ]; cbn in *; auto; try contradiction.
    + destruct H as [H1 H2]. split; [ exact H1 | now split ].
    + now split.
  - exact (m_mctor _ _ _ _ _ M r a x w Hr).
Qed.

Lemma get_as_make : forall p a w, s_make (get_as A (category_of p)) (Some a, w) =
  match value_of_category p (a, w) with
  | Got b (x, w) => Got b (Some x, w) | Thrown (x, w) => Thrown (Some x, w) | Stopped => Stopped | Wrong => Wrong end.
Proof. intros p a w. destruct p; reflexivity. Qed.

Lemma filter_rel : forall p f g d s o w, same_predicate f g -> orel s o ->
  agree result thrown (a_filter C p f d (s, w)) (returned (exec (filter_member A (category_of p) g) (o, w))).
Proof.
  intros p f g d s o w Hf Hs. unfold a_filter. rewrite (orel_has C S A R L _ _ Hs). cbn [check].
  destruct o as [a | ].
  - pose proof (with_value_rel f g s a w Hf Hs) as H.
    unfold filter_member. cbn [exec seq if_ return_ eval etext constant and_ has_value call then_ this v_at v_name look here fst some made].
    unfold with_obj. cbn [look put here there whole world1 fst snd].
    destruct (o_with_value C _ s (false, w)) as [[s' [b w']] | [s' [b w']] | | ], (g (a, w)) as [b' [a' q] | [a' q] | | ];
      cbn in H; try contradiction; cbn [then_ returned agree]; auto.
    + destruct H as (<- & H1 & <-). cbn [fst snd] in *. destruct b.
      * rewrite get_as_make.
        assert (H : agree (fun p y q => orel (fst p) (Some y) /\ srel (snd p) (Some (fst q), snd q)) (fun p q => srel (snd p) (Some (fst q), snd q))
          (o_build C (with_get C (from_value C p)) d (s', w')) (value_of_category p (a', w'))).
        { apply build_rel with (Rt := fun sw (q : obj A * W) => srel sw (Some (fst q), snd q)).
          apply with_get_rel with (P := R); [ | exact H1 ]. intros r Hr. now apply from_value_rel. }
        destruct (o_build C _ d (s', w')) as [[d' sw] | [d' sw] | | ], (value_of_category p (a', w')) as [y [x z] | [x z] | | ];
          cbn in *; auto; try contradiction.
      * destruct (none_rel (cell C * W) d (s', w')) as (d' & -> & Hd). cbn. split; [ exact Hd | now split ].
  - destruct (none_rel (cell C * W) d (s, w)) as (d' & -> & Hd). cbn. split; [ exact Hd | now split ].
Qed.

Lemma on_whole : forall T X (m : T -> step T X) s, on whole m s = m s.
Proof. intros T X m s. unfold on. cbn. destruct (m s); reflexivity. Qed.

Lemma or_else_rel : forall p f g d s o w,
  (forall d w, agree (fun p o w => orel (fst p) o /\ snd p = w) (fun p w => snd p = w) (f d w) (g w)) -> orel s o ->
  agree result thrown (a_or_else C p f d (s, w)) (returned (exec (or_else A (category_of p) g) (o, w))).
Proof.
  intros p f g d s o w Hf Hs. unfold a_or_else. cbn [fst]. rewrite (orel_has C S A R L _ _ Hs). cbn [check].
  destruct o as [a | ].
  - unfold or_else. cbn [exec seq if_ return_ eval whole_option has_value then_ this v_at look here fst].
    rewrite on_whole. pose proof (new_option_rel p d s (Some a) w Hs) as H.
    destruct (from_option C p d (s, w)) as [x | x | | ], (new_option A (category_of p) (Some a, w)) as [r z | z | | ]; cbn in *; auto; try contradiction.
  - cbn. unfold lift, on. cbn. specialize (Hf d w).
    destruct (f d w) as [[d' w'] | [d' w'] | | ], (g w) as [r z | z | | ]; cbn in *; auto; try contradiction.
    + destruct Hf as [H1 ->]. split; [ exact H1 | now split ].
    + subst. now split.
Qed.

(** Operators on two options. *)

Lemma pick_rel : forall l p d a x b y w, orel a x -> orel b y ->
  agree result2 thrown2 (pick C l p d a b w)
    (eval (whole_option A EmptyString (category_of p) (if l then this_world A else there whole)) (x, (y, w))).
Proof.
  intros l p d a x b y w Ha Hb. unfold pick. destruct l; cbn [whole_option eval]; unfold on; cbn [look put this_world there whole fst snd].
  - pose proof (new_option_rel p d a x w Ha) as H.
    destruct (from_option C p d (a, w)) as [[d' [s w']] | [d' [s w']] | | ], (new_option A (category_of p) (x, w)) as [r [z q] | [z q] | | ];
      cbn in H; try contradiction; cbn; auto.
    + destruct H as (H1 & H2 & H3). cbn in *. split; [ exact H1 | split; [ exact H2 | now split ] ].
    + destruct H as (H2 & H3). cbn in *. split; [ exact H2 | now split ].
  - pose proof (new_option_rel p d b y w Hb) as H.
    destruct (from_option C p d (b, w)) as [[d' [s w']] | [d' [s w']] | | ], (new_option A (category_of p) (y, w)) as [r [z q] | [z q] | | ];
      cbn in H; try contradiction; cbn; auto.
    + destruct H as (H1 & H2 & H3). cbn in *. split; [ exact H1 | split; [ exact Ha | now split ] ].
    + destruct H as (H2 & H3). cbn in *. split; [ exact Ha | now split ].
Qed.

Lemma returned_once : forall T X (m : step T X), returned (then_ (then_ m (fun r s => Got (Some r) s) id)
  (fun r s => match r with Some r => Got (Some r) s | None => Wrong end) id) = m.
Proof. intros T X [a s | s | | ]; reflexivity. Qed.

Lemma or_rel : forall pl pr d a x b y w, orel a x -> orel b y ->
  agree result2 thrown2 (a_or C pl pr d a b w) (returned (exec (or_options A (category_of pl) (category_of pr)) (x, (y, w)))).
Proof.
  intros pl pr d a x b y w Ha Hb. unfold a_or. rewrite (orel_has C S A R L _ _ Ha). cbn [check].
  unfold or_options. destruct x as [x | ].
  - pose proof (pick_rel true pl d a (Some x) b y w Ha Hb) as H. cbn [whole_option eval] in H.
    cbn [exec seq if_ return_ eval whole_option has_value then_ left v_at look here fst].
    destruct (pick C true pl d a b w) as [p | p | | ], (on (this_world A) _ _) as [r z | z | | ]; cbn in *; auto; try contradiction.
  - pose proof (pick_rel false pr d a None b y w Ha Hb) as H. cbn [whole_option eval] in H.
    cbn [exec seq if_ return_ eval whole_option has_value then_ left v_at look here fst].
    destruct (pick C false pr d a b w) as [p | p | | ], (on (there whole) _ _) as [r z | z | | ]; cbn in *; auto; try contradiction.
Qed.

Lemma xor_rel : forall pl pr d a x b y w, orel a x -> orel b y ->
  agree result2 thrown2 (a_xor C pl pr d a b w) (returned (exec (xor_options A (category_of pl) (category_of pr)) (x, (y, w)))).
Proof.
  intros pl pr d a x b y w Ha Hb. unfold a_xor. rewrite (orel_has C S A R L _ _ Ha). cbn [check].
  rewrite (orel_has C S A R L _ _ Hb). cbn [check]. unfold xor_options. destruct x as [x | ], y as [y | ]; cbn [negb andb].
  - destruct (none_rel _ d (a, (b, w))) as (d' & -> & Hd). cbn. split; [ exact Hd | ]. split; [ exact Ha | now split ].
  - pose proof (pick_rel true pl d a (Some x) b None w Ha Hb) as H. cbn [whole_option eval] in H.
    cbn [exec seq if_ return_ eval whole_option and_ not_ has_value then_ left right v_at look here there fst snd negb].
    destruct (pick C true pl d a b w) as [p | p | | ], (on (this_world A) _ _) as [r z | z | | ]; cbn in *; auto; try contradiction.
  - pose proof (pick_rel false pr d a None b (Some y) w Ha Hb) as H. cbn [whole_option eval] in H.
    cbn [exec seq if_ return_ eval whole_option and_ not_ has_value then_ left right v_at look here there fst snd negb].
    destruct (pick C false pr d a b w) as [p | p | | ], (on (there whole) _ _) as [r z | z | | ]; cbn in *; auto; try contradiction.
  - destruct (none_rel _ d (a, (b, w))) as (d' & -> & Hd). cbn. split; [ exact Hd | ]. split; [ exact Ha | now split ].
Qed.

Lemma or_assign_copy_rel : forall s o c t w, orel s o -> orel c t ->
  agree (fun p _ q => orel (fst p) (fst q) /\ fst (snd q) = o /\ snd p = snd (snd q))
        (fun p q => orel (fst p) (fst q) /\ fst (snd q) = o /\ snd p = snd (snd q))
    (a_or_assign_copy C s c w) (returned (exec (or_assign A Lvalue) (t, (o, w)))).
Proof.
  intros s o c t w Hs Hc. unfold a_or_assign_copy. rewrite (orel_has C S A R L _ _ Hc). cbn [check]. destruct t as [a | ].
  - cbn. split; [ exact Hc | now split ].
  - pose proof (copy_assignment_rel C S A R I L Q M s o c None w Hs Hc) as H.
    unfold or_assign. cbn [exec seq if_ do_ return_ eval assign_right constant not_ has_value then_ left v_at look here fst negb].
    destruct (o_cassign C s c w) as [[c' w'] | [c' w'] | | ], (exec (copy_assignment A) (None, (o, w))) as [r z | z | | ];
      cbn in *; auto; try contradiction.
Qed.

Lemma or_assign_move_rel : forall s o c t w, orel s o -> orel c t ->
  agree (fun p _ q => orel (fst p) (fst q) /\ srel (snd p) (snd q)) (fun p q => orel (fst p) (fst q) /\ srel (snd p) (snd q))
    (a_or_assign_move C c (s, w)) (returned (exec (or_assign A Rvalue) (t, (o, w)))).
Proof.
  intros s o c t w Hs Hc. unfold a_or_assign_move. rewrite (orel_has C S A R L _ _ Hc). cbn [check]. destruct t as [a | ].
  - cbn. split; [ exact Hc | now split ].
  - pose proof (move_assignment_rel C S A R I L Q M s o c None w Hs Hc) as H.
    unfold or_assign. cbn [exec seq if_ do_ return_ eval assign_right constant not_ has_value then_ left v_at look here fst negb].
    destruct (o_massign C c (s, w)) as [[c' w'] | [c' w'] | | ], (exec (move_assignment A) (None, (o, w))) as [r z | z | | ];
      cbn in *; auto; try contradiction.
Qed.

Lemma or_assign_value_rel : forall i j c t w, I i j -> orel c t ->
  agree (fun p _ q => srel p q) srel (a_or_assign C (IVal i) c w) (returned (exec (or_assign_value A j) (t, w))).
Proof.
  intros i j c t w Hi Hc. unfold a_or_assign. rewrite (orel_has C S A R L _ _ Hc). cbn [check]. destruct t as [a | ].
  - cbn. now split.
  - pose proof (value_assignment_rel C S A R I L Q M i j c None w Hi Hc) as H.
    unfold or_assign_value. cbn [exec seq if_ do_ return_ eval constant not_ has_value then_ left v_at look here fst negb].
    destruct (o_asgn C (IVal i) c w) as [[c' w'] | [c' w'] | | ], (exec (value_assignment A j) (None, w)) as [r z | z | | ];
      cbn in *; auto; try contradiction.
Qed.
End One.

Section Two.
Context {W : Type} (C : cls W) (S : sem C) (A : dcls W) (R : raw C -> obj A -> Prop) (I : init C -> darg A -> Prop).
Context (D : cls W) (T : sem D) (B : dcls W) (R' : raw D -> obj B -> Prop) (I' : init D -> darg B -> Prop).
Hypothesis L : lawful C S.
Hypothesis M : same C S A R I.
Hypothesis L' : lawful D T.
Hypothesis Q' : quiet D T.
Hypothesis M' : same D T B R' I'.
Notation orel := (orel S R).
Notation orel' := (DocSpec.orel T R').
Notation srel := (srel C S A R).
Notation same_function := (same_function C A R D B R').
Notation same_assignment := (same_assignment C A R D B R').
Notation same_option_function := (same_option_function C A R D T B R').
Notation made_option_rel := (made_option_rel C S A R D T B R').
Notation made_object_rel := (made_object_rel C S A R D B R').
Notation not_made := (not_made C S A R).
Notation quiet_function := (quiet_function C S D).

Lemma and_then_rel : forall f g d c t w, same_option_function f g -> orel c t ->
  agree made_option_rel not_made (a_and_then C D f d (c, w)) (returned (exec (and_then A B g) (t, w))).
Proof.
  intros f g d c t w Hf Hc. unfold a_and_then. cbn [fst]. rewrite (orel_has C S A R L _ _ Hc). cbn [check].
  destruct t as [a | ]; cbn -[with_get o_build o_construct].
  - unfold with_obj. cbn -[with_get o_build o_construct].
    pose proof (with_get_rel C S A R I L M _ _ f g orel' d c a w (fun r Hr => Hf d r a w Hr) Hc) as H.
    destruct (with_get C f d (c, w)) as [[d' sw] | [d' sw] | | ], (g (a, w)) as [y [x z] | [x z] | | ]; cbn in *; auto; try contradiction.
  - destruct (none_rel D T B R' L' _ d (c, w)) as (d' & -> & Hd). cbn. split; [ exact Hd | now split ].
Qed.

Lemma map_rel : forall f g d c t w, same_function f g -> orel c t ->
  agree made_option_rel not_made (a_map C D f d (c, w)) (returned (exec (map_member A B g) (t, w))).
Proof.
  intros f g d c t w Hf Hc. unfold a_map. cbn [fst]. rewrite (orel_has C S A R L _ _ Hc). cbn [check].
  destruct t as [a | ]; cbn -[with_get o_build o_construct].
  - unfold with_obj. cbn -[with_get o_build o_construct].
    assert (H := build_rel D T B R' I' L' M' _ _ (with_get C f) d (c, w) (g (a, w)) (fun sw (q : obj A * W) => srel sw (Some (fst q), snd q))
      (with_get_rel C S A R I L M _ _ f g R' (c_raw d) c a w (fun r Hr => Hf _ r a w Hr) Hc)).
    destruct (o_build D (with_get C f) d (c, w)) as [[d' sw] | [d' sw] | | ], (g (a, w)) as [y [x z] | [x z] | | ]; cbn in *; auto; try contradiction.
  - destruct (none_rel D T B R' L' _ d (c, w)) as (d' & -> & Hd). cbn. split; [ exact Hd | now split ].
Qed.

Lemma map_or_rel : forall i j f g d c t w, I' i j -> same_function f g -> orel c t ->
  agree made_object_rel not_made (a_map_or C D i f d (c, w)) (returned (exec (map_or A B j g) (t, w))).
Proof.
  intros i j f g d c t w Hi Hf Hc. unfold a_map_or. cbn [fst]. rewrite (orel_has C S A R L _ _ Hc). cbn [check].
  destruct t as [a | ]; cbn -[with_get o_build o_construct].
  - unfold with_obj. cbn -[with_get o_build o_construct].
    pose proof (with_get_rel C S A R I L M _ _ f g R' d c a w (fun r Hr => Hf d r a w Hr) Hc) as H.
    destruct (with_get C f d (c, w)) as [[d' sw] | [d' sw] | | ], (g (a, w)) as [y [x z] | [x z] | | ]; cbn in *; auto; try contradiction.
  - unfold lift, on. cbn. pose proof (m_ctor _ _ _ _ _ M' i j d w Hi) as H.
    destruct (ctor D i d w) as [[d' w'] | [d' w'] | | ], (d_make B j w) as [y z | z | | ]; cbn in *; auto; try contradiction.
    + destruct H as [H1 H2]. split; [ exact H1 | ]. now split.
    + now split.
Qed.

Lemma map_or_else_rel : forall h k f g d c t w,
  (forall d w, agree (fun p y w => R' (fst p) y /\ snd p = w) (fun p w => snd p = w) (h d w) (k w)) -> same_function f g -> orel c t ->
  agree made_object_rel not_made (a_map_or_else C D h f d (c, w)) (returned (exec (map_or_else A B k g) (t, w))).
Proof.
  intros h k f g d c t w Hh Hf Hc. unfold a_map_or_else. cbn [fst]. rewrite (orel_has C S A R L _ _ Hc). cbn [check].
  destruct t as [a | ]; cbn -[with_get o_build o_construct].
  - unfold with_obj. cbn -[with_get o_build o_construct].
    pose proof (with_get_rel C S A R I L M _ _ f g R' d c a w (fun r Hr => Hf d r a w Hr) Hc) as H.
    destruct (with_get C f d (c, w)) as [[d' sw] | [d' sw] | | ], (g (a, w)) as [y [x z] | [x z] | | ]; cbn in *; auto; try contradiction.
  - unfold lift, on. cbn. pose proof (Hh d w) as H.
    destruct (h d w) as [[d' w'] | [d' w'] | | ], (k w) as [y z | z | | ]; cbn in *; auto; try contradiction.
    + destruct H as [H1 H2]. split; [ exact H1 | ]. now split.
    + now split.
Qed.

Lemma cast_rel : forall conv to d c t w,
  (forall r a w x, R r a -> agree (fun p y w => R' (fst p) y /\ snd p = w) (fun p w => snd p = w) (ctor D (conv r) x w) (to a w)) -> orel c t ->
  agree made_option_rel not_made (a_cast C D conv d (c, w)) (returned (exec (option_cast A B to) (t, w))).
Proof.
  intros conv to d c t w Hf Hc. unfold a_cast.
  assert (F : same_function (fun r sw => lift (ctor D (conv (fst sw))) r sw) (fun xw =>
    match to (fst xw) (snd xw) with
    | Got y w => Got y (fst xw, w) | Thrown w => Thrown (fst xw, w) | Stopped => Stopped | Wrong => Wrong end)).
  { intros x r a w' Hr. unfold lift. cbn. specialize (Hf r a w' x Hr).
    destruct (ctor D (conv r) x w') as [[x' w''] | [x' w''] | | ], (to a w') as [y z | z | | ]; cbn in *; auto; try contradiction.
    - destruct Hf as [H1 H2]. split; [ exact H1 | ]. now split.
    - now split. }
  pose proof (map_rel _ _ d c t w F Hc) as H. unfold option_cast. cbn [exec return_ eval].
  destruct (a_map C D _ d (c, w)) as [p | p | | ], (returned (exec (map_member A B _) (t, w))) as [y z | z | | ];
    cbn in *; auto; try contradiction.
Qed.

(** Conversions between options. *)

Lemma conv_in : forall f g d c a w, same_function f g -> quiet_function f -> orel' d None -> orel c (Some a) ->
  agree (fun p y q => orel' (fst p) (Some y) /\ srel (snd p) (Some (fst q), snd q)) (fun p q => orel' (fst p) None /\ srel (snd p) (Some (fst q), snd q))
    (o_construct D (with_get C f) d (c, w)) (g (a, w)).
Proof.
  intros f g d c a w Hf Hq Hd Hc.
  apply (construct_rel D T B R' I' L' M') with (Rt := fun sw (q : obj A * W) => srel sw (Some (fst q), snd q)); [ exact Hd | | ].
  - apply (with_get_rel C S A R I L M) with (P := R'); [ | exact Hc ]. intros r Hr. now apply Hf.
  - intros r' w' E Hm. pose proof (dead_level D T B R' d Hd Hm) as H0. unfold with_get in E.
    rewrite (orel_has C S A R L _ _ Hc) in E. cbn [check] in E. rewrite (orel_alive C S A R _ _ Hc) in E.
    destruct (f (c_raw d) (c_raw c, w)) as [[x [y z]] | [x [y z]] | | ] eqn:Ef; try discriminate E. injection E as <- <-.
    rewrite (Hq (c_raw d) (c_raw c) w x (y, z) (m_ok _ _ _ _ _ M _ _ (proj2 (proj2 Hc))) Hm); [ exact H0 | lia | exact Ef ].
Qed.

Lemma conv_constructor_rel : forall k f g asg d c t w, same_function f g -> quiet_function f -> orel c t ->
  agree (fun p _ q => orel' (fst p) (fst q) /\ srel (snd p) (snd q)) (fun p q => srel (snd p) (snd q))
    (a_conv_ctor C D f d (c, w)) (exec (conv_constructor A B k g asg) (None, (t, w))).
Proof.
  intros k f g asg d c t w Hf Hq Hc. unfold a_conv_ctor.
  apply (with_base_rel D T B R' L') with (E := fun sw (q : option (obj B) * (option (obj A) * W)) => srel sw (snd q)).
  - intros c1 w1 H1. unfold lift. destruct (dtor_none D T B R' L' c1 (snd w1) H1) as [c2 ->]. exists c2. now destruct w1.
  - intros c0 H0. cbn [fst]. rewrite (orel_has C S A R L _ _ Hc). cbn [check]. destruct t as [a | ]; cbn -[with_get o_build o_construct].
    + unfold with_obj. cbn -[with_get o_build o_construct]. pose proof (conv_in f g c0 c a w Hf Hq H0 Hc) as H.
      destruct (o_construct D (with_get C f) c0 (c, w)) as [[c1 sw] | [c1 sw] | | ], (g (a, w)) as [y [x z] | [x z] | | ];
        cbn in *; auto; try contradiction.
    + split; [ exact H0 | now split ].
Qed.

Lemma conv_assignment_rel : forall k f g fa ga d y c t w, same_function f g -> quiet_function f -> same_assignment fa ga ->
  orel' d y -> orel c t ->
  agree (fun p _ q => orel' (fst p) (fst q) /\ srel (snd p) (snd q)) (fun p q => orel' (fst p) (fst q) /\ srel (snd p) (snd q))
    (a_conv_assign C D f fa d (c, w)) (exec (conv_assignment A B k g ga) (y, (t, w))).
Proof.
  intros k f g fa ga d y c t w Hf Hq Ha Hd Hc. unfold a_conv_assign. cbn [fst]. rewrite (orel_has C S A R L _ _ Hc). cbn [check].
  destruct t as [a | ].
  - rewrite (orel_has D T B R' L' _ _ Hd). cbn [check]. destruct y as [y | ]; cbn -[with_get o_build o_construct].
    + unfold o_assign_value. rewrite (orel_alive D T B R' _ _ Hd). unfold with_get. rewrite (orel_has C S A R L _ _ Hc). cbn [check].
      rewrite (orel_alive C S A R _ _ Hc). pose proof (Ha (c_raw d) y (c_raw c) a w (proj2 (proj2 Hd)) (proj2 (proj2 Hc))) as H.
      destruct (fa (c_raw d) (c_raw c, w)) as [[x [r z]] | [x [r z]] | | ], (ga (y, (a, w))) as [[] [y' [a' z']] | [y' [a' z']] | | ];
        cbn in H; try contradiction; cbn [check]; auto; destruct H as (H1 & H2 & H3); cbn in H1, H2, H3.
      * assert (Ho := orel_set D T B R' I' M' d y x y' Hd H1). rewrite (orel_has D T B R' L' _ _ Ho). cbn.
        split; [ exact Ho | ]. split; [ now apply (orel_set C S A R I M c a) | exact H3 ].
      * cbn. split; [ now apply (orel_set D T B R' I' M' d y) | ]. split; [ now apply (orel_set C S A R I M c a) | exact H3 ].
    + unfold with_obj. cbn -[with_get o_build o_construct]. pose proof (conv_in f g d c a w Hf Hq Hd Hc) as H.
      destruct (o_construct D (with_get C f) d (c, w)) as [[c1 sw] | [c1 sw] | | ], (g (a, w)) as [y [x z] | [x z] | | ];
        cbn in *; auto; try contradiction.
  - unfold lift. cbn [snd]. pose proof (reset_rel D T B R' I' L' M' d y w Hd) as H. cbn. unfold destroy_in, on in *. cbn in *.
    destruct y as [b | ].
    + destruct (o_reset D d w) as [[c' w'] | | | ], (d_destroy B b w) as [[] q | q | | ]; cbn in *; auto; try contradiction.
      destruct H as (H1 & H2 & H3). split; [ exact H1 | now split ].
    + destruct (o_reset D d w) as [[c' w'] | | | ]; cbn in *; auto; try contradiction. destruct H as (H1 & H2 & H3).
      split; [ exact H1 | now split ].
Qed.

Lemma and_rel : forall p d a x b y w, orel a x -> orel' b y ->
  agree (fun p o q => orel' (fst p) o /\ fst q = x /\ DocSpec.srel D T B R' (snd p) (snd q))
        (fun p q => fst q = x /\ DocSpec.srel D T B R' (snd p) (snd q))
    (a_and C D p d a (b, w)) (returned (exec (and_options A B (category_of p)) (x, (y, w)))).
Proof.
  intros p d a x b y w Ha Hb. unfold a_and. rewrite (orel_has C S A R L _ _ Ha). cbn [check]. destruct x as [x | ].
  - pose proof (new_option_rel D T B R' I' L' Q' M' p d b y w Hb) as H. unfold and_options.
    cbn [exec seq if_ return_ eval whole_option has_value then_ left v_at look here fst]. unfold on. cbn [look there whole snd].
    destruct (from_option D p d (b, w)) as [[d' s] | [d' s] | | ], (new_option B (category_of p) (y, w)) as [o z | z | | ];
      cbn in *; auto; try contradiction. destruct H as [H1 H2]. cbn in *. auto.
  - destruct (none_rel D T B R' L' _ d (b, w)) as (d' & -> & Hd). cbn. split; [ exact Hd | ]. split; [ reflexivity | now split ].
Qed.
End Two.
