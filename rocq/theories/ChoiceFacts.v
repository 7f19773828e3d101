(** Proofs about the choice of a specialisation. *)
From Coq Require Import Bool List Arith Lia Permutation.
From Verif Require Import Choice ChoiceSpec.
Import ListNotations.

Lemma wrapper_eq a b : wrapper_eqb a b = true <-> a = b.
Proof. destruct a, b; cbn; split; congruence. Qed.
Lemma type_eq a : forall b, type_eqb a b = true <-> a = b.
Proof.
  induction a as [m|v s IH]; intros [n|w t]; cbn [type_eqb]; try (split; [discriminate|congruence]).
  - rewrite Nat.eqb_eq. split; congruence.
  - rewrite andb_true_iff, wrapper_eq, IH. split; [intros [-> ->]; reflexivity|]. intros [= -> ->]. now split.
Qed.
Lemma known_in t l : known t l = true <-> In t l.
Proof.
  unfold known. rewrite existsb_exists. split; [intros (x & I & E); apply type_eq in E; now subst|].
  intros I. exists t. split; [exact I|now apply type_eq].
Qed.
Lemma choice_in t l : choice_of t l <> None <-> exists c, In (t, c) l.
Proof.
  induction l as [|[u c] l IH]; cbn [choice_of]; [split; [now intros []|intros (c & [])]|].
  destruct (type_eqb t u) eqn:E.
  - apply type_eq in E. subst u. split; [intros _; exists c; now left|discriminate].
  - rewrite IH. split; [intros (d & I); exists d; now right|]. intros (d & [[= -> ->]|I]); [|now exists d].
    assert (type_eqb t t = true) by (now apply type_eq). congruence.
Qed.

(** The state describes the text so far. *)
Definition describes (s : unit_state) (pre : list event) : Prop :=
  (forall t, In t (explicit s) <-> In (Explicit t) pre) /\
  (forall t, In t (hooks s) <-> In (Hook t) pre) /\
  rev (partials s) = flat_map (fun e => match e with Partial p => [p] | _ => [] end) pre /\
  (forall t, choice_of t (chosen s) <> None <-> In (Use t) pre).

Definition partials_of (pre : list event) := flat_map (fun e => match e with Partial p => [p] | _ => [] end) pre.
Lemma partials_in pre p : In p (partials_of pre) <-> In (Partial p) pre.
Proof.
  unfold partials_of. rewrite in_flat_map. split.
  - intros (e & I & J). destruct e; try contradiction. destruct J as [->|[]]. exact I.
  - intros I. exists (Partial p). split; [exact I|now left].
Qed.
Lemma none_match pre t : filter (fun p => p t) (partials_of pre) = [] <-> no_partial pre t.
Proof.
  split.
  - intros E p I. apply partials_in in I. destruct (p t) eqn:P; [|reflexivity].
    assert (X : In p (filter (fun p => p t) (partials_of pre))) by (apply filter_In; now split). rewrite E in X. contradiction.
  - intros N. destruct (filter (fun p => p t) (partials_of pre)) as [|p l] eqn:E; [reflexivity|].
    assert (X : In p (filter (fun p => p t) (partials_of pre))) by (rewrite E; now left). apply filter_In in X. destruct X as [X P].
    apply partials_in in X. rewrite (N p X) in P. discriminate.
Qed.
Lemma one_match pre t p : filter (fun p => p t) (partials_of pre) = [p] <-> one_partial pre t p.
Proof.
  split.
  - induction pre as [|e pre IH]; [discriminate|]. intros E.
    assert (S : forall q, e = Partial q -> (q t = true /\ q = p /\ filter (fun p => p t) (partials_of pre) = []) \/ (q t = false /\ filter (fun p => p t) (partials_of pre) = [p])).
    { intros q ->. change (partials_of (Partial q :: pre)) with (q :: partials_of pre) in E. cbn [filter] in E. destruct (q t) eqn:Q; [left|right; now split].
      injection E as -> E. now split. }
    assert (R : (forall q, e <> Partial q) -> filter (fun p => p t) (partials_of pre) = [p]).
    { intros N. destruct e; try exact E. now destruct (N p0). }
    destruct e as [u|u|q|u].
    + destruct (IH (R ltac:(discriminate))) as (a & b & -> & P & A & B). exists (Explicit u :: a), b. split; [reflexivity|]. split; [exact P|]. split; [|exact B].
      intros x [X|X]; [discriminate|now apply A].
    + destruct (IH (R ltac:(discriminate))) as (a & b & -> & P & A & B). exists (Hook u :: a), b. split; [reflexivity|]. split; [exact P|]. split; [|exact B].
      intros x [X|X]; [discriminate|now apply A].
    + destruct (S q eq_refl) as [(Q & -> & F)|(Q & F)].
      * exists [], pre. split; [reflexivity|]. split; [exact Q|]. split; [intros x []|now apply none_match].
      * destruct (IH F) as (a & b & -> & P & A & B). exists (Partial q :: a), b. split; [reflexivity|]. split; [exact P|]. split; [|exact B].
        intros x [[= <-]|X]; [exact Q|now apply A].
    + destruct (IH (R ltac:(discriminate))) as (a & b & -> & P & A & B). exists (Use u :: a), b. split; [reflexivity|]. split; [exact P|]. split; [|exact B].
      intros x [X|X]; [discriminate|now apply A].
  - intros (a & b & -> & P & A & B). unfold partials_of. rewrite flat_map_app, filter_app. cbn [flat_map app filter]. rewrite P.
    apply none_match in A, B. unfold partials_of in A, B. now rewrite A, B.
Qed.
Lemma filter_rev {A} (f : A -> bool) l : filter f (rev l) = rev (filter f l).
Proof. induction l as [|x l IH]; [reflexivity|]. cbn [rev filter]. rewrite filter_app, IH. cbn [filter]. destruct (f x); [reflexivity|apply app_nil_r]. Qed.
Lemma rev_one {A} (l : list A) x : rev l = [x] <-> l = [x].
Proof. split; [intros E; rewrite <- (rev_involutive l), E; reflexivity|intros ->; reflexivity]. Qed.
Lemma rev_none {A} (l : list A) : rev l = [] <-> l = [].
Proof. split; [intros E; rewrite <- (rev_involutive l), E; reflexivity|intros ->; reflexivity]. Qed.

Lemma choose_selects s pre t c : describes s pre -> (choose s t = Some c <-> selects pre t c).
Proof.
  intros (E & H & P & _). fold (partials_of pre) in P. unfold choose.
  assert (N : filter (fun p => p t) (partials s) = [] <-> no_partial pre t) by (rewrite <- none_match, <- P, filter_rev, rev_none; reflexivity).
  assert (O : forall p, filter (fun p => p t) (partials s) = [p] <-> one_partial pre t p) by (intros p; rewrite <- one_match, <- P, filter_rev, rev_one; reflexivity).
  destruct (known t (explicit s)) eqn:K.
  - apply known_in, E in K. split; [intros [= <-]; exact K|]. destruct c; cbn; try (intros [X _]; contradiction). reflexivity.
  - assert (NE : ~ In (Explicit t) pre) by (rewrite <- E, <- known_in, K; discriminate).
    unfold candidates. destruct (known t (hooks s)) eqn:J.
    + apply known_in, H in J. destruct t as [n|w u]; cbn [app].
      * destruct (filter (fun p => p (Class n)) (partials s)) as [|q l]; cbn [map].
        -- assert (X : no_partial pre (Class n)) by (now apply N). split; [intros [= <-]; cbn; repeat split; eauto|].
           destruct c; cbn; try (intros (_ & A & _); contradiction); try contradiction; reflexivity.
        -- split; [discriminate|]. destruct c; cbn; try (intros (_ & A & _); contradiction); try contradiction.
           intros (_ & _ & _ & X). apply N in X. discriminate.
      * split; [discriminate|]. destruct c; cbn; try (intros (_ & A & _); contradiction); try contradiction.
        intros (_ & _ & (n & X) & _). discriminate.
    + assert (NH : ~ In (Hook t) pre) by (rewrite <- H, <- known_in, J; discriminate). destruct t as [n|w u]; cbn [app].
      * destruct (filter (fun p => p (Class n)) (partials s)) as [|q [|r l]]; cbn [map].
        -- assert (X : no_partial pre (Class n)) by (now apply N). split; [intros [= <-]; cbn; repeat split; eauto|].
           destruct c; cbn; try contradiction; try reflexivity.
           ++ intros (_ & A & _). contradiction.
           ++ intros (_ & _ & (v & Y) & _). discriminate.
           ++ intros (_ & _ & _ & Y). apply O in Y. discriminate.
        -- assert (X : one_partial pre (Class n) q) by (now apply O). split; [intros [= <-]; cbn; repeat split; eauto|].
           destruct c; cbn; try contradiction.
           ++ intros (_ & _ & _ & Y). apply N in Y. discriminate.
           ++ intros (_ & A & _). contradiction.
           ++ intros (_ & _ & (v & Y) & _). discriminate.
           ++ intros (_ & _ & _ & Y). apply O in Y. now injection Y as ->.
        -- split; [discriminate|]. destruct c; cbn; try contradiction.
           ++ intros (_ & _ & _ & Y). apply N in Y. discriminate.
           ++ intros (_ & A & _). contradiction.
           ++ intros (_ & _ & (v & Y) & _). discriminate.
           ++ intros (_ & _ & _ & Y). apply O in Y. discriminate.
      * destruct (filter (fun p => p (Wrapped w u)) (partials s)) as [|q l]; cbn [map].
        -- assert (X : no_partial pre (Wrapped w u)) by (now apply N). split; [intros [= <-]; cbn; repeat split; eauto|].
           destruct c; cbn; try contradiction.
           ++ intros (_ & _ & (v & Y) & _). discriminate.
           ++ intros (_ & A & _). contradiction.
           ++ intros (_ & _ & (v & Y) & _). now injection Y as ->.
           ++ intros (_ & _ & (v & Y) & _). discriminate.
        -- split; [discriminate|]. destruct c; cbn; try contradiction.
           ++ intros (_ & _ & (v & Y) & _). discriminate.
           ++ intros (_ & A & _). contradiction.
           ++ intros (_ & _ & _ & Y). apply N in Y. discriminate.
           ++ intros (_ & _ & (v & Y) & _). discriminate.
Qed.

Lemma step_describes s pre e s' : describes s pre -> unit_step s e = Some s' -> describes s' (pre ++ [e]).
Proof.
  intros (E & H & P & C) S.
  assert (I : forall x, In x (pre ++ [e]) <-> In x pre \/ e = x) by (intros x; rewrite in_app_iff; cbn; intuition).
  unfold describes. rewrite flat_map_app.
  destruct e as [t|t|p|t]; cbn [unit_step] in S; cbn [flat_map]; rewrite ?app_nil_r.
  - destruct (known t (explicit s)); [discriminate|]. destruct (choice_of t (chosen s)); [discriminate|]. injection S as <-.
    cbn [explicit hooks partials chosen]. split; [|split; [|split; [exact P|]]]; intros u; rewrite I.
    + cbn [In]. rewrite E. split; intros [X|X]; [right; congruence|now left|now right|left; congruence].
    + rewrite H. split; [now left|]. intros [X|X]; [exact X|discriminate].
    + rewrite C. split; [now left|]. intros [X|X]; [exact X|discriminate].
  - destruct (known t (hooks s)); [discriminate|]. injection S as <-.
    cbn [explicit hooks partials chosen]. split; [|split; [|split; [exact P|]]]; intros u; rewrite I.
    + rewrite E. split; [now left|]. intros [X|X]; [exact X|discriminate].
    + cbn [In]. rewrite H. split; intros [X|X]; [right; congruence|now left|now right|left; congruence].
    + rewrite C. split; [now left|]. intros [X|X]; [exact X|discriminate].
  - injection S as <-. cbn [explicit hooks partials chosen rev]. split; [|split; [|split]].
    + intros u. rewrite I, E. split; [now left|]. intros [X|X]; [exact X|discriminate].
    + intros u. rewrite I, H. split; [now left|]. intros [X|X]; [exact X|discriminate].
    + now rewrite P.
    + intros u. rewrite I, C. split; [now left|]. intros [X|X]; [exact X|discriminate].
  - assert (X : explicit s' = explicit s /\ hooks s' = hooks s /\ partials s' = partials s /\
                forall u, choice_of u (chosen s') <> None <-> choice_of u (chosen s) <> None \/ t = u).
    { destruct (choice_of t (chosen s)) eqn:K.
      - injection S as <-. repeat split; [now left|]. intros [X| <-]; [exact X|congruence].
      - destruct (choose s t) as [c|]; [|discriminate]. injection S as <-. cbn [explicit hooks partials chosen]. repeat split.
        + cbn [choice_of]. destruct (type_eqb u t) eqn:T; [intros _; right; now apply type_eq in T|now left].
        + cbn [choice_of]. destruct (type_eqb u t) eqn:T; [discriminate|]. intros [X| <-]; [exact X|].
          assert (type_eqb t t = true) by (now apply type_eq). congruence. }
    destruct X as (X1 & X2 & X3 & X4). rewrite X1, X2, X3. split; [|split; [|split; [exact P|]]]; intros u; rewrite I.
    + rewrite E. split; [now left|]. intros [X|X]; [exact X|discriminate].
    + rewrite H. split; [now left|]. intros [X|X]; [exact X|discriminate].
    + rewrite X4, C. split; intros [X|X]; [now left|right; congruence|now left|right; congruence].
Qed.
Lemma translate_app s a b : translate s (a ++ b) = match translate s a with Some s => translate s b | None => None end.
Proof. revert s. induction a as [|e a IH]; intros s; [reflexivity|]. cbn [app translate]. destruct (unit_step s e); [apply IH|reflexivity]. Qed.
Lemma empty_describes : describes empty_unit [].
Proof. unfold describes. cbn. repeat split; try contradiction; try (intros X; now destruct X). Qed.
Lemma translate_describes pre s : translate empty_unit pre = Some s -> describes s pre.
Proof.
  revert s. induction pre as [|e pre IH] using rev_ind; intros s; [intros [= <-]; exact empty_describes|].
  rewrite translate_app. destruct (translate empty_unit pre) as [s0|]; [|discriminate]. cbn [translate].
  destruct (unit_step s0 e) as [s1|] eqn:S; [|discriminate]. intros [= <-]. eapply step_describes; [now apply IH|exact S].
Qed.

Lemma fine_exact pre e s : translate empty_unit pre = Some s -> (translate empty_unit (pre ++ [e]) <> None <-> fine pre e).
Proof.
  intros T. rewrite translate_app, T. apply translate_describes in T. assert (D := T). destruct T as (E & H & P & C). cbn [translate].
  destruct e as [t|t|p|t]; cbn [unit_step fine].
  - rewrite <- E, <- C, <- known_in. destruct (known t (explicit s)); [split; [now intros []|intros [[] _]; reflexivity]|].
    destruct (choice_of t (chosen s)); split; try discriminate.
    + now intros [].
    + intros [_ []]. discriminate.
    + intros _. split; [discriminate|]. now intros [].
  - rewrite <- H, <- known_in. destruct (known t (hooks s)); split; try discriminate; [now intros []|now intros []].
  - split; [trivial|discriminate].
  - rewrite <- C. destruct (choice_of t (chosen s)) as [c|]; [split; [left|]; discriminate|].
    destruct (choose s t) as [c|] eqn:K.
    + split; [intros _; right; exists c; now apply (choose_selects s pre t c D)|discriminate].
    + split; [now intros []|]. intros [[]|(c & X)]; [reflexivity|]. apply (choose_selects s pre t c D) in X. congruence.
Qed.

Lemma step_keeps s e s' t c : unit_step s e = Some s' -> choice_of t (chosen s) = Some c -> choice_of t (chosen s') = Some c.
Proof.
  intros S K. destruct e as [u|u|p|u]; cbn [unit_step] in S.
  - destruct (known u (explicit s)); [discriminate|]. destruct (choice_of u (chosen s)); [discriminate|]. injection S as <-. exact K.
  - destruct (known u (hooks s)); [discriminate|]. injection S as <-. exact K.
  - injection S as <-. exact K.
  - destruct (choice_of u (chosen s)) eqn:U; [injection S as <-; exact K|]. destruct (choose s u); [|discriminate]. injection S as <-.
    cbn [chosen choice_of]. destruct (type_eqb t u) eqn:T; [apply type_eq in T; subst u; congruence|exact K].
Qed.
Lemma translate_keeps es : forall s s' t c, translate s es = Some s' -> choice_of t (chosen s) = Some c -> choice_of t (chosen s') = Some c.
Proof.
  induction es as [|e es IH]; intros s s' t c; cbn [translate]; [now intros [= <-]|].
  destruct (unit_step s e) as [s1|] eqn:S; [|discriminate]. intros T K. eapply IH; [exact T|]. eapply step_keeps; eassumption.
Qed.
Lemma first_use pre t post s : translate empty_unit (pre ++ Use t :: post) = Some s -> ~ In (Use t) pre ->
  forall c, choice_of t (chosen s) = Some c <-> selects pre t c.
Proof.
  intros T N. rewrite translate_app in T. destruct (translate empty_unit pre) as [s0|] eqn:T0; [|discriminate].
  apply translate_describes in T0. cbn [translate unit_step] in T.
  assert (X : choice_of t (chosen s0) = None).
  { destruct T0 as (_ & _ & _ & C). specialize (C t). destruct (choice_of t (chosen s0)); [|reflexivity]. destruct N. apply C. discriminate. }
  rewrite X in T. destruct (choose s0 t) as [d|] eqn:K; [|discriminate].
  assert (R : choice_of t (chosen s) = Some d).
  { eapply translate_keeps; [exact T|]. cbn [chosen choice_of]. assert (type_eqb t t = true) as -> by (now apply type_eq). reflexivity. }
  intros c. rewrite R, <- (choose_selects s0 pre t c T0), K. reflexivity.
Qed.

Lemma hook_wrapped pre w u : In (Hook (Wrapped w u)) pre -> ~ In (Explicit (Wrapped w u)) pre -> forall c, ~ selects pre (Wrapped w u) c.
Proof.
  intros H E [| |v|p|]; cbn; try (intros (_ & A & _); contradiction).
  - intros (_ & _ & (n & X) & _). discriminate.
  - exact E.
Qed.

Lemma wrapper_fails : forall pre w u s, translate empty_unit pre = Some s -> ~ In (Use (Wrapped w u)) pre ->
  In (Hook (Wrapped w u)) pre -> ~ In (Explicit (Wrapped w u)) pre -> translate empty_unit (pre ++ [Use (Wrapped w u)]) = None.
Proof.
  intros pre w u s T N H E. destruct (translate empty_unit (pre ++ [Use (Wrapped w u)])) as [x|] eqn:X; [|reflexivity].
  assert (F : fine pre (Use (Wrapped w u))) by (apply (fine_exact pre _ s T); congruence).
  destruct F as [F|(c & F)]; [contradiction|]. destruct (hook_wrapped pre w u H E c F).
Qed.
Lemma late_ignored : exists es s t, translate empty_unit es = Some s /\ In (Hook t) es /\ In (Use t) es /\
  (forall u, ~ In (Explicit u) es) /\ (forall p, ~ In (Partial p) es) /\ choice_of t (chosen s) = Some Builtin.
Proof.
  exists [Use (Class 0); Hook (Class 0); Use (Class 0)], (mkunit [] [Class 0] [] [(Class 0, Builtin)]), (Class 0).
  cbn. repeat split; auto; intros u X; decompose [or] X; try discriminate; contradiction.
Qed.

(** The order of what precedes the first use. *)
Lemma filter_same {A} (f : A -> bool) l m : Permutation l m -> Permutation (filter f l) (filter f m).
Proof.
  induction 1 as [|x l m P IH|x y l|l m k P IH Q JH]; cbn [filter]; [constructor| | |now apply perm_trans with (filter f m)].
  - destruct (f x); [now constructor|exact IH].
  - destruct (f x), (f y); try apply Permutation_refl. constructor.
Qed.
Lemma selects_order pre pre' t c : Permutation pre pre' -> selects pre t c -> selects pre' t c.
Proof.
  intros P.
  assert (I : forall x, In x pre' -> In x pre) by (intros x; apply Permutation_in; now apply Permutation_sym).
  assert (J : forall x, In x pre -> In x pre') by (intros x; now apply Permutation_in).
  assert (N : no_partial pre t -> no_partial pre' t) by (intros N p X; apply N, I, X).
  assert (O : forall p, one_partial pre t p -> one_partial pre' t p).
  { intros p X. apply one_match in X. apply one_match.
    assert (Q : Permutation (filter (fun p => p t) (partials_of pre)) (filter (fun p => p t) (partials_of pre'))).
    { apply filter_same. unfold partials_of. now apply Permutation_flat_map. }
    rewrite X in Q. now apply Permutation_length_1_inv in Q. }
  destruct c; cbn; [| | | |auto]; intros (A & B & C & D); repeat split; auto.
Qed.
Lemma order_free pre pre' t post post' s s' : Permutation pre pre' -> ~ In (Use t) pre ->
  translate empty_unit (pre ++ Use t :: post) = Some s -> translate empty_unit (pre' ++ Use t :: post') = Some s' ->
  choice_of t (chosen s) = choice_of t (chosen s') /\ choice_of t (chosen s) <> None.
Proof.
  intros P N T T'. assert (N' : ~ In (Use t) pre') by (intros X; apply N; revert X; apply Permutation_in; now apply Permutation_sym).
  assert (F := first_use pre t post s T N). assert (F' := first_use pre' t post' s' T' N').
  assert (D : choice_of t (chosen s) <> None).
  { apply translate_describes in T. destruct T as (_ & _ & _ & C). apply C, in_app_iff. right. now left. }
  split; [|exact D]. destruct (choice_of t (chosen s)) as [c|]; [|now destruct D].
  symmetry. apply F'. apply (selects_order pre pre'); [exact P|]. now apply F.
Qed.
