(** The examples are the same classes. *)
From Coq Require Import NArith ZArith Bool List Lia ZifyBool ZifyN.
From Verif Require Import Outcome Words Lifetime LifetimeSpec LifetimeFacts Classes ClassesFacts Api DocLang DocSnippets DocSpec DocFacts DocClasses.
Import ListNotations.
Open Scope N_scope.

Theorem fussy_same : forall m torn, same (fussy m torn) (fussy_sem m torn) fussy_doc (fussy_is m torn) (fussy_arg m torn).
Proof.
  intros m torn. split; unfold fussy_is, fussy_arg; cbn -[N.add N.sub]; unfold may_throw, fails.
  - intros r a ->. lia.
  - intros i j r w ->. destruct (tick w) as [[ | ] w']; cbn -[N.add]; [ reflexivity | now split ].
  - intros s a r w ->. destruct (tick w) as [[ | ] w']; cbn -[N.add]; [ reflexivity | now split ].
  - intros s a r w ->. destruct (tick w) as [[ | ] w']; cbn -[N.add]; repeat split; lia.
  - intros i j r a w -> ->. destruct (tick w) as [[ | ] w']; cbn -[N.add]; now split.
  - intros s a r b w -> ->. destruct (tick w) as [[ | ] w']; cbn -[N.add]; now split.
  - intros s a r b w -> ->. destruct (tick w) as [[ | ] w']; cbn -[N.add]; repeat split; lia.
  - intros s a r b w -> ->. destruct (tick w) as [[ | ] w']; cbn -[N.add]; repeat split; lia.
  - reflexivity.
  - discriminate.
  - discriminate.
  - discriminate.
  - discriminate.
  - discriminate.
  - discriminate.
Qed.

Theorem plain_same : forall m, same (plain m) (plain_sem m) plain_doc (plain_is m) (plain_arg m).
Proof.
  intros m. split; unfold plain_is, plain_arg; cbn.
  - intros r a [-> H]. exact H.
  - intros i j r w [-> H]. now split.
  - intros s a r w [-> H]. now split.
  - intros s a r w [-> H]. repeat split; auto.
  - intros i j r a w [-> H] [-> K]. now split.
  - intros s a r b w [-> H] [-> K]. now split.
  - intros s a r b w [-> H] [-> K]. repeat split; auto.
  - intros s a r b w [-> H] [-> K]. repeat split; auto.
  - reflexivity.
  - reflexivity.
  - intros s a w _ H. now exists a.
  - intros s a w _ H. exists a, a. now split.
  - intros s a r b w _ _ H K. now exists a.
  - intros s a r b w _ _ H K. exists a, a. now split.
  - intros i j r a w _ [-> H] [-> K]. now split.
Qed.

(** A constructor that has written something when it throws: the option in the unused states of T takes it for an
    object, while the code equivalent of emplace leaves the option empty. *)
Lemma torn_emplace : exists (c c' : cell (fussy 3 true)) o w w' w'',
  orel (fussy_sem 3 true) (fussy_is 3 true) c o /\
  o_emplace _ (o_reset _) (ctor (fussy 3 true) 5) c w = Exn (c', w') /\
  exec (emplace fussy_doc 5) (o, w) = Thrown (None, w'') /\
  o_has _ c' = Ok true /\ ~ orel (fussy_sem 3 true) (fussy_is 3 true) c' None.
Proof.
  exists (mkcell (C := fussy 3 true) 0 0 false), (mkcell (C := fussy 3 true) 8 0 false), None, [true], [], [].
  split. { split; [ | reflexivity ]. split; [ discriminate | ]. split; cbn; [ reflexivity | discriminate ]. }
  split; [ reflexivity | ]. split; [ reflexivity | ]. split; [ reflexivity | ].
  intros [(_ & H & _) _]. specialize (H ltac:(cbn; lia) eq_refl). discriminate H.
Qed.
