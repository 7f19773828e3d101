(** Proofs about failed checks in every configuration. *)

From Coq Require Import ZArith String List Bool Lia.
Import ListNotations.
From Verif Require Import Outcome Words Lifetime LifetimeSpec LifetimeFacts History HistorySpec HistoryFacts.
From Verif Require Import Preproc Config ConfigSpec ConfigFacts Checks.
Open Scope Z_scope.
Open Scope string_scope.
Open Scope list_scope.

Section Checks.
  Context (w : world) (s0 s : macros).
  Context (Hs : setting w s0) (Hr : Preproc.run w header s0 = Done s).

  Lemma effect_reports :
    s0 "OPTION_VERIFY" = None -> s0 "NDEBUG" = None -> uses_libassert w s0 = false ->
    effect_of s = Reports (match family_of s0 with Gcc => true | _ => false end).
  Proof.
    intros V D U. unfold effect_of. rewrite (final_verify w s0 Hs s Hr). unfold verify_body.
    rewrite V, D, U. cbn -[by_message by_libassert].
    pose proof (final_break w s0 Hs s Hr) as B. unfold reports in B. rewrite V, D, U in B. cbn in B.
    change (Reports (unresumable (s "OPTION_DEBUG_BREAK")) =
            Reports match family_of s0 with Gcc => true | _ => false end).
    f_equal. destruct (family_of s0); try (rewrite B; reflexivity).
    destruct B as [B|B]; rewrite B; reflexivity.
  Qed.

  Lemma effect_libassert :
    s0 "OPTION_VERIFY" = None -> s0 "NDEBUG" = None -> uses_libassert w s0 = true ->
    effect_of s = Delegates.
  Proof.
    intros V D U. unfold effect_of. rewrite (final_verify w s0 Hs s Hr). unfold verify_body.
    rewrite V, D, U. reflexivity.
  Qed.

  Lemma effect_release :
    s0 "OPTION_VERIFY" = None -> s0 "NDEBUG" <> None ->
    effect_of s = match family_of s0 with Intel | Other => Ignores | _ => Assumes end.
  Proof.
    intros V D. unfold effect_of. rewrite (final_verify w s0 Hs s Hr). unfold verify_body.
    rewrite V. destruct (s0 "NDEBUG"); [|contradiction].
    destruct (family_of s0); try reflexivity. destruct (Z.leb 13 _); reflexivity.
  Qed.

  Lemma throws_iff b :
    throws (build_of w s b) = true <->
    exists z, s0 "__cpp_exceptions" = Some (Num z) /\ 199711 <= z.
  Proof.
    assert (E : s "__cpp_exceptions" = s0 "__cpp_exceptions").
    { apply (frame w header s0 s); [|reflexivity|exact Hr].
      apply (platform_quiet w s0 Hs). cbn. tauto. }
    assert (N : numeric (s0 "__cpp_exceptions"))
      by (destruct Hs as (_ & _ & O & _); unfold ordinary in O; tauto).
    unfold build_of, exceptions_on. cbn [throws evaluate]. unfold value_of. rewrite E.
    destruct (s0 "__cpp_exceptions") as [[]|]; cbn in N; try contradiction.
    - cbn [is_some truth lift2]. change (holds 1) with true. cbn [andb].
      destruct (Z.leb_spec 199711 z); cbn; split; intro H'; try discriminate; try reflexivity.
      + exists z. split; [reflexivity|lia].
      + destruct H' as (y & [= <-] & L). lia.
    - cbn. split; [discriminate|]. intros (z & D & _). discriminate.
  Qed.
End Checks.

Lemma no_misuse_agrees : forall W (C : cls W) (S : sem C), lawful C S -> ~ stops S ->
  forall os l w, healthy C S l -> Forall (fair C S) os -> Forall (gentle C S) os ->
  (forall os1 o os2 ks a, os = os1 ++ o :: os2 -> runs C S os1 ks (values C S l) a -> ~ misuse C S o a) ->
  History.run C S os l w <> HBad ->
  exists l' w', forall b, history_in b (History.run C S os l w) = Returns (l', w').
Proof.
  intros W C S L NS os l w H F G M NB.
  pose proof (run_ok C S L os l w H F G) as R.
  destruct (History.run C S os l w) as [ks l' w'|ks| |]; try contradiction.
  - exists l', w'. intro b. reflexivity.
  - destruct R as [R|(os1 & o & os2 & a & E & R & X)]; [contradiction|].
    exfalso. apply (M os1 o os2 ks a E R X).
Qed.
