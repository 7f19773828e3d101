(** The macros of the header, run by the preprocessor, are the words of the model of the declarations. *)
From Coq Require Import ZArith Bool List String.
From Verif Require Import Preproc Config StdFwd StdFwdSpec.
Import ListNotations.
Open Scope string_scope.

Theorem texts w a l :
  a "OPTION_FORWARD_DECLARE_STD" = Some (Num 1) ->
  (forall n, In n ["OPTION_LIBCPP"; "OPTION_LIBSTDCPP"; "OPTION_STL"] -> a n = Some (Num (if String.eqb n (detected l) then 1 else 0))) ->
  (forall n, In n (own_macros l) -> a n <> None) ->
  (forall n, In n ["OPTION_STD_NAMESPACE_BEGIN"; "OPTION_STD_NAMESPACE_END"; "OPTION_STD_NAMESPACE_CXX11_BEGIN";
                   "OPTION_STD_NAMESPACE_CXX11_END"] -> a n = None) ->
  exists b, Preproc.run w Config.forward_std a = Done b /\
    b "OPTION_STD_NAMESPACE_BEGIN" = Some (Text (String.concat " " (w_begin (branch l)))) /\
    b "OPTION_STD_NAMESPACE_END" = Some (Text (String.concat " " (w_end (branch l)))) /\
    b "OPTION_STD_NAMESPACE_CXX11_BEGIN" = Some (Text (String.concat " " (w_inner_begin (branch l)))) /\
    b "OPTION_STD_NAMESPACE_CXX11_END" = Some (Text (String.concat " " (w_inner_end (branch l)))).
Proof.
  intros F D M N.
  assert (R : forall t1 t2 t3 t4, exists b, Preproc.run w (std_namespace t1 t2 t3 t4) a = Done b /\
    b "OPTION_STD_NAMESPACE_BEGIN" = Some (Text t1) /\ b "OPTION_STD_NAMESPACE_END" = Some (Text t2) /\
    b "OPTION_STD_NAMESPACE_CXX11_BEGIN" = Some (Text t3) /\ b "OPTION_STD_NAMESPACE_CXX11_END" = Some (Text t4)).
  { intros. pose proof (N "OPTION_STD_NAMESPACE_BEGIN" ltac:(cbn; tauto)) as N1.
    pose proof (N "OPTION_STD_NAMESPACE_END" ltac:(cbn; tauto)) as N2.
    pose proof (N "OPTION_STD_NAMESPACE_CXX11_BEGIN" ltac:(cbn; tauto)) as N3.
    pose proof (N "OPTION_STD_NAMESPACE_CXX11_END" ltac:(cbn; tauto)) as N4.
    unfold std_namespace. cbn [Preproc.run]. unfold add. rewrite N1. cbn. rewrite N2. cbn. rewrite N3. cbn. rewrite N4. cbn.
    eexists. repeat (split; [reflexivity|]). reflexivity. }
  pose proof (D "OPTION_LIBCPP" ltac:(cbn; tauto)) as D1.
  pose proof (D "OPTION_LIBSTDCPP" ltac:(cbn; tauto)) as D2.
  pose proof (D "OPTION_STL" ltac:(cbn; tauto)) as D3.
  assert (S : forall n, In n (own_macros l) -> is_some (a n) = true) by (intros n I; specialize (M n I); now destruct (a n)).
  assert (T : forall b : bool, holds (truth b) = b) by (now intros []).
  unfold forward_std. cbn [Preproc.run evaluate]. unfold value_of. rewrite F, D1, D2, D3.
  destruct l as [abi|v c d| |]; cbn in *.
  - pose proof (S "_LIBCPP_BEGIN_NAMESPACE_STD" ltac:(tauto)) as S1. pose proof (S "_LIBCPP_END_NAMESPACE_STD" ltac:(tauto)) as S2.
    rewrite S1, S2. cbn. apply R.
  - pose proof (S "_GLIBCXX_VISIBILITY" ltac:(tauto)) as S1. pose proof (S "_GLIBCXX_BEGIN_NAMESPACE_VERSION" ltac:(tauto)) as S2.
    pose proof (S "_GLIBCXX_END_NAMESPACE_VERSION" ltac:(tauto)) as S3. rewrite S1, S2, S3. cbn. apply R.
  - pose proof (S "_STD_BEGIN" ltac:(tauto)) as S1. pose proof (S "_STD_END" ltac:(tauto)) as S2. rewrite S1, S2. cbn. apply R.
  - apply R.
Qed.
