(** Proofs about the commands that write the sources of the benchmark. *)
From Coq Require Import NArith ZArith Bool List Ascii String.
From Verif Require Import CMakeLang CMakeFiles CMakeRules CMakeSpec CMakeRun CMakeUse CMakeLemmas.
From Verif Require PyText Bench BenchSpec BenchFacts.
Import ListNotations.
Open Scope string_scope.
Open Scope list_scope.

Lemma apart_no t r : forallb (apart t) r = true -> forall c l, ~ In (Said c (t :: l)) r.
Proof.
  intros H c l I. rewrite forallb_forall in H. specialize (H _ I). cbn in H. now rewrite String.eqb_refl in H.
Qed.
Lemma library_no h e : forallb (apart "OUTPUT") (library_events e) = true /\ forallb (apart "OUTPUT") (install_events h e) = true.
Proof. split; unfold library_events, install_events; apart_auto. Qed.
Lemma others_no h e o l : forallb (apart "OUTPUT") (test_events h e o l) = true /\
  forallb (apart "OUTPUT") (examples_events h o l) = true /\ forallb (apart "OUTPUT") (codegen_events h e l) = true.
Proof.
  split; [|split].
  - unfold test_events, fetch, link, warnings. destruct (is_msvc e); apart_auto.
  - unfold examples_events, link. cbn [flat_map app examples fst snd]. apart_auto.
  - unfold codegen_events, link. apart_auto.
Qed.
Lemma in_when {A} (x : A) b l : In x (when b l) -> b = true /\ In x l.
Proof. destruct b; cbn; [now split|tauto]. Qed.
Lemma outputs h e c l : In (Said c ("OUTPUT" :: l)) (expected h e) ->
  on e "OPTION_INSTALL" false = false /\ on e "OPTION_BENCHMARK" false = true /\ found (h_python h) = true /\
  exists type n, In (type, n) [("opt::option", "opt_option"); ("std::optional", "std_optional")] /\
    l = [generated n; "COMMAND"; path (h_python h); "/src/benchmark/generate.py"; type; generated n; "2000"; "VERBATIM"].
Proof.
  unfold expected. rewrite in_app_iff. destruct (library_no h e) as [L1 L2]. intros [I|I]; [destruct (apart_no _ _ L1 _ _ I)|].
  destruct (on e "OPTION_INSTALL" false); [destruct (apart_no _ _ L2 _ _ I)|]. cbv zeta in I.
  destruct (others_no h e (s_opts e ++ extra_flags e) (s_links e ++ extra_flags e)) as (O1 & O2 & O3).
  rewrite !in_app_iff in I. destruct I as [I|[I|[I|I]]]; apply in_when in I; destruct I as [B I].
  - destruct (apart_no _ _ O1 _ _ I).
  - destruct (apart_no _ _ O2 _ _ I).
  - split; [reflexivity|]. split; [exact B|]. unfold benchmark_events in I. apply in_when in I. destruct I as [P I].
    split; [exact P|]. unfold generate, link, timed in I. cbn [In] in I.
    destruct I as [I|[I|[I|[I|[I|[I|[I|[I|[]]]]]]]]]; try discriminate I; injection I as _ <-.
    + exists "opt::option", "opt_option". split; [now left|reflexivity].
    + exists "std::optional", "std_optional". split; [right; now left|reflexivity].
  - destruct (apart_no _ _ O3 _ _ I).
Qed.

Theorem benchmark_written h e r c l : configures h e r -> In (Said c ("OUTPUT" :: l)) r ->
  exists out python args content ds type,
    l = out :: "COMMAND" :: python :: "/src/benchmark/generate.py" :: args ++ ["VERBATIM"] /\
    Bench.generate (map PyText.txt args) = Bench.Wrote (PyText.txt out) content /\
    BenchSpec.file_states content ds /\ BenchSpec.compiles ds /\ BenchSpec.counts (PyText.txt type) ds (Z.to_nat 2000) /\
    In (type, out) [("opt::option", generated "opt_option"); ("std::optional", generated "std_optional")].
Proof.
  intros C I. apply configures_expected in C. subst r. apply outputs in I. destruct I as (_ & _ & _ & type & n & I & ->).
  assert (K : exists content, Bench.generate (map PyText.txt [type; generated n; "2000"]) = Bench.Wrote (PyText.txt (generated n)) content).
  { destruct I as [[= <- <-]|[[= <- <-]|[]]].
    - destruct (BenchFacts.writes (PyText.txt "opt::option") (PyText.txt (generated "opt_option")) (PyText.txt "2000") []) as [x X];
        [now left|discriminate|]. exists x. exact X.
    - destruct (BenchFacts.writes (PyText.txt "std::optional") (PyText.txt (generated "std_optional")) (PyText.txt "2000") []) as [x X];
        [right; now left|discriminate|]. exists x. exact X. }
  destruct K as [content K]. pose proof K as W. cbn [map] in W. apply BenchFacts.written in W.
  destruct W as (_ & z & ds & Z & M & F & P & N & _). change (Bench.py_int (PyText.txt "2000")) with (Some 2000%Z) in Z. injection Z as <-.
  exists (generated n), (path (h_python h)), [type; generated n; "2000"], content, ds, type.
  split; [reflexivity|]. split; [exact K|]. split; [exact F|]. split; [exact P|].
  destruct I as [[= <- <-]|[[= <- <-]|[]]]; (split; [exact N|]); [now left|right; now left].
Qed.
Theorem benchmark_commands h e r : configures h e r -> on e "OPTION_INSTALL" false = false -> on e "OPTION_BENCHMARK" false = true ->
  h_python h <> None -> forall type n, In (type, n) [("opt::option", "opt_option"); ("std::optional", "std_optional")] ->
  exists l, In (Said "add_custom_command" ("OUTPUT" :: generated n :: l)) r.
Proof.
  intros C A B P type n I. apply configures_expected in C. subst r. unfold expected. rewrite A, B. cbv zeta. cbn [when].
  exists (["COMMAND"; path (h_python h); "/src/benchmark/generate.py"; type; generated n; "2000"; "VERBATIM"]).
  rewrite !in_app_iff. right. right. right. left. unfold benchmark_events. 
  replace (found (h_python h)) with true by (destruct (h_python h); [reflexivity|now destruct P]). cbn [when].
  destruct I as [[= <- <-]|[[= <- <-]|[]]]; [left; reflexivity|right; right; right; right; left; reflexivity].
Qed.
Lemma benchmark_files h e t n : on e "OPTION_INSTALL" false = false -> on e "OPTION_BENCHMARK" false = true -> found (h_python h) = true ->
  In (t, n) [("build-benchmark-opt-option", "opt_option"); ("build-benchmark-std-optional", "std_optional")] ->
  sources_of t (expected h e) = [generated n].
Proof.
  intros A B P I. rewrite sources_expected, A, B. cbv zeta. cbn [when]. unfold benchmark_events. rewrite P. cbn [when].
  assert (L : sources_of t (library_events e) = []) by
    (destruct I as [[= <- <-]|[[= <- <-]|[]]]; apply unlike_sources; unfold library_events; unlike_auto).
  assert (T : forall o l, sources_of t (test_events h e o l) = []) by
    (intros; destruct I as [[= <- <-]|[[= <- <-]|[]]]; apply unlike_sources; unfold test_events, fetch, link; unlike_auto).
  assert (X : forall o l, sources_of t (examples_events h o l) = []) by
    (intros; destruct I as [[= <- <-]|[[= <- <-]|[]]]; apply unlike_sources; unfold examples_events; unlike_auto).
  assert (G : forall l, sources_of t (codegen_events h e l) = []) by
    (intros; destruct I as [[= <- <-]|[[= <- <-]|[]]]; apply unlike_sources; unfold codegen_events; unlike_auto).
  rewrite L, T, X, G, !when_nil. destruct I as [[= <- <-]|[[= <- <-]|[]]]; reflexivity.
Qed.
Theorem benchmark_sources h e r : configures h e r ->
  on e "OPTION_INSTALL" false = false -> on e "OPTION_BENCHMARK" false = true -> h_python h <> None ->
  forall t n, In (t, n) [("build-benchmark-opt-option", "opt_option"); ("build-benchmark-std-optional", "std_optional")] ->
  sources_of t r = [generated n] /\ exists l, In (Said "add_custom_command" ("OUTPUT" :: generated n :: l)) r.
Proof.
  intros C A B P t n I. assert (F : found (h_python h) = true) by (destruct (h_python h); [reflexivity|now destruct P]). split.
  - rewrite (configures_expected h e r C). now apply benchmark_files.
  - destruct I as [[= <- <-]|[[= <- <-]|[]]].
    + apply (benchmark_commands h e r C A B P "opt::option"). now left.
    + apply (benchmark_commands h e r C A B P "std::optional"). right. now left.
Qed.
