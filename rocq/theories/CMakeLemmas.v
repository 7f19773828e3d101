(** What follows from the record of a configuration run. *)
From Coq Require Import Bool List Ascii String.
From Verif Require Import CMakeLang CMakeSource CMakeFiles CMakeRules CMakeSym CMakeSpec CMakeFacts CMakeRun CMakeUse.
From Verif Require PyText CodegenSpec.
Import ListNotations.
Open Scope string_scope.
Open Scope list_scope.

Lemma configures_expected h e r : configures h e r -> r = expected h e.
Proof.
  intros (st & st' & f & R & H & E). destruct (root_run h e st R) as (st2 & f2 & H2 & E2).
  pose proof (runs_unique _ _ _ _ _ _ H H2) as D. injection D as <- <-. rewrite E in E2. now apply app_inv_head in E2.
Qed.

(** * Views of a record, part by part *)

Lemma made_app a b : made (a ++ b) = made a ++ made b.
Proof. apply flat_map_app. Qed.
Lemma made_when b l : made (when b l) = when b (made l).
Proof. now destruct b. Qed.
Lemma made_said c l r : made (Said c l :: r) = made r.
Proof. reflexivity. Qed.
Lemma made_made n k x a o l r : made (Made n k x a o l :: r) = (n, k, x) :: made r.
Proof. reflexivity. Qed.
Lemma made_nil : made [] = [].
Proof. reflexivity. Qed.
Lemma given_app c t a b : given c t (a ++ b) = given c t a ++ given c t b.
Proof. apply flat_map_app. Qed.
Lemma given_when c t b l : given c t (when b l) = when b (given c t l).
Proof. now destruct b. Qed.
Lemma sources_app t a b : sources_of t (a ++ b) = sources_of t a ++ sources_of t b.
Proof. apply flat_map_app. Qed.
Lemma sources_when t b l : sources_of t (when b l) = when b (sources_of t l).
Proof. now destruct b. Qed.
Lemma when_nil {A} b : when b (@nil A) = [].
Proof. now destruct b. Qed.
Lemma if_made (b : bool) x y : made (if b then x else y) = if b then made x else made y.
Proof. now destruct b. Qed.
Lemma if_given c t (b : bool) x y : given c t (if b then x else y) = if b then given c t x else given c t y.
Proof. now destruct b. Qed.
Lemma if_sources t (b : bool) x y : sources_of t (if b then x else y) = if b then sources_of t x else sources_of t y.
Proof. now destruct b. Qed.
Lemma map_when {A B} (f : A -> B) b l : map f (when b l) = when b (map f l).
Proof. now destruct b. Qed.
Lemma when_when {A} b c (l : list A) : when b (when c l) = when (b && c) l.
Proof. now destruct b. Qed.
Lemma filter_when {A} (f : A -> bool) b l : filter f (when b l) = when b (filter f l).
Proof. now destruct b. Qed.
Lemma if_same {A} (b : bool) (x : A) : (if b then x else x) = x.
Proof. now destruct b. Qed.
Ltac parts :=
  repeat (rewrite made_app || rewrite made_when || rewrite given_app || rewrite given_when || rewrite sources_app
          || rewrite sources_when || rewrite if_made || rewrite if_given || rewrite if_sources).

Lemma warnings_made e t : made (warnings e t) = [].
Proof. unfold warnings. now destruct (is_msvc e), (is_clang_or_gnu e). Qed.

(** * The targets *)

Lemma expected_made h e : made (expected h e) =
  ("option", InterfaceLibrary, s_excl e) ::
  if on e "OPTION_INSTALL" false then []
  else when (on e "OPTION_TEST" (s_top e))
         (("option-test", Executable, s_excl e) :: when (tidy_wanted h e) [("clang-tidy", Custom, true)]
          ++ [("run-option-test", Custom, true)])
       ++ when (on e "OPTION_EXAMPLES" (s_top e))
            (map (fun n => (n, Executable, true)) ["example-methods"; "example-operators"; "example-functions"; "example-option-traits"]
             ++ when (found (h_python h)) [("check-option-examples", Custom, true)])
       ++ when (on e "OPTION_BENCHMARK" false && found (h_python h))
            [("build-benchmark-opt-option", Library, true); ("build-benchmark-std-optional", Library, true)]
       ++ when (on e "OPTION_CODEGEN_TEST" true)
            (("option-codegen-test", Library, s_excl e)
             :: when (found (h_python h) && usable (h_program h "llvm_objdump_path") "llvm_objdump_path")
                  [("run-option-codegen-test", Custom, true)]).
Proof.
  unfold expected, library_events, test_events, examples_events, benchmark_events, codegen_events, tidy_events.
  unfold link, generate, timed, fetch. cbn [flat_map app examples fst snd]. parts.
  repeat first [rewrite made_said | rewrite made_made | rewrite made_nil | rewrite warnings_made | progress parts].
  rewrite !when_when. fold (tidy_wanted h e).
  cbn [made flat_map app map]. rewrite !when_nil. cbn [app].
  destruct (on e "OPTION_INSTALL" false); [reflexivity|].
  destruct (on e "OPTION_TEST" (s_top e)); [|reflexivity]. cbn [when]. rewrite when_nil. reflexivity.
Qed.

Lemma default_expected h e : built_by_default (expected h e) =
  when (negb (on e "OPTION_INSTALL" false) && negb (s_excl e))
    (when (on e "OPTION_TEST" (s_top e)) ["option-test"] ++ when (on e "OPTION_CODEGEN_TEST" true) ["option-codegen-test"]).
Proof.
  unfold built_by_default. rewrite expected_made.
  destruct (on e "OPTION_INSTALL" false); [reflexivity|].
  generalize (on e "OPTION_TEST" (s_top e)), (on e "OPTION_EXAMPLES" (s_top e)), (on e "OPTION_BENCHMARK" false),
    (on e "OPTION_CODEGEN_TEST" true), (found (h_python h)), (tidy_wanted h e),
    (usable (h_program h "llvm_objdump_path") "llvm_objdump_path"), (s_excl e).
  intros [] [] [] [] [] [] [] []; reflexivity.
Qed.

(** * The arguments of commands, part by part *)

Lemma given_expected c t h e : given c t (expected h e) =
  given c t (library_events e)
  ++ if on e "OPTION_INSTALL" false then given c t (install_events h e)
     else let o := s_opts e ++ extra_flags e in
          let l := s_links e ++ extra_flags e in
          when (on e "OPTION_TEST" (s_top e)) (given c t (test_events h e o l))
          ++ when (on e "OPTION_EXAMPLES" (s_top e)) (given c t (examples_events h o l))
          ++ when (on e "OPTION_BENCHMARK" false) (given c t (benchmark_events h e o l))
          ++ when (on e "OPTION_CODEGEN_TEST" true) (given c t (codegen_events h e l)).
Proof. unfold expected. cbv zeta. parts. reflexivity. Qed.
Lemma sources_expected t h e : sources_of t (expected h e) =
  sources_of t (library_events e)
  ++ if on e "OPTION_INSTALL" false then sources_of t (install_events h e)
     else let o := s_opts e ++ extra_flags e in
          let l := s_links e ++ extra_flags e in
          when (on e "OPTION_TEST" (s_top e)) (sources_of t (test_events h e o l))
          ++ when (on e "OPTION_EXAMPLES" (s_top e)) (sources_of t (examples_events h o l))
          ++ when (on e "OPTION_BENCHMARK" false) (sources_of t (benchmark_events h e o l))
          ++ when (on e "OPTION_CODEGEN_TEST" true) (sources_of t (codegen_events h e l)).
Proof. unfold expected. cbv zeta. parts. reflexivity. Qed.
(** Events that are not about t. *)
Definition apart (t : string) (e : event) : bool :=
  match e with Said _ (t' :: _) => negb (String.eqb t' t) | _ => true end.
Lemma apart_given c t r : forallb (apart t) r = true -> given c t r = [].
Proof.
  induction r as [|[n k x a o l|c' [|t' l]] r IH]; cbn; auto. intros H. apply andb_prop in H as [H1 H2].
  apply negb_true_iff in H1. rewrite H1, andb_false_r. now apply IH.
Qed.
Lemma forallb_when {A} (f : A -> bool) b l : forallb f l = true -> forallb f (when b l) = true.
Proof. now destruct b. Qed.
Lemma tidy_apart t h e o l : forallb (apart t) (tidy_events h e o l) = true.
Proof. unfold tidy_events. now repeat apply forallb_when. Qed.
Lemma app_apart t a b : forallb (apart t) a = true -> forallb (apart t) b = true -> forallb (apart t) (a ++ b) = true.
Proof. intros. rewrite forallb_app. now apply andb_true_intro. Qed.
Lemma cons_apart t c t' l r : String.eqb t' t = false -> forallb (apart t) r = true ->
  forallb (apart t) (Said c (t' :: l) :: r) = true.
Proof. intros H1 H2. cbn. now rewrite H1, H2. Qed.
Ltac apart_auto := repeat first [apply app_apart | apply forallb_when | apply tidy_apart | reflexivity | apply cons_apart].

Section Given.
Context (h : host) (e : site) (o l : value).
Lemma warnings_apart t : t <> "option-test" -> forallb (apart t) (warnings e "option-test") = true.
Proof.
  intros N. assert (E : String.eqb "option-test" t = false) by (apply String.eqb_neq; congruence).
  unfold warnings. destruct (is_msvc e); [|apply forallb_when]; apply cons_apart; auto.
Qed.
(** Only the first part is about the library. *)
Lemma test_option : forallb (apart "option") (test_events h e o l) = true.
Proof. unfold test_events. apart_auto. apply warnings_apart. discriminate. Qed.
Lemma examples_option : forallb (apart "option") (examples_events h o l) = true.
Proof. unfold examples_events. apart_auto. Qed.
Lemma benchmark_option : forallb (apart "option") (benchmark_events h e o l) = true.
Proof. unfold benchmark_events. apart_auto. Qed.
Lemma codegen_option : forallb (apart "option") (codegen_events h e l) = true.
Proof. unfold codegen_events. apart_auto. Qed.
Lemma install_option : forallb (apart "option") (install_events h e) = true.
Proof. reflexivity. Qed.
Lemma library_test : forallb (apart "option-test") (library_events e) = true.
Proof. unfold library_events. apart_auto. Qed.
Lemma examples_test : forallb (apart "option-test") (examples_events h o l) = true.
Proof. unfold examples_events. apart_auto. Qed.
Lemma benchmark_test : forallb (apart "option-test") (benchmark_events h e o l) = true.
Proof. unfold benchmark_events. apart_auto. Qed.
Lemma codegen_test : forallb (apart "option-test") (codegen_events h e l) = true.
Proof. unfold codegen_events. apart_auto. Qed.
Lemma install_test : forallb (apart "option-test") (install_events h e) = true.
Proof. reflexivity. Qed.
End Given.

Lemma given_option c h e : given c "option" (expected h e) = given c "option" (library_events e).
Proof.
  rewrite given_expected. cbv zeta.
  rewrite (apart_given _ _ _ (test_option h e _ _)), (apart_given _ _ _ (examples_option h _ _)),
    (apart_given _ _ _ (benchmark_option h e _ _)), (apart_given _ _ _ (codegen_option h e _)),
    (apart_given _ _ _ (install_option h e)), !when_nil.
  cbn [app]. rewrite if_same. apply app_nil_r.
Qed.
Lemma given_test c h e : given c "option-test" (expected h e) =
  when (negb (on e "OPTION_INSTALL" false) && on e "OPTION_TEST" (s_top e))
    (given c "option-test" (test_events h e (s_opts e ++ extra_flags e) (s_links e ++ extra_flags e))).
Proof.
  rewrite given_expected. cbv zeta.
  rewrite (apart_given _ _ _ (library_test e)), (apart_given _ _ _ (examples_test h _ _)),
    (apart_given _ _ _ (benchmark_test h e _ _)), (apart_given _ _ _ (codegen_test h e _)),
    (apart_given _ _ _ (install_test h e)), !when_nil, !app_nil_r.
  now destruct (on e "OPTION_INSTALL" false).
Qed.

Lemma option_sources h e : given "target_sources" "option" (expected h e) =
  when (on e "OPTION_USE_NATVIS" true) ["INTERFACE"; "$<BUILD_INTERFACE:/src/debugger/option.natvis>"]
  ++ when (on e "OPTION_USE_NATSTEPFILTER" false) ["INTERFACE"; "$<BUILD_INTERFACE:/src/debugger/option.natstepfilter>"].
Proof. rewrite given_option. unfold library_events. parts. reflexivity. Qed.
Lemma option_includes h e : given "target_include_directories" "option" (expected h e) =
  when (negb (s_top e)) ["SYSTEM"] ++ ["INTERFACE"; "$<BUILD_INTERFACE:/src/include>"; "$<INSTALL_INTERFACE:include>"].
Proof. rewrite given_option. unfold library_events. parts. cbn. now rewrite !when_nil, !app_nil_r. Qed.
Lemma option_features h e : given "target_compile_features" "option" (expected h e) = ["INTERFACE"; "cxx_std_17"].
Proof. rewrite given_option. unfold library_events. parts. cbn. now rewrite !when_nil. Qed.
Lemma option_nothing_else c h e : ~ In c ["target_sources"; "target_include_directories"; "target_compile_features"] ->
  given c "option" (expected h e) = [].
Proof.
  intros N. rewrite given_option. unfold library_events. parts. cbn [given flat_map].
  assert (E : forall x, In x ["target_sources"; "target_include_directories"; "target_compile_features"] -> String.eqb x c = false).
  { intros x H. apply String.eqb_neq. congruence. }
  rewrite !E by (cbn; tauto). cbn [andb app]. now rewrite !when_nil.
Qed.

Lemma tidy_given c t h e o l : given c t (tidy_events h e o l) = [].
Proof. apply apart_given, tidy_apart. Qed.
Lemma test_links h e : given "target_link_libraries" "option-test" (expected h e) =
  when (negb (on e "OPTION_INSTALL" false) && on e "OPTION_TEST" (s_top e))
    (["PRIVATE"; "option"; "PRIVATE"; "doctest::doctest"; "PRIVATE"; "Boost::pfr"]
     ++ when (on e "USE_LIBASSERT" true) ["PRIVATE"; "libassert::assert"]).
Proof.
  rewrite given_test. f_equal. unfold test_events. parts.
  change (given "target_link_libraries" "option-test" (?a :: tidy_events h e ?o ?l)) with
    (given "target_link_libraries" "option-test" (tidy_events h e o l)).
  rewrite tidy_given, when_nil.
  replace (given "target_link_libraries" "option-test" (warnings e "option-test")) with (@nil string)
    by (unfold warnings; now destruct (is_msvc e), (is_clang_or_gnu e)).
  destruct (is_msvc e), (is_clang_or_gnu e), (matches "Windows" (s_system e)), (on e "USE_LIBASSERT" true); reflexivity.
Qed.
Lemma test_options h e : given "target_compile_options" "option-test" (expected h e) =
  when (negb (on e "OPTION_INSTALL" false) && on e "OPTION_TEST" (s_top e))
    (if is_msvc e then
       "PRIVATE" :: msvc_warnings ++ ["PRIVATE"; "/Zc:preprocessor"; "/Zc:__cplusplus"; "/bigobj"; "/MP"; "/fp:strict"]
     else when (is_clang_or_gnu e) ("PRIVATE" :: gnu_like_warnings e)).
Proof.
  rewrite given_test. f_equal. unfold test_events. parts.
  change (given "target_compile_options" "option-test" (?a :: tidy_events h e ?o ?l)) with
    (given "target_compile_options" "option-test" (tidy_events h e o l)).
  rewrite tidy_given, when_nil. unfold warnings. generalize (gnu_like_warnings e). intros w.
  destruct (is_msvc e), (is_clang_or_gnu e), (matches "Windows" (s_system e)), (on e "USE_LIBASSERT" true); cbn;
    now rewrite ?app_nil_r.
Qed.
Lemma test_definitions h e : given "target_compile_definitions" "option-test" (expected h e) =
  when (negb (on e "OPTION_INSTALL" false) && on e "OPTION_TEST" (s_top e))
    ["PRIVATE"; "DOCTEST_CONFIG_NO_MULTITHREADING"; "DOCTEST_CONFIG_SUPER_FAST_ASSERTS"].
Proof.
  rewrite given_test. f_equal. unfold test_events. parts.
  change (given "target_compile_definitions" "option-test" (?a :: tidy_events h e ?o ?l)) with
    (given "target_compile_definitions" "option-test" (tidy_events h e o l)).
  rewrite tidy_given, when_nil. unfold warnings.
  destruct (is_msvc e), (is_clang_or_gnu e), (matches "Windows" (s_system e)), (on e "USE_LIBASSERT" true); reflexivity.
Qed.

(** ** Targets that are not named, commands that are not used *)

Lemma given_elsewhere c t h e : ~ In t (["FILES"; "TARGETS"; "EXPORT"; "DIRECTORY"; "/src/cmake/option-config.cmake.in";
    "/bin/src/option-config-version.cmake"; "doctest"; "boost_pfr"; "libassert"; "libassert-lib"; "TARGET"; "OUTPUT"] ++ own_targets) ->
  given c t (expected h e) = [].
Proof.
  intros N. apply apart_given.
  assert (E : forall x, In x (["FILES"; "TARGETS"; "EXPORT"; "DIRECTORY"; "/src/cmake/option-config.cmake.in";
    "/bin/src/option-config-version.cmake"; "doctest"; "boost_pfr"; "libassert"; "libassert-lib"; "TARGET"; "OUTPUT"] ++ own_targets) ->
    String.eqb x t = false) by (intros x H; apply String.eqb_neq; congruence).
  assert (W : forallb (apart t) (warnings e "option-test") = true).
  { apply warnings_apart. intros ->. apply N. cbn. tauto. }
  unfold expected. apply app_apart.
  - unfold library_events. repeat first [apply app_apart | apply forallb_when | reflexivity | apply cons_apart; [apply E; cbn; tauto|]].
  - destruct (on e "OPTION_INSTALL" false).
    + unfold install_events. cbv zeta. repeat first [reflexivity | apply cons_apart; [apply E; cbn; tauto|]].
    + cbv zeta. unfold test_events, examples_events, benchmark_events, codegen_events, fetch, link, generate, timed. cbn [flat_map examples app fst snd].
      repeat first [apply app_apart | apply forallb_when | apply tidy_apart | exact W | reflexivity | apply cons_apart; [apply E; cbn; tauto|]
                   | match goal with |- forallb _ (Made _ _ _ _ _ _ :: ?r) = true => change (forallb (apart t) r = true) end].
Qed.
Definition silent (c : string) (e : event) : bool := match e with Said c' _ => negb (String.eqb c' c) | _ => true end.
Lemma silent_given c t r : forallb (silent c) r = true -> given c t r = [].
Proof.
  induction r as [|[n k x a o l|c' [|t' l]] r IH]; cbn; auto; intros H; apply andb_prop in H as [H1 H2];
    [now apply IH|]. apply negb_true_iff in H1. rewrite H1. now apply IH.
Qed.
Lemma library_silent e : forallb (silent "target_compile_options") (library_events e) = true.
Proof. unfold library_events. rewrite !forallb_app. rewrite !forallb_when by reflexivity. reflexivity. Qed.
Lemma examples_silent h o l : forallb (silent "target_compile_options") (examples_events h o l) = true.
Proof. unfold examples_events. rewrite forallb_app, forallb_when by reflexivity. reflexivity. Qed.
Lemma benchmark_silent h e o l : forallb (silent "target_compile_options") (benchmark_events h e o l) = true.
Proof. unfold benchmark_events. now rewrite forallb_when by reflexivity. Qed.
Lemma install_silent h e : forallb (silent "target_compile_options") (install_events h e) = true.
Proof. reflexivity. Qed.
Lemma given_nil c t : given c t [] = [].
Proof. reflexivity. Qed.
Lemma given_made c t n k x a o l r : given c t (Made n k x a o l :: r) = given c t r.
Proof. reflexivity. Qed.
Lemma given_said c t c' t' l r : given c t (Said c' (t' :: l) :: r) =
  (if String.eqb c' c && String.eqb t' t then l else []) ++ given c t r.
Proof. reflexivity. Qed.
Lemma test_elsewhere h e o l t : t <> "option-test" -> given "target_compile_options" t (test_events h e o l) = [].
Proof.
  intros N. unfold test_events, fetch, link.
  assert (E : String.eqb "option-test" t = false) by (apply String.eqb_neq; congruence).
  repeat first [rewrite given_app | rewrite given_when | rewrite given_made | rewrite given_nil
               | rewrite (apart_given _ _ _ (warnings_apart e t N)) | rewrite tidy_given | rewrite given_said].
  rewrite E, !andb_false_r.
  repeat match goal with |- context [String.eqb ?a "target_compile_options"] =>
    change (String.eqb a "target_compile_options") with false end.
  cbn [andb app]. repeat (rewrite when_nil; cbn [app]). reflexivity.
Qed.
Lemma codegen_elsewhere h e l t : t <> "option-codegen-test" -> given "target_compile_options" t (codegen_events h e l) = [].
Proof.
  intros N. assert (E : String.eqb "option-codegen-test" t = false) by (apply String.eqb_neq; congruence).
  unfold codegen_events. apply apart_given.
  repeat first [apply app_apart | apply forallb_when | reflexivity | apply cons_apart; [exact E|]
               | match goal with |- forallb _ (Made _ _ _ _ _ _ :: ?r) = true => change (forallb (apart t) r = true) end].
Qed.

(** * The sources *)

Definition unlike (t : string) (e : event) : bool :=
  match e with Made n _ _ _ _ _ => negb (String.eqb n t) | _ => true end.
Lemma unlike_sources t r : forallb (unlike t) r = true -> sources_of t r = [].
Proof.
  induction r as [|[n k x a o l|c' l] r IH]; cbn; auto. intros H. apply andb_prop in H as [H1 H2].
  apply negb_true_iff in H1. rewrite H1. now apply IH.
Qed.
Lemma app_unlike t a b : forallb (unlike t) a = true -> forallb (unlike t) b = true -> forallb (unlike t) (a ++ b) = true.
Proof. intros. rewrite forallb_app. now apply andb_true_intro. Qed.
Lemma cons_unlike t c l r : forallb (unlike t) r = true -> forallb (unlike t) (Said c l :: r) = true.
Proof. auto. Qed.
Lemma warnings_unlike t e : forallb (unlike t) (warnings e "option-test") = true.
Proof. unfold warnings. destruct (is_msvc e); [|apply forallb_when]; reflexivity. Qed.
Ltac unlike_auto :=
  repeat first [apply app_unlike | apply forallb_when | apply warnings_unlike | reflexivity | apply cons_unlike].
Lemma test_files h e : sources_of "option-test" (expected h e) =
  when (negb (on e "OPTION_INSTALL" false) && on e "OPTION_TEST" (s_top e)) test_sources.
Proof.
  rewrite sources_expected. cbv zeta.
  set (o := s_opts e ++ extra_flags e). set (l := s_links e ++ extra_flags e).
  assert (L : sources_of "option-test" (library_events e) = []).
  { apply unlike_sources. unfold library_events. unlike_auto. }
  assert (X : sources_of "option-test" (examples_events h o l) = []).
  { apply unlike_sources. unfold examples_events. unlike_auto. }
  assert (B : sources_of "option-test" (benchmark_events h e o l) = []).
  { apply unlike_sources. unfold benchmark_events. unlike_auto. }
  assert (C : sources_of "option-test" (codegen_events h e l) = []).
  { apply unlike_sources. unfold codegen_events. unlike_auto. }
  assert (T : sources_of "option-test" (test_events h e o l) = test_sources).
  { unfold test_events at 1. rewrite sources_app.
    match goal with |- _ ++ sources_of _ ?r = _ => assert (U : sources_of "option-test" r = []) end.
    { apply unlike_sources. unfold tidy_events. unlike_auto. }
    rewrite U. apply app_nil_r. }
  rewrite L, X, B, C, T, !when_nil, !app_nil_r. now destruct (on e "OPTION_INSTALL" false).
Qed.
Lemma codegen_command h e : sources_of "run-option-codegen-test" (expected h e) =
  when (negb (on e "OPTION_INSTALL" false) && on e "OPTION_CODEGEN_TEST" true && found (h_python h)
        && usable (h_program h "llvm_objdump_path") "llvm_objdump_path")
    ["VERBATIM"; "COMMAND"; path (h_python h); "/src/test/codegen/run.py"; path (h_program h "llvm_objdump_path");
     "$<TARGET_FILE:option-codegen-test>"; "/src/test/codegen/sample.cpp"; join (codegen_conditions h e); s_version e].
Proof.
  rewrite sources_expected. cbv zeta.
  set (o := s_opts e ++ extra_flags e). set (l := s_links e ++ extra_flags e).
  assert (L : sources_of "run-option-codegen-test" (library_events e) = []).
  { apply unlike_sources. unfold library_events. unlike_auto. }
  assert (X : sources_of "run-option-codegen-test" (examples_events h o l) = []).
  { apply unlike_sources. unfold examples_events. unlike_auto. }
  assert (B : sources_of "run-option-codegen-test" (benchmark_events h e o l) = []).
  { apply unlike_sources. unfold benchmark_events. unlike_auto. }
  assert (T : sources_of "run-option-codegen-test" (test_events h e o l) = []).
  { apply unlike_sources. unfold test_events, tidy_events. unlike_auto. }
  rewrite L, X, B, T, !when_nil, ?app_nil_r. cbn [app]. clear.
  destruct (on e "OPTION_INSTALL" false); [reflexivity|]. destruct (on e "OPTION_CODEGEN_TEST" true); [|reflexivity].
  unfold codegen_events. parts. rewrite when_when. cbn [negb andb when].
  destruct (found (h_python h) && usable (h_program h "llvm_objdump_path") "llvm_objdump_path"), (is_clang_or_gnu e); reflexivity.
Qed.

(** * The words given to the script *)

Lemma conditions_words h e : exists c,
  PyText.split ";"%char (PyText.lower (PyText.txt (join (codegen_conditions h e)))) = CodegenSpec.words c /\
  c = compiler_of h e.
Proof.
  exists (compiler_of h e). split; [|reflexivity]. unfold codegen_conditions, compiler_of.
  destruct (is_msvc e); [reflexivity|]. destruct (is_clang e).
  - destruct (is_cl_driver e); [reflexivity|]. destruct (h_symbol h "_LIBCPP_VERSION"); [reflexivity|].
    destruct (on e "OLD_LIBSTDCPP" false); reflexivity.
  - destruct (is_gnu e); [destruct (on e "OLD_LIBSTDCPP" false); reflexivity|].
    destruct (same (s_id e) "IntelLLVM"); reflexivity.
Qed.

(** * States that are ready *)

(** The settings and the machine are as assumed; ts are new names. *)
Record proper (ts : list string) (h : host) (e : site) : Prop := {
  p_excl : s_excl e = false; p_opts : s_opts e = []; p_links : s_links e = [];
  p_unset : forall x, In x (unset ++ arguments) -> s_set e x = None;
  p_free : forall t p, In t (ts ++ own_targets) -> ~ In t (h_provides h p);
  p_downloads : forall p t, In (p, t) downloads -> In t (h_provides h p) }.
Ltac start_tac e :=
  intros [X O L U P D]; constructor;
  [ intros x s H; cbn [machine In] in H;
    repeat (destruct H as [E|H]; [injection E as <- <-; try reflexivity; now destruct (s_top e)|]); contradiction
  | intros x H; cbn [settings In] in H; repeat (destruct H as [<-|H]; [reflexivity|]); contradiction
  | intros x H; assert (N : s_set e x = None) by (apply U, in_or_app; now left); cbn [unset In] in H;
    repeat (destruct H as [<-|H]; [unfold lookup; cbn -[s_set]; unfold single; now rewrite N|]); contradiction
  | intros x H; cbn [searched In] in H; repeat (destruct H as [<-|H]; [reflexivity|]); contradiction
  | intros x H; assert (N : s_set e x = None) by (apply U, in_or_app; now right);
    unfold at_start, at_start_in; cbn [start cache]; unfold single; now rewrite N
  | intros t H; split; [reflexivity|]; intros p; now apply P
  | exact D | reflexivity | now rewrite X | now rewrite O | now rewrite L | reflexivity | reflexivity ].
Lemma start_ready h e : proper [] h e -> ready h e (at_start e).
Proof. start_tac e. Qed.
Lemma subdirectory_ready h e : proper subdirectory_targets h e ->
  ready_in "/use" subdirectory_targets h e (at_start_in "/use" subdirectory_values e).
Proof. start_tac e. Qed.
Lemma fetched_ready a b h e : proper fetched_targets h e ->
  ready_in "/use" fetched_targets h e (at_start_in "/use" (fetched_values a b) e).
Proof. start_tac e. Qed.
Lemma package_ready share h e : proper package_targets h e ->
  ready_in "/use" package_targets h e (at_start_in "/use" (package_values share) e).
Proof. start_tac e. Qed.
Lemma configures_at h e : proper [] h e -> configures h e (expected h e).
Proof.
  intros P. destruct (root_run h e _ (start_ready h e P)) as (st' & f & H & E).
  exists (at_start e), st', f. split; [now apply start_ready|]. split; [exact H|]. rewrite E. reflexivity.
Qed.
Lemma adds_at h e : proper subdirectory_targets h e -> outside e -> adds h e (expected_subdirectory h e).
Proof.
  intros P O. pose proof (subdirectory_ready h e P) as R.
  assert (V : forall x s, In (x, s) subdirectory_values -> lookup (at_start_in "/use" subdirectory_values e) x = Some [s]).
  { intros x s H. cbn [subdirectory_values In] in H. destruct O as (T & _).
    repeat (destruct H as [E|H]; [injection E as <- <-; unfold at_start_in; rewrite T; reflexivity|]). contradiction. }
  destruct (subdirectory_run h e _ O R V) as (st' & f & H & E).
  exists (at_start_in "/use" subdirectory_values e), st', f.
  split; [exact R|]. split; [exact V|]. split; [exact H|]. rewrite E. reflexivity.
Qed.
Lemma fetches_at a b h e : a <> "" -> b <> "" -> proper fetched_targets h e -> outside e ->
  fetches a b h e (expected_fetched a b h e).
Proof.
  intros Na Nb P O. pose proof (fetched_ready a b h e P) as R.
  assert (V : forall x s, In (x, s) (fetched_values a b) -> lookup (at_start_in "/use" (fetched_values a b) e) x = Some [s]).
  { intros x s H. cbn [fetched_values In] in H. destruct O as (T & _).
    repeat (destruct H as [E|H]; [injection E as <- <-; unfold at_start_in; rewrite T; reflexivity|]). contradiction. }
  destruct (fetched_run a b h e _ Na Nb O R V) as (st' & f & H & E).
  exists (at_start_in "/use" (fetched_values a b) e), st', f.
  split; [exact R|]. split; [exact V|]. split; [exact H|]. rewrite E. reflexivity.
Qed.
Lemma finds_at h0 e0 share h e : proper [] h0 e0 -> on e0 "OPTION_INSTALL" false = true ->
  proper package_targets h e -> outside e ->
  finds h0 e0 share h e (expected_package (given_or e0 "CMAKE_INSTALL_INCLUDEDIR" "include") share e).
Proof.
  intros P0 I P O. pose proof (package_ready share h e P) as R.
  destruct (package_run h0 e0 share h e _ I O R eq_refl) as (st' & f & H & E).
  exists (at_start_in "/use" (package_values share) e), st', f.
  split; [exact R|]. split; [reflexivity|]. split; [|rewrite E; reflexivity].
  exists (expected h0 e0). split; [now apply configures_at|exact H].
Qed.

(** USE_SANITIZER is not looked at. *)
Lemma other_lookup st x y v : x <> y -> lookup (with_setting st y v) x = lookup st x.
Proof. intros N. unfold lookup, with_setting, upd. cbn. apply String.eqb_neq in N. now rewrite N. Qed.
Lemma sanitizer_ready h e st v : ready h e st -> ready h e (with_setting st "USE_SANITIZER" v).
Proof.
  intros [A B C D E F G H I J K L M]. constructor; auto.
  - intros x s S. rewrite other_lookup; auto. intros ->. cbn in S.
    repeat (destruct S as [S|S]; [discriminate|]). contradiction.
  - intros x S. rewrite other_lookup; auto. intros ->. cbn in S.
    repeat (destruct S as [S|S]; [discriminate|]). contradiction.
  - intros x S. rewrite other_lookup; auto. intros ->. cbn in S.
    repeat (destruct S as [S|S]; [discriminate|]). contradiction.
  - intros x S. cbn. unfold upd. replace (String.eqb x "USE_SANITIZER") with false; auto.
    symmetry. apply String.eqb_neq. intros ->. cbn in S. repeat (destruct S as [S|S]; [discriminate|]). contradiction.
Qed.
Lemma sanitizer_ignored h e st v : ready h e st ->
  exists st1 f1 st2 f2, runs h (find_file source_tree) st root_cmake (Done st1 f1) /\
    runs h (find_file source_tree) (with_setting st "USE_SANITIZER" v) root_cmake (Done st2 f2) /\ record st1 = record st2.
Proof.
  intros R. destruct (root_run h e st R) as (st1 & f1 & H1 & E1).
  destruct (root_run h e _ (sanitizer_ready h e st v R)) as (st2 & f2 & H2 & E2).
  exists st1, f1, st2, f2. split; [exact H1|]. split; [exact H2|]. rewrite E1. symmetry. exact E2.
Qed.

(** * Users *)

Lemma adds_expected h e r : outside e -> adds h e r -> r = expected_subdirectory h e.
Proof.
  intros O (st & st' & f & R & V & H & E). destruct (subdirectory_run h e st O R V) as (st2 & f2 & H2 & E2).
  pose proof (runs_unique _ _ _ _ _ _ H H2) as D. injection D as <- <-. rewrite E in E2. now apply app_inv_head in E2.
Qed.
Lemma fetches_expected a b h e r : a <> "" -> b <> "" -> outside e -> fetches a b h e r -> r = expected_fetched a b h e.
Proof.
  intros Na Nb O (st & st' & f & R & V & H & E). destruct (fetched_run a b h e st Na Nb O R V) as (st2 & f2 & H2 & E2).
  pose proof (runs_unique _ _ _ _ _ _ H H2) as D. injection D as <- <-. rewrite E in E2. now apply app_inv_head in E2.
Qed.
Lemma finds_expected h0 e0 share h e r : on e0 "OPTION_INSTALL" false = true -> outside e -> finds h0 e0 share h e r ->
  r = expected_package (given_or e0 "CMAKE_INSTALL_INCLUDEDIR" "include") share e.
Proof.
  intros I O (st & st' & f & R & V & (r0 & C & H) & E). apply configures_expected in C. subst r0.
  destruct (package_run h0 e0 share h e st I O R V) as (st2 & f2 & H2 & E2).
  pose proof (runs_unique _ _ _ _ _ _ H H2) as D. injection D as <- <-. rewrite E in E2. now apply app_inv_head in E2.
Qed.
Lemma given_around c t u r x y : u <> t ->
  given c t ([user_target u] ++ r ++ [link u x; user_run y]) = given c t r.
Proof.
  intros N. apply String.eqb_neq in N. rewrite !given_app. cbn [given flat_map user_target user_run link app].
  rewrite N, andb_false_r. cbn [app]. apply app_nil_r.
Qed.
Lemma subdirectory_given c h e : given c "option" (expected_subdirectory h e) = given c "option" (expected h e).
Proof. apply given_around. discriminate. Qed.
Lemma fetched_given c a b h e : c <> "FetchContent_Declare" ->
  given c "option" (expected_fetched a b h e) = given c "option" (expected h e).
Proof.
  intros N. unfold expected_fetched. cbv zeta. rewrite !given_app.
  cbn [given flat_map user_target user_run link app].
  replace (String.eqb "FetchContent_Declare" c) with false by (symmetry; apply String.eqb_neq; congruence).
  change (String.eqb "option-FetchContent-target" "option") with false. rewrite andb_false_r. cbn [andb app]. apply app_nil_r.
Qed.
Lemma made_built a b : built_by_default (a ++ b) = built_by_default a ++ built_by_default b.
Proof. unfold built_by_default. rewrite made_app. apply flat_map_app. Qed.
Lemma subdirectory_default h e : outside e -> built_by_default (expected_subdirectory h e) =
  "option-add_subdirectory-target" :: when (negb (on e "OPTION_INSTALL" false))
    (when (on e "OPTION_TEST" false) ["option-test"] ++ when (on e "OPTION_CODEGEN_TEST" true) ["option-codegen-test"]).
Proof.
  intros (T & X & _). unfold expected_subdirectory. cbv zeta. rewrite !made_built, default_expected, T, X.
  cbn [negb]. rewrite andb_true_r. cbn. now rewrite app_nil_r.
Qed.
Lemma fetched_default a b h e : outside e -> built_by_default (expected_fetched a b h e) =
  when (negb (on e "OPTION_INSTALL" false))
    (when (on e "OPTION_TEST" false) ["option-test"] ++ when (on e "OPTION_CODEGEN_TEST" true) ["option-codegen-test"])
  ++ ["option-FetchContent-target"].
Proof.
  intros (T & X & _). unfold expected_fetched. cbv zeta. rewrite !made_built, default_expected, T, X.
  cbn [negb]. rewrite andb_true_r. reflexivity.
Qed.
Lemma package_default inc share e : built_by_default (expected_package inc share e) = ["option-find_package-target"].
Proof.
  unfold expected_package. cbv zeta. rewrite !made_built.
  destruct (on e "OPTION_USE_NATVIS" true), (on e "OPTION_USE_NATSTEPFILTER" true); reflexivity.
Qed.
Lemma package_sources inc share e : given "target_sources" "option" (expected_package inc share e) =
  when (on e "OPTION_USE_NATVIS" true) ["INTERFACE"; (share ++ "/debugger/option.natvis")%string]
  ++ when (on e "OPTION_USE_NATSTEPFILTER" true) ["INTERFACE"; (share ++ "/debugger/option.natstepfilter")%string].
Proof.
  unfold expected_package. cbv zeta. parts.
  destruct (on e "OPTION_USE_NATVIS" true), (on e "OPTION_USE_NATSTEPFILTER" true); reflexivity.
Qed.
Lemma package_requirements inc share e : given "set_target_properties" "option" (expected_package inc share e) =
  ["PROPERTIES"; "INTERFACE_COMPILE_FEATURES"; "cxx_std_17";
   "INTERFACE_INCLUDE_DIRECTORIES"; ("/prefix/include;/prefix/" ++ inc)%string].
Proof.
  unfold expected_package. cbv zeta. parts.
  destruct (on e "OPTION_USE_NATVIS" true), (on e "OPTION_USE_NATSTEPFILTER" true); reflexivity.
Qed.
(** The headers are put into the directory inc. *)
Lemma installed_headers h e : on e "OPTION_INSTALL" false = true ->
  given "install" "DIRECTORY" (expected h e) = ["include/"; "DESTINATION"; given_or e "CMAKE_INSTALL_INCLUDEDIR" "include"].
Proof.
  intros I. rewrite given_expected, I. replace (given "install" "DIRECTORY" (library_events e)) with (@nil string).
  - reflexivity.
  - symmetry. apply apart_given. unfold library_events. apart_auto.
Qed.

Lemma adds_gets h e r : outside e -> adds h e r ->
  built_by_default r = "option-add_subdirectory-target" :: when (negb (on e "OPTION_INSTALL" false))
    (when (on e "OPTION_TEST" false) ["option-test"] ++ when (on e "OPTION_CODEGEN_TEST" true) ["option-codegen-test"]) /\
  given "target_link_libraries" "option-add_subdirectory-target" r = ["PRIVATE"; "option"] /\
  given "target_include_directories" "option" r =
    ["SYSTEM"; "INTERFACE"; "$<BUILD_INTERFACE:/src/include>"; "$<INSTALL_INTERFACE:include>"] /\
  given "target_compile_features" "option" r = ["INTERFACE"; "cxx_std_17"] /\
  given "target_sources" "option" r =
    when (on e "OPTION_USE_NATVIS" true) ["INTERFACE"; "$<BUILD_INTERFACE:/src/debugger/option.natvis>"]
    ++ when (on e "OPTION_USE_NATSTEPFILTER" false) ["INTERFACE"; "$<BUILD_INTERFACE:/src/debugger/option.natstepfilter>"].
Proof.
  intros O A. rewrite (adds_expected h e r O A). split; [now apply subdirectory_default|].
  rewrite !subdirectory_given, option_includes, option_features, option_sources, (proj1 O). repeat split.
  unfold expected_subdirectory. cbv zeta. rewrite !given_app, (given_elsewhere _ "option-add_subdirectory-target"); [reflexivity|].
  cbn. intuition discriminate.
Qed.
Lemma fetches_gets a b h e r : a <> "" -> b <> "" -> outside e -> fetches a b h e r ->
  built_by_default r = when (negb (on e "OPTION_INSTALL" false))
    (when (on e "OPTION_TEST" false) ["option-test"] ++ when (on e "OPTION_CODEGEN_TEST" true) ["option-codegen-test"])
    ++ ["option-FetchContent-target"] /\
  given "target_link_libraries" "option-FetchContent-target" r = ["PRIVATE"; "option"] /\
  given "target_include_directories" "option" r =
    ["SYSTEM"; "INTERFACE"; "$<BUILD_INTERFACE:/src/include>"; "$<INSTALL_INTERFACE:include>"] /\
  given "target_compile_features" "option" r = ["INTERFACE"; "cxx_std_17"] /\
  given "target_sources" "option" r =
    when (on e "OPTION_USE_NATVIS" true) ["INTERFACE"; "$<BUILD_INTERFACE:/src/debugger/option.natvis>"]
    ++ when (on e "OPTION_USE_NATSTEPFILTER" false) ["INTERFACE"; "$<BUILD_INTERFACE:/src/debugger/option.natstepfilter>"].
Proof.
  intros Na Nb O A. rewrite (fetches_expected a b h e r Na Nb O A). split; [now apply fetched_default|].
  rewrite !fetched_given by discriminate. rewrite option_includes, option_features, option_sources, (proj1 O). repeat split.
  unfold expected_fetched. cbv zeta. rewrite !given_app, (given_elsewhere _ "option-FetchContent-target"); [reflexivity|].
  cbn. intuition discriminate.
Qed.
Lemma finds_gets h0 e0 share h e r : on e0 "OPTION_INSTALL" false = true -> outside e -> finds h0 e0 share h e r ->
  built_by_default r = ["option-find_package-target"] /\
  given "target_link_libraries" "option-find_package-target" r = ["PRIVATE"; "option"] /\
  given "set_target_properties" "option" r =
    ["PROPERTIES"; "INTERFACE_COMPILE_FEATURES"; "cxx_std_17"; "INTERFACE_INCLUDE_DIRECTORIES";
     ("/prefix/include;/prefix/" ++ given_or e0 "CMAKE_INSTALL_INCLUDEDIR" "include")%string] /\
  given "target_sources" "option" r =
    when (on e "OPTION_USE_NATVIS" true) ["INTERFACE"; (share ++ "/debugger/option.natvis")%string]
    ++ when (on e "OPTION_USE_NATSTEPFILTER" true) ["INTERFACE"; (share ++ "/debugger/option.natstepfilter")%string].
Proof.
  intros I O A. rewrite (finds_expected h0 e0 share h e r I O A). split; [apply package_default|].
  split; [|split; [apply package_requirements|apply package_sources]].
  unfold expected_package. cbv zeta. parts.
  destruct (on e "OPTION_USE_NATVIS" true), (on e "OPTION_USE_NATSTEPFILTER" true); reflexivity.
Qed.

(** * The script for generated code *)

Lemma words_given h e r : configures h e r ->
  let l := sources_of "run-option-codegen-test" r in
  l = [] \/
  exists w, nth_error l 7 = Some w /\ nth_error l 8 = Some (s_version e) /\ nth_error l 6 = Some "/src/test/codegen/sample.cpp" /\
    PyText.split ";"%char (PyText.lower (PyText.txt w)) = CodegenSpec.words (compiler_of h e).
Proof.
  intros C. rewrite (configures_expected h e r C), codegen_command. cbv zeta.
  destruct (_ && usable _ _); [right|now left]. exists (join (codegen_conditions h e)). cbn [when nth_error].
  split; [reflexivity|]. split; [reflexivity|]. split; [reflexivity|].
  destruct (conditions_words h e) as (c & E & ->). exact E.
Qed.
Lemma command_exists h e r : configures h e r ->
  (sources_of "run-option-codegen-test" r <> [] <->
   on e "OPTION_INSTALL" false = false /\ on e "OPTION_CODEGEN_TEST" true = true /\ h_python h <> None /\
   usable (h_program h "llvm_objdump_path") "llvm_objdump_path" = true).
Proof.
  intros C. rewrite (configures_expected h e r C), codegen_command.
  destruct (on e "OPTION_INSTALL" false), (on e "OPTION_CODEGEN_TEST" true), (h_python h), (usable _ _); cbn;
    intuition (congruence || discriminate).
Qed.
Lemma every_compiler c : exists h e, compiler_of h e = c.
Proof.
  set (host_ (b : bool) := mkhost None (fun _ => None) (fun _ => None) (fun _ => b) false (fun _ => "") (fun _ => []) (fun _ => None) "").
  set (at_ id fe (old : bool) := mksite true id fe "" "" "" "" (fun x : string => if old then Some "TRUE" else None) false [] []).
  destruct c.
  - now exists (host_ false), (at_ "MSVC" "MSVC" false).
  - now exists (host_ false), (at_ "Clang" "MSVC" false).
  - now exists (host_ true), (at_ "Clang" "GNU" false).
  - now exists (host_ false), (at_ "Clang" "GNU" true).
  - now exists (host_ false), (at_ "Clang" "GNU" false).
  - now exists (host_ false), (at_ "GNU" "GNU" false).
  - now exists (host_ false), (at_ "GNU" "GNU" true).
  - now exists (host_ false), (at_ "IntelLLVM" "GNU" false).
  - now exists (host_ false), (at_ "NVHPC" "GNU" false).
Qed.

(** * Warnings *)

Lemma warnings_errors h e r : configures h e r -> In "option-test" (target_names r) ->
  is_msvc e = true \/ is_clang_or_gnu e = true ->
  In (if is_msvc e then "/WX" else "-Werror") (given "target_compile_options" "option-test" r) /\
  In (if is_msvc e then "/Wall" else "-Wall") (given "target_compile_options" "option-test" r).
Proof.
  intros C T K. rewrite (configures_expected h e r C) in *. rewrite test_options.
  assert (W : negb (on e "OPTION_INSTALL" false) && on e "OPTION_TEST" (s_top e) = true).
  { unfold target_names in T. rewrite expected_made in T.
    destruct (on e "OPTION_INSTALL" false); [cbn in T; destruct T as [T|[]]; discriminate|].
    destruct (on e "OPTION_TEST" (s_top e)); [reflexivity|]. exfalso. revert T.
    generalize (on e "OPTION_EXAMPLES" (s_top e)), (on e "OPTION_BENCHMARK" false), (on e "OPTION_CODEGEN_TEST" true),
      (found (h_python h)), (usable (h_program h "llvm_objdump_path") "llvm_objdump_path").
    intros [] [] [] [] []; cbn; intuition discriminate. }
  rewrite W. cbn [when]. destruct (is_msvc e).
  - cbn. tauto.
  - destruct K as [K|K]; [discriminate|]. rewrite K. unfold gnu_like_warnings. cbn [when]. cbn. tauto.
Qed.
Lemma options_elsewhere h e r t : configures h e r -> t <> "option-test" ->
  given "target_compile_options" t r = [] \/ (t = "option-codegen-test" /\ given "target_compile_options" t r = ["PRIVATE"; "-w"]).
Proof.
  intros C N. rewrite (configures_expected h e r C).
  destruct (String.string_dec t "option-codegen-test") as [->|M].
  - rewrite given_expected. cbv zeta.
    set (o := s_opts e ++ extra_flags e). set (l := s_links e ++ extra_flags e).
    pose proof (silent_given _ "option-codegen-test" _ (library_silent e)) as E1.
    pose proof (silent_given _ "option-codegen-test" _ (examples_silent h o l)) as E2.
    pose proof (silent_given _ "option-codegen-test" _ (benchmark_silent h e o l)) as E3.
    pose proof (silent_given _ "option-codegen-test" _ (install_silent h e)) as E4.
    pose proof (test_elsewhere h e o l "option-codegen-test" N) as E5.
    rewrite E1, E2, E3, E4, E5, !when_nil. cbn [app].
    destruct (on e "OPTION_INSTALL" false); [now left|]. destruct (on e "OPTION_CODEGEN_TEST" true); [|now left].
    cbn [when]. unfold codegen_events. parts.
    destruct (is_clang_or_gnu e); [right; split; [reflexivity|]|left];
      destruct (found (h_python h)), (usable (h_program h "llvm_objdump_path") "llvm_objdump_path"); reflexivity.
  - left. rewrite given_expected. cbv zeta.
    set (o := s_opts e ++ extra_flags e). set (l := s_links e ++ extra_flags e).
    pose proof (silent_given _ t _ (library_silent e)) as E1.
    pose proof (silent_given _ t _ (examples_silent h o l)) as E2.
    pose proof (silent_given _ t _ (benchmark_silent h e o l)) as E3.
    pose proof (silent_given _ t _ (install_silent h e)) as E4.
    rewrite E1, E2, E3, E4, (test_elsewhere h e o l t N), (codegen_elsewhere h e l t M), !when_nil.
    now destruct (on e "OPTION_INSTALL" false).
Qed.
