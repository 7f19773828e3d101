(** Properties C83 to C86: the CMake files. *)
From Coq Require Import Bool List Ascii String.
From Verif Require Import CMakeLang CMakeFiles CMakeRules CMakeSpec CMakeRun CMakeUse CMakeLemmas.
From Verif Require PyText CodegenSpec.
Import ListNotations.
Open Scope string_scope.
Open Scope list_scope.

(** A machine with Python and the tools, and the settings that are given. *)
Definition linux : host :=
  mkhost (Some "usr/bin/python3") (fun x => Some ("usr/bin/" ++ x)%string) (fun _ => None) (fun _ => false) true (fun _ => "")
    (fun p => if String.eqb p "boost_pfr" then ["boost_pfr"; "Boost::pfr"]
              else if String.eqb p "libassert" then ["libassert-lib"; "cpptrace-lib"; "libassert::assert"]
              else if String.eqb p "doctest" then ["doctest::doctest"] else [])
    (fun _ => None) "lib".
Definition with_gcc (top : bool) (l : list (string * string)) : site :=
  mksite top "GNU" "GNU" "13.2.0" "Linux" "Ninja" "/usr/bin/cmake"
    (fun x => match find (fun p => String.eqb (fst p) x) l with Some (_, s) => Some s | None => None end) false [] [].
Lemma linux_proper ts top l :
  Forall (fun x => find (fun p => String.eqb (fst p) x) l = None) (unset ++ arguments) ->
  Forall (fun t => mem t ["boost_pfr"; "Boost::pfr"; "libassert-lib"; "cpptrace-lib"; "libassert::assert"; "doctest::doctest"] = false)
    (ts ++ own_targets) ->
  proper ts linux (with_gcc top l).
Proof.
  intros U F. constructor; try reflexivity.
  - intros x H. rewrite Forall_forall in U. cbn. now rewrite (U x H).
  - intros t p H I. rewrite Forall_forall in F. specialize (F t H).
    assert (M : mem t ["boost_pfr"; "Boost::pfr"; "libassert-lib"; "cpptrace-lib"; "libassert::assert"; "doctest::doctest"] = true);
      [|congruence].
    apply mem_in. cbn in I. destruct (String.eqb p "boost_pfr"); [cbn in *; tauto|].
    destruct (String.eqb p "libassert"); [cbn in *; tauto|]. destruct (String.eqb p "doctest"); [cbn in *; tauto|contradiction].
  - intros p t H. cbn [downloads In] in H.
    repeat (destruct H as [E|H]; [injection E as <- <-; cbn; tauto|]). contradiction.
Qed.
Ltac proper_at := apply linux_proper; repeat constructor.

(** * C83: the settings decide what the project defines *)

(** Every run ends, and what it puts on record is given by the settings, the compiler and the machine. *)
Theorem C83_run : forall h e st, ready h e st ->
  exists st' f, runs h (find_file source_tree) st root_cmake (Done st' f) /\ record st' = record st ++ expected h e.
Proof. exact root_run. Qed.
Print Assumptions C83_run.
Theorem C83_record : forall h e r, configures h e r -> r = expected h e.
Proof. exact configures_expected. Qed.
Print Assumptions C83_record.
(** There are such states: the one that cmake starts with. *)
Theorem C83_start : forall h e, proper [] h e -> ready h e (at_start e).
Proof. exact start_ready. Qed.
Print Assumptions C83_start.

(** The targets, their kinds, and whether they are left out of the default build. *)
Theorem C83_targets : forall h e r, configures h e r -> made r =
  ("option", InterfaceLibrary, s_excl e) ::
  if on e "OPTION_INSTALL" false then []
  else when (on e "OPTION_TEST" (s_top e))
         (("option-test", Executable, s_excl e) :: when (tidy_wanted h e) [("clang-tidy", Custom, true)]
          ++ [("run-option-test", Custom, true)])
       ++ when (on e "OPTION_EXAMPLES" (s_top e))
            (map (fun n => (n, Executable, true)) ["example-methods"; "example-operators"; "example-functions"; "example-option-traits"]
             ++ when (found (h_python h)) [("check-option-examples", Custom, true)])
       ++ when (on e "OPTION_BENCHMARK" false && found (h_python h))
            [("build-benchmark-opt-option", Library, true); ("build-benchmark-std-optional", Library, true)]
       ++ when (on e "OPTION_CODEGEN_TEST" true)
            (("option-codegen-test", Library, s_excl e)
             :: when (found (h_python h) && usable (h_program h "llvm_objdump_path") "llvm_objdump_path")
                  [("run-option-codegen-test", Custom, true)]).
Proof. intros h e r C. rewrite (configures_expected h e r C). exact (expected_made h e). Qed.
Print Assumptions C83_targets.
Theorem C83_default_build : forall h e r, configures h e r -> built_by_default r =
  when (negb (on e "OPTION_INSTALL" false) && negb (s_excl e))
    (when (on e "OPTION_TEST" (s_top e)) ["option-test"] ++ when (on e "OPTION_CODEGEN_TEST" true) ["option-codegen-test"]).
Proof. intros h e r C. rewrite (configures_expected h e r C). exact (default_expected h e). Qed.
Print Assumptions C83_default_build.
(** What the target option passes on: an include directory, C++17, the files for the debugger; and nothing else. *)
Theorem C83_passed_on : forall h e r, configures h e r ->
  given "target_include_directories" "option" r =
    when (negb (s_top e)) ["SYSTEM"] ++ ["INTERFACE"; "$<BUILD_INTERFACE:/src/include>"; "$<INSTALL_INTERFACE:include>"] /\
  given "target_compile_features" "option" r = ["INTERFACE"; "cxx_std_17"] /\
  given "target_sources" "option" r =
    when (on e "OPTION_USE_NATVIS" true) ["INTERFACE"; "$<BUILD_INTERFACE:/src/debugger/option.natvis>"]
    ++ when (on e "OPTION_USE_NATSTEPFILTER" false) ["INTERFACE"; "$<BUILD_INTERFACE:/src/debugger/option.natstepfilter>"] /\
  (forall c, ~ In c ["target_sources"; "target_include_directories"; "target_compile_features"] -> given c "option" r = []).
Proof.
  intros h e r C. rewrite (configures_expected h e r C).
  exact (conj (option_includes h e) (conj (option_features h e) (conj (option_sources h e) (fun c => option_nothing_else c h e)))).
Qed.
Print Assumptions C83_passed_on.
(** The test: its files, libraries and definitions. *)
Theorem C83_test : forall h e r, configures h e r ->
  let wanted := negb (on e "OPTION_INSTALL" false) && on e "OPTION_TEST" (s_top e) in
  sources_of "option-test" r =
    when wanted ["option.test.cpp"; "operators.test.cpp"; "special.test.cpp"; "lifetime.test.cpp"; "special_traits.test.cpp";
                 "forward_std.test.cpp"; "meta.test.cpp"; "functions.test.cpp"; "constexpr.test.cpp"; "main.cpp"; "utils.hpp"] /\
  given "target_link_libraries" "option-test" r =
    when wanted (["PRIVATE"; "option"; "PRIVATE"; "doctest::doctest"; "PRIVATE"; "Boost::pfr"]
                 ++ when (on e "USE_LIBASSERT" true) ["PRIVATE"; "libassert::assert"]) /\
  given "target_compile_definitions" "option-test" r =
    when wanted ["PRIVATE"; "DOCTEST_CONFIG_NO_MULTITHREADING"; "DOCTEST_CONFIG_SUPER_FAST_ASSERTS"].
Proof.
  intros h e r C. rewrite (configures_expected h e r C).
  exact (conj (test_files h e) (conj (test_links h e) (test_definitions h e))).
Qed.
Print Assumptions C83_test.
(** USE_SANITIZER changes nothing. *)
Theorem C83_sanitizer_ignored : forall h e st v, ready h e st ->
  exists st1 f1 st2 f2, runs h (find_file source_tree) st root_cmake (Done st1 f1) /\
    runs h (find_file source_tree) (with_setting st "USE_SANITIZER" v) root_cmake (Done st2 f2) /\ record st1 = record st2.
Proof. exact sanitizer_ignored. Qed.
Print Assumptions C83_sanitizer_ignored.

(** A run of the project itself with gcc and without settings. *)
Example C83_ex : configures linux (with_gcc true []) (expected linux (with_gcc true [])) /\
  target_names (expected linux (with_gcc true [])) =
    ["option"; "option-test"; "run-option-test"; "example-methods"; "example-operators"; "example-functions";
     "example-option-traits"; "check-option-examples"; "option-codegen-test"; "run-option-codegen-test"].
Proof. split; [apply configures_at; proper_at|reflexivity]. Qed.
Example C83_ex_install : configures linux (with_gcc true [("OPTION_INSTALL", "TRUE"); ("OPTION_TEST", "TRUE")])
    (expected linux (with_gcc true [("OPTION_INSTALL", "TRUE"); ("OPTION_TEST", "TRUE")])) /\
  target_names (expected linux (with_gcc true [("OPTION_INSTALL", "TRUE"); ("OPTION_TEST", "TRUE")])) = ["option"].
Proof. split; [apply configures_at; proper_at|reflexivity]. Qed.
Example C83_ex_passed : ready linux (with_gcc true []) (at_start (with_gcc true [])).
Proof. apply start_ready. proper_at. Qed.

(** docs/cmake_variables.md 19-24: the target option-examples does not exist. *)
Theorem C83_examples_refuted : exists h e r, configures h e r /\ on e "OPTION_EXAMPLES" (s_top e) = true /\
  ~ In "option-examples" (target_names r).
Proof.
  exists linux, (with_gcc true []), (expected linux (with_gcc true [])). split; [exact (proj1 C83_ex)|]. split; [reflexivity|].
  rewrite (proj2 C83_ex). intros H. repeat (destruct H as [H|H]; [discriminate|]). exact H.
Qed.
Print Assumptions C83_examples_refuted.
(** docs/cmake_variables.md 57-61: the file for the debugger is not added by default. *)
Theorem C83_natstepfilter_refuted : exists h e r, configures h e r /\ s_set e "OPTION_USE_NATSTEPFILTER" = None /\
  given "target_sources" "option" r = ["INTERFACE"; "$<BUILD_INTERFACE:/src/debugger/option.natvis>"].
Proof.
  exists linux, (with_gcc true []), (expected linux (with_gcc true [])). split; [exact (proj1 C83_ex)|]. split; reflexivity.
Qed.
Print Assumptions C83_natstepfilter_refuted.
(** docs/cmake_variables.md 8-13, 45-49: with OPTION_INSTALL there is no test although it is asked for. *)
Theorem C83_install_refuted : exists h e r, configures h e r /\ s_set e "OPTION_TEST" = Some "TRUE" /\
  ~ In "option-test" (target_names r).
Proof.
  exists linux, (with_gcc true [("OPTION_INSTALL", "TRUE"); ("OPTION_TEST", "TRUE")]), (expected linux (with_gcc true [("OPTION_INSTALL", "TRUE"); ("OPTION_TEST", "TRUE")])).
  split; [exact (proj1 C83_ex_install)|]. split; [reflexivity|]. rewrite (proj2 C83_ex_install).
  intros H. repeat (destruct H as [H|H]; [discriminate|]). exact H.
Qed.
Print Assumptions C83_install_refuted.
(** test/option_traits.test.cpp is in the directory of the test, but not among its files. *)
Theorem C83_traits_test_refuted : exists h e r, configures h e r /\ In "option-test" (target_names r) /\
  ~ In "option_traits.test.cpp" (sources_of "option-test" r).
Proof.
  exists linux, (with_gcc true []), (expected linux (with_gcc true [])). split; [exact (proj1 C83_ex)|].
  split; [rewrite (proj2 C83_ex); cbn; tauto|]. intros H. vm_compute in H. repeat (destruct H as [H|H]; [discriminate|]). exact H.
Qed.
Print Assumptions C83_traits_test_refuted.
(** FIND_PACKAGE_ARGS: with installed packages, which have other targets than the downloads, the run stops. *)
Definition with_packages : host :=
  mkhost (Some "usr/bin/python3") (fun _ => None) (fun _ => None) (fun _ => false) true (fun _ => "")
    (fun p => if String.eqb p "boost_pfr" then ["Boost::pfr"] else if String.eqb p "libassert" then ["libassert::assert"]
              else if String.eqb p "doctest" then ["doctest::doctest"] else [])
    (fun _ => None) "lib".
Theorem C83_packages_refuted : exists h e why,
  runs h (find_file source_tree) (at_start e) root_cmake (Fatal why).
Proof.
  exists with_packages, (with_gcc true []). eexists. apply (runs_intro _ _ fuel); [vm_compute; reflexivity|discriminate].
Qed.
Print Assumptions C83_packages_refuted.

(** * C84: what a project gets that uses the library *)

Theorem C84_adds : forall h e r, outside e -> adds h e r ->
  built_by_default r = "option-add_subdirectory-target" :: when (negb (on e "OPTION_INSTALL" false))
    (when (on e "OPTION_TEST" false) ["option-test"] ++ when (on e "OPTION_CODEGEN_TEST" true) ["option-codegen-test"]) /\
  given "target_link_libraries" "option-add_subdirectory-target" r = ["PRIVATE"; "option"] /\
  given "target_include_directories" "option" r =
    ["SYSTEM"; "INTERFACE"; "$<BUILD_INTERFACE:/src/include>"; "$<INSTALL_INTERFACE:include>"] /\
  given "target_compile_features" "option" r = ["INTERFACE"; "cxx_std_17"] /\
  given "target_sources" "option" r =
    when (on e "OPTION_USE_NATVIS" true) ["INTERFACE"; "$<BUILD_INTERFACE:/src/debugger/option.natvis>"]
    ++ when (on e "OPTION_USE_NATSTEPFILTER" false) ["INTERFACE"; "$<BUILD_INTERFACE:/src/debugger/option.natstepfilter>"].
Proof. exact adds_gets. Qed.
Print Assumptions C84_adds.
Theorem C84_fetches : forall a b h e r, a <> "" -> b <> "" -> outside e -> fetches a b h e r ->
  built_by_default r = when (negb (on e "OPTION_INSTALL" false))
    (when (on e "OPTION_TEST" false) ["option-test"] ++ when (on e "OPTION_CODEGEN_TEST" true) ["option-codegen-test"])
    ++ ["option-FetchContent-target"] /\
  given "target_link_libraries" "option-FetchContent-target" r = ["PRIVATE"; "option"] /\
  given "target_include_directories" "option" r =
    ["SYSTEM"; "INTERFACE"; "$<BUILD_INTERFACE:/src/include>"; "$<INSTALL_INTERFACE:include>"] /\
  given "target_compile_features" "option" r = ["INTERFACE"; "cxx_std_17"] /\
  given "target_sources" "option" r =
    when (on e "OPTION_USE_NATVIS" true) ["INTERFACE"; "$<BUILD_INTERFACE:/src/debugger/option.natvis>"]
    ++ when (on e "OPTION_USE_NATSTEPFILTER" false) ["INTERFACE"; "$<BUILD_INTERFACE:/src/debugger/option.natstepfilter>"].
Proof. exact fetches_gets. Qed.
Print Assumptions C84_fetches.
(** The installed package, made by a run on h0 with e0. *)
Theorem C84_finds : forall h0 e0 share h e r, on e0 "OPTION_INSTALL" false = true -> outside e -> finds h0 e0 share h e r ->
  built_by_default r = ["option-find_package-target"] /\
  given "target_link_libraries" "option-find_package-target" r = ["PRIVATE"; "option"] /\
  given "set_target_properties" "option" r =
    ["PROPERTIES"; "INTERFACE_COMPILE_FEATURES"; "cxx_std_17"; "INTERFACE_INCLUDE_DIRECTORIES";
     ("/prefix/include;/prefix/" ++ given_or e0 "CMAKE_INSTALL_INCLUDEDIR" "include")%string] /\
  given "target_sources" "option" r =
    when (on e "OPTION_USE_NATVIS" true) ["INTERFACE"; (share ++ "/debugger/option.natvis")%string]
    ++ when (on e "OPTION_USE_NATSTEPFILTER" true) ["INTERFACE"; (share ++ "/debugger/option.natstepfilter")%string].
Proof. exact finds_gets. Qed.
Print Assumptions C84_finds.
(** The headers are installed in one of the include directories of the package. *)
Theorem C84_headers : forall h e r, on e "OPTION_INSTALL" false = true -> configures h e r ->
  given "install" "DIRECTORY" r = ["include/"; "DESTINATION"; given_or e "CMAKE_INSTALL_INCLUDEDIR" "include"].
Proof. intros h e r I C. rewrite (configures_expected h e r C). exact (installed_headers h e I). Qed.
Print Assumptions C84_headers.

Example C84_ex_adds : adds linux (with_gcc false []) (expected_subdirectory linux (with_gcc false [])) /\
  built_by_default (expected_subdirectory linux (with_gcc false [])) = ["option-add_subdirectory-target"; "option-codegen-test"].
Proof. split; [apply adds_at; [proper_at|repeat split]|reflexivity]. Qed.
Example C84_ex_fetches : fetches "file:///home/option" "HEAD" linux (with_gcc false [("OPTION_CODEGEN_TEST", "OFF")])
    (expected_fetched "file:///home/option" "HEAD" linux (with_gcc false [("OPTION_CODEGEN_TEST", "OFF")])) /\
  built_by_default (expected_fetched "file:///home/option" "HEAD" linux (with_gcc false [("OPTION_CODEGEN_TEST", "OFF")]))
  = ["option-FetchContent-target"].
Proof. split; [apply fetches_at; try discriminate; [proper_at|repeat split]|reflexivity]. Qed.
Example C84_ex_finds :
  finds linux (with_gcc true [("OPTION_INSTALL", "TRUE")]) "/prefix/share" linux (with_gcc false [])
    (expected_package "include" "/prefix/share" (with_gcc false [])).
Proof.
  apply (finds_at linux (with_gcc true [("OPTION_INSTALL", "TRUE")])); [proper_at|reflexivity|proper_at|repeat split].
Qed.

(** A project that adds the library builds a library of the library's tests along with its own targets. *)
Theorem C84_default_build_refuted : exists h e r, outside e /\ (forall x, s_set e x = None) /\ adds h e r /\
  In "option-codegen-test" (built_by_default r).
Proof.
  exists linux, (with_gcc false []), (expected_subdirectory linux (with_gcc false [])).
  split; [repeat split|]. split; [reflexivity|]. split; [exact (proj1 C84_ex_adds)|].
  rewrite (proj2 C84_ex_adds). cbn. tauto.
Qed.
Print Assumptions C84_default_build_refuted.
(** Without settings the installed package adds the step filter and the source tree does not. *)
Theorem C84_same_files_refuted : exists h0 e0 share h e r r', outside e /\ (forall x, s_set e x = None) /\
  finds h0 e0 share h e r /\ adds h e r' /\
  List.length (given "target_sources" "option" r) = 4 /\ List.length (given "target_sources" "option" r') = 2.
Proof.
  exists linux, (with_gcc true [("OPTION_INSTALL", "TRUE")]), "/prefix/share", linux, (with_gcc false []).
  exists (expected_package "include" "/prefix/share" (with_gcc false [])), (expected_subdirectory linux (with_gcc false [])).
  split; [repeat split|]. split; [reflexivity|]. split; [exact C84_ex_finds|]. split; [exact (proj1 C84_ex_adds)|]. split; reflexivity.
Qed.
Print Assumptions C84_same_files_refuted.
(** With another include directory the package also names one that nothing is installed in. *)
Theorem C84_include_refuted : exists h0 e0 share h e r r0, configures h0 e0 r0 /\ finds h0 e0 share h e r /\
  given "install" "DIRECTORY" r0 = ["include/"; "DESTINATION"; "include/option"] /\
  In "/prefix/include;/prefix/include/option" (given "set_target_properties" "option" r).
Proof.
  exists linux, (with_gcc true [("OPTION_INSTALL", "TRUE"); ("CMAKE_INSTALL_INCLUDEDIR", "include/option")]), "/prefix/share",
    linux, (with_gcc false []), (expected_package "include/option" "/prefix/share" (with_gcc false [])),
    (expected linux (with_gcc true [("OPTION_INSTALL", "TRUE"); ("CMAKE_INSTALL_INCLUDEDIR", "include/option")])).
  split; [apply configures_at; proper_at|]. split.
  - apply (finds_at linux (with_gcc true [("OPTION_INSTALL", "TRUE"); ("CMAKE_INSTALL_INCLUDEDIR", "include/option")]));
      [proper_at|reflexivity|proper_at|repeat split].
  - split; [reflexivity|]. vm_compute. tauto.
Qed.
Print Assumptions C84_include_refuted.

(** * C85: the conditions given to the script that checks generated code *)

(** If the command exists then it passes, after the sample, words that run.py reads as those of the compiler, and
    the version of the compiler. *)
Theorem C85_words : forall h e r, configures h e r ->
  let l := sources_of "run-option-codegen-test" r in
  l = [] \/
  exists w, nth_error l 7 = Some w /\ nth_error l 8 = Some (s_version e) /\ nth_error l 6 = Some "/src/test/codegen/sample.cpp" /\
    PyText.split ";"%char (PyText.lower (PyText.txt w)) = CodegenSpec.words (compiler_of h e).
Proof. exact words_given. Qed.
Print Assumptions C85_words.
Theorem C85_command : forall h e r, configures h e r ->
  (sources_of "run-option-codegen-test" r <> [] <->
   on e "OPTION_INSTALL" false = false /\ on e "OPTION_CODEGEN_TEST" true = true /\ h_python h <> None /\
   usable (h_program h "llvm_objdump_path") "llvm_objdump_path" = true).
Proof. exact command_exists. Qed.
Print Assumptions C85_command.
(** Every compiler that the sample tells apart is reported by some machine. *)
Theorem C85_all_compilers : forall c, exists h e, compiler_of h e = c.
Proof. exact every_compiler. Qed.
Print Assumptions C85_all_compilers.
Example C85_ex : nth_error (sources_of "run-option-codegen-test" (expected linux (with_gcc true [("OLD_LIBSTDCPP", "TRUE")]))) 7
  = Some "gcc;old-libstdcpp" /\ configures linux (with_gcc true [("OLD_LIBSTDCPP", "TRUE")]) (expected linux (with_gcc true [("OLD_LIBSTDCPP", "TRUE")])).
Proof. split; [reflexivity|apply configures_at; proper_at]. Qed.

(** * C86: warnings of the test are errors *)

Theorem C86_options : forall h e r, configures h e r -> given "target_compile_options" "option-test" r =
  when (negb (on e "OPTION_INSTALL" false) && on e "OPTION_TEST" (s_top e))
    (if is_msvc e then
       "PRIVATE" :: msvc_warnings ++ ["PRIVATE"; "/Zc:preprocessor"; "/Zc:__cplusplus"; "/bigobj"; "/MP"; "/fp:strict"]
     else when (is_clang_or_gnu e) ("PRIVATE" :: gnu_like_warnings e)).
Proof. intros h e r C. rewrite (configures_expected h e r C). exact (test_options h e). Qed.
Print Assumptions C86_options.
Theorem C86_errors : forall h e r, configures h e r -> In "option-test" (target_names r) ->
  is_msvc e = true \/ is_clang_or_gnu e = true ->
  In (if is_msvc e then "/WX" else "-Werror") (given "target_compile_options" "option-test" r) /\
  In (if is_msvc e then "/Wall" else "-Wall") (given "target_compile_options" "option-test" r).
Proof. exact warnings_errors. Qed.
Print Assumptions C86_errors.
(** They are given to the test only, as PRIVATE options. *)
Theorem C86_not_passed_on : forall h e r t, configures h e r -> t <> "option-test" ->
  given "target_compile_options" t r = [] \/ (t = "option-codegen-test" /\ given "target_compile_options" t r = ["PRIVATE"; "-w"]).
Proof. exact options_elsewhere. Qed.
Print Assumptions C86_not_passed_on.
(** Of the warnings, those switched off by name depend on the compiler. *)
Example C86_ex : In "-Wno-array-bounds" (gnu_like_warnings (mksite true "GNU" "GNU" "12.3.0" "Linux" "Ninja" "/usr/bin/cmake" (fun _ => None) false [] []))
  /\ ~ In "-Wno-array-bounds" (gnu_like_warnings (with_gcc true [])).
Proof. split; vm_compute; [tauto|]. intros H. repeat (destruct H as [H|H]; [discriminate|]). exact H. Qed.
Example C86_ex_test : In "option-test" (target_names (expected linux (with_gcc true []))) /\ is_clang_or_gnu (with_gcc true []) = true.
Proof. split; [rewrite (proj2 C83_ex); cbn; tauto|reflexivity]. Qed.
