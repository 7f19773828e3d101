(** Properties of the workflow that tests the library (C91, C92). *)
From Coq Require Import Bool List Ascii String.
From Verif Require Import CMakeLang CMakeSource CMakeFiles CMakeRules CMakeSpec CMakeLemmas CMakeExternal CILang CISpec CIDoc CIFacts CIDocFacts CIWordsFacts.
From Verif Require CodegenSpec.
Import ListNotations.
Open Scope string_scope.
Open Scope list_scope.

(** * C91: the workflow *)

(** The text of .github/workflows/ci.yml is read completely, and so is test/cmake/ExternalProject/CMakeLists.txt. *)
Theorem C91_read : read_yaml CISource.ci_yml = Some ci /\ parse use_external_project = Some use_external.
Proof. split; [exact ci_read|exact external_read]. Qed.
Print Assumptions C91_read.
(** Every step that builds in a directory comes after one that configures the directory; and if it names a target, the
    last such configuration defines the target, on every machine that has Python and the tools. *)
Theorem C91_targets : forall hit rs r pre env d cfg t post,
  workflow_runs (github hit) ci = Some rs -> In r rs -> r_actions r = pre ++ (env, Build d cfg t) :: post ->
  exists env' c, configured_in d pre = Some (env', c) /\
    forall t', t = Some t' -> forall h e rec, arranged r env' c h e -> equipped h -> recorded_by c h e rec -> In t' (target_names rec).
Proof. exact builds_have_targets. Qed.
Print Assumptions C91_targets.
(** Every configuration of the workflow belongs to some machine and settings, and succeeds there. *)
Theorem C91_possible : forall hit rs r env c,
  workflow_runs (github hit) ci = Some rs -> In r rs -> In (env, c) (configurations r) ->
  exists h e rec, arranged r env c h e /\ equipped h /\ recorded_by c h e rec.
Proof. exact configurations_possible. Qed.
Print Assumptions C91_possible.
(** Where the machine code is checked, the compiler that test/codegen/run.py is told about is the one the job is named after. *)
Theorem C91_codegen : forall hit rs r pre env d cfg post,
  workflow_runs (github hit) ci = Some rs -> In r rs ->
  r_actions r = pre ++ (env, Build d cfg (Some "run-option-codegen-test")) :: post ->
  exists env' c, configured_in d pre = Some (env', c) /\
    forall h e, arranged r env' c h e -> compiler_of h e = listed (r_job r) (entry_name r).
Proof. exact codegen_compilers. Qed.
Print Assumptions C91_codegen.
(** Every compiler that test/codegen/sample.cpp tells apart has a run. *)
Theorem C91_compilers : forall hit rs, workflow_runs (github hit) ci = Some rs ->
  forall k, k <> CodegenSpec.Unknown <->
    exists r, In r rs /\ In "run-option-codegen-test" (named_targets r) /\ listed (r_job r) (entry_name r) = k.
Proof. exact compilers_covered. Qed.
Print Assumptions C91_compilers.
(** The test is compiled and linked with exactly these sanitizers. *)
Theorem C91_sanitized : forall hit rs r pre env d cfg post,
  workflow_runs (github hit) ci = Some rs -> In r rs ->
  r_actions r = pre ++ (env, Build d cfg (Some "run-option-test")) :: post ->
  exists env' c, configured_in d pre = Some (env', c) /\
    forall h e rec, arranged r env' c h e -> recorded_by c h e rec ->
    exists flags, directory_options "option-test" rec = [(flags, flags)] /\
      sanitizes "address" flags = with_address (r_job r) (entry_name r) d /\
      sanitizes "undefined" flags = with_undefined (r_job r) (entry_name r) d.
Proof. exact test_sanitized. Qed.
Print Assumptions C91_sanitized.
(** The test is run in both configurations, and on Linux and Windows for 32 and for 64 bits. *)
Theorem C91_widths : forall hit rs r cfg,
  workflow_runs (github hit) ci = Some rs -> In r rs -> In cfg ["Debug"; "Release"] ->
  (In (r_job r) testing_jobs -> tested r false cfg) /\ (In (r_job r) narrow_jobs -> tested r true cfg).
Proof. exact both_widths. Qed.
Print Assumptions C91_widths.

(** The project that finds the library as a package is configured after the library was installed on the machine, from a
    directory configured with OPTION_INSTALL: as root on Linux, and without sudo on Windows. *)
Theorem C91_installed : forall hit rs r pre env c post, workflow_runs (github hit) ci = Some rs -> In r rs ->
  r_actions r = pre ++ (env, Configure c) :: post -> c_source c = "./test/cmake/find_package/" -> installed r pre.
Proof. exact found_installed. Qed.
Print Assumptions C91_installed.
Example C91_installed_ex : exists rs, workflow_runs (github false) ci = Some rs /\
  map (fun r => entry_name r) (filter (fun r => existsb (fun p => String.eqb (c_source (snd p)) "./test/cmake/find_package/")
    (configurations r)) rs) = ["Linux GCC"; "Linux Clang"; "Windows MSVC"].
Proof. apply some_mapped. vm_compute. reflexivity. Qed.

Example C91_ex : exists rs, workflow_runs (github false) ci = Some rs /\
  map (fun j => List.length (filter (fun r => String.eqb (r_job r) j) rs))
    ["linux"; "linux-libcpp"; "windows"; "intel-compiler"; "clang-tidy"; "install-project"] = [18; 10; 5; 1; 4; 3].
Proof.
  apply some_mapped. vm_compute. reflexivity.
Qed.

(** The model of the command lines: words that are separated by blanks, however they are written, are the words of the
    command; a matrix of lists has exactly one entry for each way of choosing an item of every list. *)
Theorem C91_words : forall sh l, Forall (fun p => fst p <> "" /\ spells sh false (fst p) (snd p)) l ->
  command_words sh (String.concat " " (map fst l)) = map snd l.
Proof. exact words_spelled. Qed.
Print Assumptions C91_words.
Example C91_words_ex :
  spells PowerShell false """-DX=`""a b`""""" "-DX=""a b""" /\
  command_words PowerShell "cmake ""-DX=`""a b`"""" -T v143" = ["cmake"; "-DX=""a b"""; "-T"; "v143"] /\
  command_words Bash "cmake --parallel `nproc`" = ["cmake"; "--parallel"; "`nproc`"].
Proof.
  split; [|split; reflexivity].
  repeat first [apply spells_end | apply spells_quote; cbn [negb] | apply spells_escaped; [reflexivity|] |
    apply spells_plain; [discriminate|try discriminate; reflexivity|discriminate|]].
Qed.
Theorem C91_matrix : forall l m, In m (combinations l) <-> Forall2 chosen m l.
Proof. exact all_combinations. Qed.
Print Assumptions C91_matrix.
Example C91_matrix_ex :
  combinations [("os", Items [Text "a"; Text "b"]); ("n", Items [Text "1"; Text "2"])] =
    [[("os", "a"); ("n", "1")]; [("os", "a"); ("n", "2")]; [("os", "b"); ("n", "1")]; [("os", "b"); ("n", "2")]].
Proof. reflexivity. Qed.
(** On Windows the linker is given the files of the sanitizers' libraries, paths with a blank in one piece. *)
Theorem C91_linked : forall hit rs r env c v, workflow_runs (github hit) ci = Some rs -> In r rs ->
  String.prefix "windows" (r_system r) = true -> In (env, c) (configurations r) ->
  In ("CMAKE_EXE_LINKER_FLAGS_INIT", v) (c_settings c) -> command_words Bash v = runtime_libraries.
Proof. exact windows_linked. Qed.
Print Assumptions C91_linked.
Example C91_linked_ex : exists rs, workflow_runs (github false) ci = Some rs /\
  map entry_name (filter (fun r => existsb (fun p => existsb (fun s => String.eqb (fst s) "CMAKE_EXE_LINKER_FLAGS_INIT")
    (c_settings (snd p))) (configurations r)) rs) = ["ClangCL"; "ClangCL C++20"].
Proof. apply some_mapped. vm_compute. reflexivity. Qed.

(** Projects that add or fetch the library are compiled after the library is there. *)
Theorem C91_users_wait : forall h e rec l, outside e -> allowed_order rec l ->
  (adds h e rec -> exists a b, l = a ++ "option-add_subdirectory-target" :: b /\ In "option" a) /\
  (forall r t, r <> "" -> t <> "" -> fetches r t h e rec ->
     exists a b, l = a ++ "option-FetchContent-target" :: b /\ In "option" a).
Proof. exact users_ordered. Qed.
Print Assumptions C91_users_wait.
(** That of test/cmake/ExternalProject need not be: nothing makes its target wait for the download. *)
Theorem C91_external : forall r t h e rec, r <> "" -> t <> "" -> outside e -> s_cmake e <> "" -> external r t h e rec ->
  rec = expected_external r t e /\
  exists a b, allowed_order rec (a ++ "option-ExternalProject-target" :: b) /\ ~ In "option" a.
Proof.
  intros r t h e rec R T O N H. split; [exact (external_recorded r t h e rec R T O N H)|exact (external_unordered r t h e rec R T O N H)].
Qed.
Print Assumptions C91_external.
Theorem C91_external_refuted : exists r t h e rec, external r t h e rec /\
  exists a b, allowed_order rec (a ++ "option-ExternalProject-target" :: b) /\ ~ In "option" a.
Proof.
  exists "file:///home/option", "HEAD", (machine_for false), (site_for false (mkrun "" [] "" [] []) [] install_call),
    (expected_external "file:///home/option" "HEAD" (site_for false (mkrun "" [] "" [] []) [] install_call)).
  split.
  - apply external_at; try discriminate; [apply machine_proper; [reflexivity|repeat constructor]|repeat split].
  - exists [], ["run"; "option"]. split; [apply external_first|]. intros [].
Qed.
Print Assumptions C91_external_refuted.

(** * C92: the compilers of the README *)

(** What is listed: these versions, and for Clang these two standard libraries. *)
Theorem C92_listed : forall line major lib, documented line major lib <->
  exists i ms, nth_error readme_compilers i = Some line /\ nth_error listed_versions i = Some ms /\ In major ms /\
    (i = 1%nat -> In lib ["libc++"; "libstdc++"]).
Proof. exact documented_listed. Qed.
Print Assumptions C92_listed.
(** Every version that is listed, with every standard library that is listed, has a run that tests the library for 64 bits,
    in both configurations, with these sanitizers. *)
Theorem C92_tested : forall hit rs line major lib cfg, workflow_runs (github hit) ci = Some rs ->
  documented line major lib -> In cfg ["Debug"; "Release"] ->
  exists r d env c, In r rs /\ test_run r d cfg env c /\ uses line major lib r env c = true /\ narrow r env c = false /\
    forall h e rec, arranged r env c h e -> recorded_by c h e rec ->
    exists flags, directory_options "option-test" rec = [(flags, flags)] /\
      sanitizes "address" flags = address_for line /\ sanitizes "undefined" flags = undefined_for line.
Proof. exact documented_tested. Qed.
Print Assumptions C92_tested.
(** The compiler of Intel is listed among those tested with sanitizers, and has none. *)
Theorem C92_intel_refuted : documented intel_line "2024" "" /\
  forall hit rs r d cfg env c, workflow_runs (github hit) ci = Some rs -> In r rs -> test_run r d cfg env c ->
  uses intel_line "2024" "" r env c = true ->
  forall h e rec, arranged r env c h e -> recorded_by c h e rec ->
  exists flags, directory_options "option-test" rec = [(flags, flags)] /\
    sanitizes "address" flags = false /\ sanitizes "undefined" flags = false.
Proof.
  split; [|exact intel_without]. split; [cbn; tauto|]. split; [now left|now left].
Qed.
Print Assumptions C92_intel_refuted.
Example C92_ex : documented "- GCC: 14.0.1, 13.2.0, 12.3.0, 11.4.0" "13" "" /\
  map majors readme_compilers =
    [["14"; "13"; "12"; "11"]; ["18"; "17"; "16"; "15"; "14"; "13"; "12"; "11"; "10"; "9"]; ["19"]; ["17"]; ["2024"]].
Proof. split; [|reflexivity]. split; [now left|]. split; [right; now left|now left]. Qed.
