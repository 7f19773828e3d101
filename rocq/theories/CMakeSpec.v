(** What a configuration run of the project is expected to put on record, as a function of the settings, the
    compiler and what is found on the machine; and ways to look at a record. *)
From Coq Require Import Bool List Ascii String.
From Verif Require Import CMakeLang CMakeFiles CMakeRules.
From Verif Require CodegenSpec.
Import ListNotations.
Open Scope string_scope.
Open Scope list_scope.

(** * Looking at a record *)

(** The targets, whether they are left out of the default build. *)
Definition made (r : list event) : list (string * kind * bool) :=
  flat_map (fun e => match e with Made n k x _ _ _ => [(n, k, x)] | _ => [] end) r.
Definition target_names (r : list event) : list string := map (fun p => fst (fst p)) (made r).
(** The arguments of a command for a target. *)
Definition given (c t : string) (r : list event) : list string :=
  flat_map (fun e => match e with
                     | Said c' (t' :: l) => if String.eqb c' c && String.eqb t' t then l else []
                     | _ => []
                     end) r.
Definition sources_of (t : string) (r : list event) : list string :=
  flat_map (fun e => match e with Made n _ _ l _ _ => if String.eqb n t then l else [] | _ => [] end) r.
(** The options that a directory gives to a target. *)
Definition directory_options (t : string) (r : list event) : list (value * value) :=
  flat_map (fun e => match e with Made n _ _ _ c l => if String.eqb n t then [(c, l)] else [] | _ => [] end) r.

(** * Sites *)

Record site := mksite {
  s_top : bool;                          (* the project itself is configured, not one that adds it *)
  s_id : string; s_frontend : string; s_version : string;   (* CMAKE_CXX_COMPILER_ID and so on *)
  s_system : string; s_generator : string; s_cmake : string;
  s_set : string -> option string;       (* settings, by -D or by the project around *)
  s_excl : bool;                         (* added with EXCLUDE_FROM_ALL *)
  s_opts : value; s_links : value        (* options of the directory around *) }.

Definition when {A} (b : bool) (l : list A) : list A := if b then l else [].
(** A setting and its default. *)
Definition on (e : site) (x : string) (default : bool) : bool :=
  match s_set e x with Some s => negb (is_false s) | None => default end.
Definition given_or (e : site) (x d : string) : string := match s_set e x with Some s => s | None => d end.

(** * Compilers *)

Definition is_msvc (e : site) : bool := same (s_id e) "MSVC".
Definition is_clang (e : site) : bool := matches "Clang" (s_id e).
Definition is_gnu (e : site) : bool := matches "GNU" (s_id e).
Definition is_clang_or_gnu (e : site) : bool := matches "Clang|GNU" (s_id e).
Definition is_cl_driver (e : site) : bool := same (s_frontend e) "MSVC".

(** cmake/compiler_warnings.cmake: the warnings of each compiler. *)
Definition msvc_warnings : list string :=
  ["/Wall"; "/WX"; "/permissive-"; "/wd5027"; "/wd4626"; "/wd5026"; "/wd4625"; "/wd5264"; "/wd5262"; "/wd4820"; "/wd4514";
   "/wd5246"; "/wd5045"; "/wd4710"; "/wd4711"; "/wd4866"; "/wd4623"; "/wd4582"; "/wd4583"; "/wd4180"; "/wd4371"; "/wd4800";
   "/wd5243"; "/wd4738"; "/wd4121"; "/wd4574"].
Definition common_warnings : list string :=
  ["-Wall"; "-Wextra"; "-Wpedantic"; "-Wconversion"; "-Werror"; "-Wcast-align"; "-Wunused"; "-Wsign-conversion";
   "-Wdouble-promotion"; "-Wold-style-cast"; "-Wshadow"].
Definition gcc_exceptions : list string :=
  ["-Wno-stringop-overread"; "-Wno-maybe-uninitialized"; "-Wno-free-nonheap-object"].
Definition clang_exceptions : list string :=
  ["-Wno-unused-member-function"; "-Wno-global-constructors"; "-Wno-c++98-compat-pedantic"; "-Wno-pre-c++14-compat";
   "-Wno-pre-c++17-compat"; "-Wno-c++98-compat"; "-Wno-float-equal"; "-Wno-gnu-zero-variadic-macro-arguments"; "-Wconsumed"].
Definition clang_cl_exceptions : list string :=
  ["-Wno-unsafe-buffer-usage"; "-Wno-unused-macros"; "-Wno-unused-template"].
Definition gnu_like_warnings (e : site) : list string :=
  common_warnings
  ++ when (is_gnu e) (gcc_exceptions ++ when (version_less (s_version e) "13.0") ["-Wno-array-bounds"])
  ++ when (is_clang e) clang_exceptions
  ++ when (is_cl_driver e) clang_cl_exceptions.
Definition warnings (e : site) (t : string) : list event :=
  if is_msvc e then [Said "target_compile_options" (t :: "PRIVATE" :: msvc_warnings)]
  else when (is_clang_or_gnu e) [Said "target_compile_options" (t :: "PRIVATE" :: gnu_like_warnings e)].

(** * Parts of the record *)

Definition found {A} (o : option A) : bool := match o with Some _ => true | None => false end.
Definition path (o : option string) : string := String "/" (match o with Some p => p | None => "" end).

(** The library. *)
Definition library_events (e : site) : list event :=
  [Made "option" InterfaceLibrary (s_excl e) ["include/opt/option.hpp"; "include/opt/option_fwd.hpp"] (s_opts e) (s_links e);
   Said "target_include_directories"
     ("option" :: when (negb (s_top e)) ["SYSTEM"]
      ++ ["INTERFACE"; "$<BUILD_INTERFACE:/src/include>"; "$<INSTALL_INTERFACE:include>"]);
   Said "target_compile_features" ["option"; "INTERFACE"; "cxx_std_17"]]
  ++ when (on e "OPTION_USE_NATVIS" true)
       [Said "target_sources" ["option"; "INTERFACE"; "$<BUILD_INTERFACE:/src/debugger/option.natvis>"]]
  ++ when (on e "OPTION_USE_NATSTEPFILTER" false)
       [Said "target_sources" ["option"; "INTERFACE"; "$<BUILD_INTERFACE:/src/debugger/option.natstepfilter>"]].

(** OPTION_EXTRA_FLAGS, at the blanks. *)
Definition extra_flags (e : site) : list string :=
  match s_set e "OPTION_EXTRA_FLAGS" with Some s => separate [s] | None => [] end.

Definition test_sources : list string :=
  ["option.test.cpp"; "operators.test.cpp"; "special.test.cpp"; "lifetime.test.cpp"; "special_traits.test.cpp";
   "forward_std.test.cpp"; "meta.test.cpp"; "functions.test.cpp"; "constexpr.test.cpp"; "main.cpp"; "utils.hpp"].
Definition link (t : string) (l : list string) : event := Said "target_link_libraries" (t :: "PRIVATE" :: l).
Definition fetch (p : string) (args : list string) : list event :=
  [Said "FetchContent_Declare" (p :: args); Said "FetchContent_MakeAvailable" [p]].
Definition doctest_args : list string :=
  ["URL"; "https://github.com/doctest/doctest/archive/refs/tags/v2.4.11.zip"; "URL_HASH";
   "SHA512=c4b0a7b88b577e2d95c8da45f19508ea615a4c6d0ccdc2c458922ac83b6f87631c0ae25fa5cb2052c90b2484917440fb83b6d1cdd5b1ee71780a4f7a632170ee";
   "FIND_PACKAGE_ARGS"; "2.4.11"].
Definition pfr_args : list string :=
  ["URL"; "https://github.com/boostorg/pfr/archive/refs/tags/2.2.0.zip"; "URL_HASH";
   "SHA256=becb093245149209b0442e88737495c99114c639dc2121d0e4c08157c034ed03"; "FIND_PACKAGE_ARGS"; "2.2.0"].
Definition libassert_args : list string :=
  ["URL"; "https://github.com/jeremy-rifkin/libassert/archive/refs/tags/v2.1.0.tar.gz"; "URL_HASH";
   "SHA256=e42405b49cde017c44c78aacac35c6e03564532838709031e73d10ab71f5363d"; "FIND_PACKAGE_ARGS"; "2.1.0"].
Definition tidy_args (h : host) : list string :=
  ["COMMAND"; path (h_python h); "/bin/src/run-clang-tidy.py"; "-p"; "/bin/src"; "-clang-tidy-binary";
   path (h_program h "clang_tidy_binary");
   "-config-file"; "/src/.clang-tidy"; "$<$<BOOL:TRUE>:-use-color>"; "$<$<BOOL:TRUE>:-quiet>"; "WORKING_DIRECTORY"; "/src";
   "VERBATIM"; "DEPENDS"; "/bin/src/run-clang-tidy.py"; "SOURCES"; ""].
(** The target for clang-tidy needs make or ninja, the download of a script, Python and clang-tidy. *)
Definition tidy_events (h : host) (e : site) (o l : value) : list event :=
  when (matches "Unix Makefiles|Ninja" (s_generator e))
    (when (h_download h) (when (found (h_python h))
      (when (negb (same (match h_program h "clang_tidy_binary" with Some p => String "/" p | None => "clang_tidy_binary-NOTFOUND" end)
                        "clang_tidy_binary-NOTFOUND"))
         [Made "clang-tidy" Custom true (tidy_args h) o l]))).
Definition test_events (h : host) (e : site) (o l : value) : list event :=
  [Made "option-test" Executable (s_excl e) test_sources o l]
  ++ warnings e "option-test"
  ++ [link "option-test" ["option"]]
  ++ when (is_msvc e)
       [Said "target_compile_options"
          ["option-test"; "PRIVATE"; "/Zc:preprocessor"; "/Zc:__cplusplus"; "/bigobj"; "/MP"; "/fp:strict"]]
  ++ fetch "doctest" doctest_args
  ++ [link "option-test" ["doctest::doctest"];
      Said "target_compile_definitions"
        ["option-test"; "PRIVATE"; "DOCTEST_CONFIG_NO_MULTITHREADING"; "DOCTEST_CONFIG_SUPER_FAST_ASSERTS"]]
  ++ fetch "boost_pfr" pfr_args
  ++ [Said "set_target_properties"
        ["boost_pfr"; "PROPERTIES"; "INTERFACE_SYSTEM_INCLUDE_DIRECTORIES"; "$<TARGET_PROPERTY:boost_pfr,INTERFACE_INCLUDE_DIRECTORIES>"];
      link "option-test" ["Boost::pfr"]]
  ++ when (on e "USE_LIBASSERT" true)
       (fetch "libassert" libassert_args
        ++ [link "option-test" ["libassert::assert"]]
        ++ when (matches "Windows" (s_system e))
             [Said "add_custom_command"
                ["TARGET"; "option-test"; "POST_BUILD"; "COMMAND"; s_cmake e; "-E"; "copy_if_different";
                 "$<TARGET_FILE:libassert::assert>"; "$<TARGET_FILE_DIR:option-test>"]]
        ++ when (is_clang_or_gnu e)
             [Said "set_target_properties" ["libassert-lib"; "cpptrace-lib"; "PROPERTIES"; "COMPILE_OPTIONS"; "-w"]])
  ++ when (on e "USE_CLANG_TIDY" false)
       (Said "set_target_properties" ["option-test"; "PROPERTIES"; "EXPORT_COMPILE_COMMANDS"; "TRUE"]
        :: tidy_events h e o l)
  ++ [Made "run-option-test" Custom true ["VERBATIM"; "COMMAND"; "$<TARGET_FILE:option-test>"] o l].

Definition examples : list (string * string) :=
  [("methods", "methods.cpp"); ("operators", "operators.cpp"); ("functions", "functions.cpp");
   ("option-traits", "option_traits.cpp")].
Definition example (n : string) : string := ("example-" ++ n)%string.
Definition examples_events (h : host) (o l : value) : list event :=
  flat_map (fun p => [Made (example (fst p)) Executable true [snd p] o l; link (example (fst p)) ["option"]]) examples
  ++ when (found (h_python h))
       [Made "check-option-examples" Custom true
          ["VERBATIM"; "COMMAND"; path (h_python h); "./check.py";
           join (map (fun p => "/src/examples/" ++ snd p)%string examples);
           join (map (fun p => "$<TARGET_FILE:" ++ example (fst p) ++ ">")%string examples);
           "WORKING_DIRECTORY"; "/src/examples"] o l].

Definition generated (n : string) : string := ("/bin/src/benchmark/benchmark_" ++ n ++ "_src.cpp")%string.
Definition generate (h : host) (type n : string) : event :=
  Said "add_custom_command"
    ["OUTPUT"; generated n; "COMMAND"; path (h_python h); "/src/benchmark/generate.py"; type; generated n; "2000"; "VERBATIM"].
Definition timed (e : site) (t : string) : event :=
  Said "set_property" ["TARGET"; t; "PROPERTY"; "RULE_LAUNCH_COMPILE"; (s_cmake e ++ " -E time")%string].
Definition benchmark_events (h : host) (e : site) (o l : value) : list event :=
  when (found (h_python h))
    [generate h "opt::option" "opt_option";
     Made "build-benchmark-opt-option" Library true [generated "opt_option"] o l;
     link "build-benchmark-opt-option" ["option"];
     timed e "build-benchmark-opt-option";
     generate h "std::optional" "std_optional";
     Made "build-benchmark-std-optional" Library true [generated "std_optional"] o l;
     Said "target_compile_features" ["build-benchmark-std-optional"; "PRIVATE"; "cxx_std_17"];
     timed e "build-benchmark-std-optional"].

(** The conditions that run.py is called with. *)
Definition codegen_conditions (h : host) (e : site) : list string :=
  let old := on e "OLD_LIBSTDCPP" false in
  if is_msvc e then ["msvc"]
  else if is_clang e then
    if is_cl_driver e then ["clang-cl"]
    else ["clang"; if h_symbol h "_LIBCPP_VERSION" then "libcpp" else if old then "old-libstdcpp" else "libstdcpp"]
  else if is_gnu e then "gcc" :: when old ["old-libstdcpp"]
  else if same (s_id e) "IntelLLVM" then ["icx"]
  else ["unknown"].
Definition usable (o : option string) (x : string) : bool :=
  negb (is_false (match o with Some p => String "/" p | None => (x ++ "-NOTFOUND")%string end)).
Definition codegen_events (h : host) (e : site) (l : value) : list event :=
  [Made "option-codegen-test" Library (s_excl e) ["sample.cpp"] [] l; link "option-codegen-test" ["option"]]
  ++ when (is_clang_or_gnu e) [Said "target_compile_options" ["option-codegen-test"; "PRIVATE"; "-w"]]
  ++ when (found (h_python h)) (when (usable (h_program h "llvm_objdump_path") "llvm_objdump_path")
       [Made "run-option-codegen-test" Custom true
          ["VERBATIM"; "COMMAND"; path (h_python h); "/src/test/codegen/run.py"; path (h_program h "llvm_objdump_path");
           "$<TARGET_FILE:option-codegen-test>"; "/src/test/codegen/sample.cpp"; join (codegen_conditions h e); s_version e] [] l]).

Definition install_events (h : host) (e : site) : list event :=
  let lib := given_or e "CMAKE_INSTALL_LIBDIR" (h_libdir h) in
  let inc := given_or e "CMAKE_INSTALL_INCLUDEDIR" "include" in
  let share := given_or e "CMAKE_INSTALL_DATAROOTDIR" "share" in
  let cmake := (lib ++ "/cmake/option")%string in
  [Said "configure_package_config_file"
     ["/src/cmake/option-config.cmake.in"; "/bin/src/option-config.cmake"; "INSTALL_DESTINATION"; cmake];
   Said "write_basic_package_version_file"
     ["/bin/src/option-config-version.cmake"; "COMPATIBILITY"; "ExactVersion"; "ARCH_INDEPENDENT"];
   Said "install" ["FILES"; "/bin/src/option-config.cmake"; "/bin/src/option-config-version.cmake"; "DESTINATION"; cmake];
   Said "install" ["TARGETS"; "option"; "EXPORT"; "option-targets"; "INCLUDES"; "DESTINATION"; inc];
   Said "install" ["EXPORT"; "option-targets"; "FILE"; "option-targets.cmake"; "DESTINATION"; cmake];
   Said "install" ["DIRECTORY"; "include/"; "DESTINATION"; inc];
   Said "install" ["FILES"; "/src/debugger/option.natvis"; "/src/debugger/option.natstepfilter"; "DESTINATION"; (share ++ "/debugger")%string]].

(** The whole record. *)
Definition expected (h : host) (e : site) : list event :=
  library_events e
  ++ (if on e "OPTION_INSTALL" false then install_events h e
      else let o := s_opts e ++ extra_flags e in
           let l := s_links e ++ extra_flags e in
           when (on e "OPTION_TEST" (s_top e)) (test_events h e o l)
           ++ when (on e "OPTION_EXAMPLES" (s_top e)) (examples_events h o l)
           ++ when (on e "OPTION_BENCHMARK" false) (benchmark_events h e o l)
           ++ when (on e "OPTION_CODEGEN_TEST" true) (codegen_events h e l)).

(** * What is assumed of the state in which CMakeLists.txt is read *)

Definition settings : list string :=
  ["OPTION_TEST"; "OPTION_EXAMPLES"; "OPTION_BENCHMARK"; "OPTION_CODEGEN_TEST"; "USE_CLANG_TIDY";
   "OPTION_INSTALL"; "OPTION_USE_NATVIS"; "OPTION_USE_NATSTEPFILTER"; "USE_LIBASSERT"; "OPTION_EXTRA_FLAGS"; "OLD_LIBSTDCPP";
   "CMAKE_INSTALL_LIBDIR"; "CMAKE_INSTALL_INCLUDEDIR"; "CMAKE_INSTALL_DATAROOTDIR"].
Definition machine (e : site) : list (string * string) :=
  [("CMAKE_SOURCE_DIR", if s_top e then "/src" else "/use"); ("CMAKE_CXX_COMPILER_ID", s_id e);
   ("CMAKE_CXX_COMPILER_FRONTEND_VARIANT", s_frontend e); ("CMAKE_CXX_COMPILER_VERSION", s_version e);
   ("CMAKE_SYSTEM_NAME", s_system e); ("CMAKE_GENERATOR", s_generator e); ("CMAKE_COMMAND", s_cmake e)].
(** Names that the files use without setting them on all ways. *)
Definition unset : list string :=
  ["include_as_system"; "exclude_from_all"; "gcc_opts"; "clang_opts"; "clang_cl_opts"; "line_filter_arg"; "header_filer_arg";
   "clang_tidy_config"; "SHOW_TIME"].
(** Names of cache entries that are set by searches and checks; of the arguments of a function. *)
Definition searched : list string := ["clang_tidy_binary"; "LIBCPP"; "llvm_objdump_path"].
Definition arguments : list string := ["ARG_LINE_FILTER"; "ARG_HEADER_FILTER"].
Definition own_targets : list string :=
  ["option"; "option-test"; "run-option-test"; "clang-tidy"; "example-methods"; "example-operators"; "example-functions";
   "example-option-traits"; "check-option-examples"; "build-benchmark-opt-option"; "build-benchmark-std-optional";
   "option-codegen-test"; "run-option-codegen-test"].
(** The downloads make the targets that test/CMakeLists.txt names. *)
Definition downloads : list (string * string) :=
  [("boost_pfr", "boost_pfr"); ("libassert", "libassert-lib"); ("libassert", "cpptrace-lib")].

(** In directory d, in which ts are not yet names of targets. *)
Record ready_in (d : string) (ts : list string) (h : host) (e : site) (st : state) : Prop := {
  y_machine : forall x s, In (x, s) (machine e) -> lookup st x = Some [s];
  y_settings : forall x, In x settings -> lookup st x = option_map (fun s => [s]) (s_set e x);
  y_unset : forall x, In x unset -> lookup st x = None;
  y_searched : forall x, In x searched -> vars st x = None;
  y_arguments : forall x, In x arguments -> cache st x = None;
  y_free : forall t, In t (ts ++ own_targets) -> exists_target st t = false /\ forall p, ~ In t (h_provides h p);
  y_downloads : forall p t, In (p, t) downloads -> In t (h_provides h p);
  y_dir : dir st = d; y_excl : excl st = s_excl e; y_opts : dopts st = s_opts e; y_links : dlink st = s_links e;
  y_up : up st = []; y_guarded : forall p, guarded st p = false }.
(** CMakeLists.txt is read in /src. *)
Definition ready : host -> site -> state -> Prop := ready_in "/src" [].

(** * Projects that use the library *)

(** A project in /use without options of its own. *)
Definition outside (e : site) : Prop := s_top e = false /\ s_excl e = false /\ s_opts e = [] /\ s_links e = [].
Definition user_target (t : string) : event := Made t Executable false ["main.cpp"] [] [].
Definition user_run (t : string) : event :=
  Made "run" Custom true ["VERBATIM"; "COMMAND"; ("$<TARGET_FILE:" ++ t ++ ">")%string] [] [].
(** test/cmake/add_subdirectory *)
Definition expected_subdirectory (h : host) (e : site) : list event :=
  let t := "option-add_subdirectory-target" in
  [user_target t] ++ expected h e ++ [link t ["option"]; user_run t].
(** test/cmake/FetchContent *)
Definition expected_fetched (repository tag : string) (h : host) (e : site) : list event :=
  let t := "option-FetchContent-target" in
  [Said "FetchContent_Declare" ["option"; "GIT_REPOSITORY"; repository; "GIT_TAG"; tag]]
  ++ expected h e ++ [user_target t; link t ["option"]; user_run t].
(** test/cmake/find_package, after an install run with the include directory inc and the data directory share. *)
Definition expected_package (inc share : string) (e : site) : list event :=
  let t := "option-find_package-target" in
  [Made "option" InterfaceLibrary false [] [] [];
   Said "set_target_properties"
     ["option"; "PROPERTIES"; "INTERFACE_COMPILE_FEATURES"; "cxx_std_17";
      "INTERFACE_INCLUDE_DIRECTORIES"; ("/prefix/include;/prefix/" ++ inc)%string]]
  ++ when (on e "OPTION_USE_NATVIS" true)
       [Said "target_sources" ["option"; "INTERFACE"; (share ++ "/debugger/option.natvis")%string]]
  ++ when (on e "OPTION_USE_NATSTEPFILTER" true)
       [Said "target_sources" ["option"; "INTERFACE"; (share ++ "/debugger/option.natstepfilter")%string]]
  ++ [user_target t; link t ["option"]; user_run t].

(** * Runs *)

(** A run that starts in some state as described puts r on record. *)
Definition configures (h : host) (e : site) (r : list event) : Prop :=
  exists st st' f, ready h e st /\ runs h (find_file source_tree) st root_cmake (Done st' f) /\ record st' = record st ++ r.
(** The target clang-tidy is asked for, and what it needs is found. *)
Definition tidy_wanted (h : host) (e : site) : bool :=
  on e "USE_CLANG_TIDY" false && matches "Unix Makefiles|Ninja" (s_generator e) && h_download h && found (h_python h) &&
  negb (same (match h_program h "clang_tidy_binary" with Some p => String "/" p | None => "clang_tidy_binary-NOTFOUND" end)
             "clang_tidy_binary-NOTFOUND").
(** What is built if no target is named. *)
Definition built_by_default (r : list event) : list string :=
  flat_map (fun p => match p with (_, InterfaceLibrary, _) => [] | (n, _, x) => if (x : bool) then [] else [n] end) (made r).

(** The compilers that test/codegen/sample.cpp tells apart. *)
Definition compiler_of (h : host) (e : site) : CodegenSpec.compiler :=
  let old := on e "OLD_LIBSTDCPP" false in
  if is_msvc e then CodegenSpec.MSVC
  else if is_clang e then
    if is_cl_driver e then CodegenSpec.ClangCl
    else if h_symbol h "_LIBCPP_VERSION" then CodegenSpec.ClangLibcpp
    else if old then CodegenSpec.ClangOldLibstdcpp else CodegenSpec.ClangLibstdcpp
  else if is_gnu e then if old then CodegenSpec.GccOldLibstdcpp else CodegenSpec.Gcc
  else if same (s_id e) "IntelLLVM" then CodegenSpec.Icx
  else CodegenSpec.Unknown.

(** The state in which cmake starts to read CMakeLists.txt, with the settings in the cache. *)
Definition at_start_in (d : string) (vs : list (string * string)) (e : site) : state :=
  start (if s_top e then "/src" else "/use") d
    (fun x => match find (fun p => String.eqb (fst p) x) (vs ++ machine e) with Some (_, s) => Some s | None => None end) (s_set e).
Definition at_start : site -> state := at_start_in "/src" [].
(** A variable set before. *)
Definition with_setting (st : state) (x : string) (v : value) : state := with_vars st (upd (vars st) x (Some v)).

(** * Users *)

(** Their targets and the variables they use; the files of the installed package. *)
Definition subdirectory_targets : list string := ["option-add_subdirectory-target"; "run"].
Definition subdirectory_values : list (string * string) := [("ROOT", "/src"); ("CMAKE_BINARY_DIR", "/bin/use")].
Definition fetched_targets : list string := ["option-FetchContent-target"; "run"].
Definition fetched_values (repository tag : string) : list (string * string) :=
  [("GIT_REPOSITORY", repository); ("GIT_TAG", tag); ("CMAKE_BINARY_DIR", "/bin/use")].
Definition package_tree (r : list event) : list (string * list stmt) :=
  [("/package/option-config.cmake", package_config); ("/package/option-targets.cmake", exported "option" r)].
Definition package_targets : list string := ["option-find_package-target"; "run"].
Definition package_values (share : string) : list (string * string) := [("CMAKE_INSTALL_FULL_DATAROOTDIR", share)].

(** A run of a project that adds the library, fetches it, or finds it installed (by a run on h0 with the settings e0). *)
Definition adds (h : host) (e : site) (r : list event) : Prop :=
  exists st st' f, ready_in "/use" subdirectory_targets h e st /\
    (forall x s, In (x, s) subdirectory_values -> lookup st x = Some [s]) /\
    runs h (find_file source_tree) st use_subdirectory (Done st' f) /\ record st' = record st ++ r.
Definition fetches (repository tag : string) (h : host) (e : site) (r : list event) : Prop :=
  exists st st' f, ready_in "/use" fetched_targets h e st /\
    (forall x s, In (x, s) (fetched_values repository tag) -> lookup st x = Some [s]) /\
    runs h (find_file source_tree) st (map populate use_fetched) (Done st' f) /\ record st' = record st ++ r.
Definition finds (h0 : host) (e0 : site) (share : string) (h : host) (e : site) (r : list event) : Prop :=
  exists st st' f, ready_in "/use" package_targets h e st /\ lookup st "CMAKE_INSTALL_FULL_DATAROOTDIR" = Some [share] /\
    (exists r0, configures h0 e0 r0 /\ runs h (find_file (package_tree r0)) st use_package (Done st' f)) /\
    record st' = record st ++ r.
