(** What the runs of the workflow need, and which machines and settings belong to them. *)
From Coq Require Import Bool List Ascii String.
From Verif Require Import CMakeLang CMakeRules CMakeFiles CMakeSpec CMakeExternal CILang.
From Verif Require CodegenSpec.
Import ListNotations.
Open Scope string_scope.
Open Scope list_scope.

(** Names of GitHub are left as they are; only the cache of the Intel compiler is hit or not. *)
Definition github (hit : bool) (x : string) : string :=
  if String.eqb x "steps.cache-icx.outputs.cache-hit" then if hit then "true" else "" else x.

(** The configuration of a build directory that is in force after some actions. *)
Definition configured_in (d : string) (l : list (list (string * string) * action)) : option (list (string * string) * configure) :=
  fold_left (fun acc p => match p with (env, Configure c) => if String.eqb (c_dir c) d then Some (env, c) else acc | _ => acc end) l None.

(** -D on the command line: the last one counts. *)
Definition set_by (c : configure) (x : string) : option string :=
  fold_left (fun acc p => if String.eqb (fst p) x then Some (snd p) else acc) (c_settings c) None.

(** CMAKE_CXX_COMPILER_ID and CMAKE_CXX_COMPILER_FRONTEND_VARIANT, by the toolset of Visual Studio or by CXX. *)
Definition compiler (env : list (string * string)) (c : configure) : option (string * string) :=
  let t := c_toolset c in
  let x := field env "CXX" in
  if String.eqb t "ClangCL" then Some ("Clang", "MSVC")
  else if String.prefix "v14" t then Some ("MSVC", "MSVC")
  else if String.prefix "g++" x then Some ("GNU", "GNU")
  else if String.prefix "clang++" x then Some ("Clang", "GNU")
  else if String.eqb x "icpx" then Some ("IntelLLVM", "GNU")
  else None.

(** The site and the machine of a configuration: the environment of the step goes before that of the job. *)
Record arranged (r : run) (env : list (string * string)) (c : configure) (h : host) (e : site) : Prop := {
  a_cmake : s_cmake e <> "";
  a_opts : s_opts e = []; a_links : s_links e = [];
  a_set : forall x, s_set e x = set_by c x;
  a_generator : field (r_env r) "CMAKE_GENERATOR" <> "" -> s_generator e = field (r_env r) "CMAKE_GENERATOR";
  a_compiler : forall i f, compiler (env ++ r_env r) c = Some (i, f) -> s_id e = i /\ s_frontend e = f;
  a_libcpp : h_symbol h "_LIBCPP_VERSION" = mem "--stdlib=libc++" (command_words Bash (field (env ++ r_env r) "CXXFLAGS")) }.

(** The programs and downloads that the targets need. *)
Definition equipped (h : host) : Prop :=
  h_python h <> None /\ (exists p, h_program h "llvm_objdump_path" = Some p /\ is_false (String "/" p) = false) /\
  (exists p, h_program h "clang_tidy_binary" = Some p) /\ h_download h = true.

(** What a run of cmake for the source directory of the configuration puts on record.  Directories in test/cmake are
    projects of their own; the package they may find was installed by a run with OPTION_INSTALL. *)
Definition external (repository tag : string) (h : host) (e : site) (rec : list event) : Prop :=
  exists st st' f, ready_in "/use" external_targets h e st /\
    (forall x s, In (x, s) (external_values repository tag) -> lookup st x = Some [s]) /\
    runs h (find_file source_tree) st use_external (Done st' f) /\ record st' = record st ++ rec.
Definition given_text (c : configure) (x : string) : string := match set_by c x with Some s => s | None => "" end.
Definition recorded_by (c : configure) (h : host) (e : site) (rec : list event) : Prop :=
  (c_source c = "." /\ s_top e = true /\ configures h e rec) \/
  (outside e /\
   ((c_source c = "./test/cmake/find_package/" /\
       exists h0 e0 share, on e0 "OPTION_INSTALL" false = true /\ finds h0 e0 share h e rec) \/
    (c_source c = "./test/cmake/FetchContent/" /\ fetches (given_text c "GIT_REPOSITORY") (given_text c "GIT_TAG") h e rec) \/
    (c_source c = "./test/cmake/ExternalProject/" /\ external (given_text c "GIT_REPOSITORY") (given_text c "GIT_TAG") h e rec) \/
    (c_source c = "./test/cmake/add_subdirectory/" /\ given_text c "ROOT" <> "" /\ adds h e rec))).

(** The record of test/cmake/ExternalProject. *)
Definition expected_external (repository tag : string) (e : site) : list event :=
  let t := "option-ExternalProject-target" in
  [Said "ExternalProject_Add"
     ["option"; "PREFIX"; "/bin/use/option"; "GIT_REPOSITORY"; repository; "GIT_TAG"; tag; "TIMEOUT"; "10"; "CMAKE_COMMAND"; s_cmake e;
      "-E"; "env"; "--unset=CFLAGS"; "--unset=CXXFLAGS"; "--"; s_cmake e; "INSTALL_COMMAND"; ""; "TEST_COMMAND"; s_cmake e; "--build"; ".";
      "--target"; "run-option-test"];
   Said "ExternalProject_Get_Property" ["option"; "source_dir"];
   user_target t; Said "target_compile_features" [t; "PRIVATE"; "cxx_std_17"];
   Said "target_include_directories" [t; "SYSTEM"; "PRIVATE"; "/bin/use/option/src/option/include"]; user_run t].

(** * Orders of a build *)

(** Every target comes after those it waits for, as far as they are targets of this build. *)
Definition allowed_order (r : list event) (l : list string) : Prop :=
  NoDup l /\ (forall t, In t l <-> In t (nodes r)) /\
  forall a t b, l = a ++ t :: b -> forall u, In u (waits_for r t) -> In u (nodes r) -> In u a.

(** * Sanitizers *)

(** The words behind -fsanitize=. *)
Fixpoint split_commas (s : string) (cur : string) : list string :=
  match s with
  | EmptyString => [cur]
  | String c r => if Ascii.eqb c "," then cur :: split_commas r "" else split_commas r (cur ++ String c "")%string
  end.
Definition sanitizers_of (flag : string) : list string :=
  if String.prefix "-fsanitize=" flag then split_commas (substring 11 (String.length flag - 11) flag) ""
  else if String.prefix "/fsanitize=" flag then split_commas (substring 11 (String.length flag - 11) flag) "" else [].
Definition sanitizes (s : string) (flags : list string) : bool := existsb (fun f => mem s (sanitizers_of f)) flags.

(** The configurations of a run. *)
Definition configurations (r : run) : list (list (string * string) * configure) :=
  flat_map (fun p => match p with (env, Configure c) => [(env, c)] | _ => [] end) (r_actions r).
Definition entry_name (r : run) : string := field (r_matrix r) "name".

(** The targets that are named by some build of a run. *)
Definition named_targets (r : run) : list string :=
  flat_map (fun p => match p with (_, Build _ _ (Some t)) => [t] | _ => [] end) (r_actions r).

(** Which of the compilers that test/codegen/sample.cpp tells apart a run is about, by its name in the workflow. *)
Definition listed (job name : string) : CodegenSpec.compiler :=
  if String.eqb job "linux-libcpp" then CodegenSpec.ClangLibcpp
  else if String.eqb job "intel-compiler" then CodegenSpec.Icx
  else if String.eqb job "windows" then if String.prefix "ClangCL" name then CodegenSpec.ClangCl else CodegenSpec.MSVC
  else if String.prefix "clang" name then
    if mem name ["clang 18 C++20"; "clang 18"; "clang 17"; "clang 16"] then CodegenSpec.ClangLibstdcpp else CodegenSpec.ClangOldLibstdcpp
  else if mem name ["gcc 14 C++20"; "gcc 14"; "gcc 13"] then CodegenSpec.Gcc else CodegenSpec.GccOldLibstdcpp.

(** The builds of the test with the sanitizer for addresses, and with the one for undefined behaviour. *)
Definition with_address (job name dir : string) : bool :=
  if String.eqb job "linux" then String.eqb dir "build" || negb (mem name ["clang 17"; "gcc 14 C++20"; "gcc 14"])
  else if String.eqb job "linux-libcpp" then true
  else String.eqb job "windows" && String.prefix "v143" name.
Definition with_undefined (job name dir : string) : bool :=
  if String.eqb job "linux" then
    String.eqb dir "build" || mem name ["clang 15"; "clang 14"; "gcc 13"; "gcc 12"; "gcc 11"; "gcc 10"; "gcc 9"]
  else if String.eqb job "linux-libcpp" then true
  else String.eqb job "windows" && String.prefix "ClangCL" name && String.eqb dir "build".

(** Compiled for 32 bits. *)
Definition narrow (r : run) (env : list (string * string)) (c : configure) : bool :=
  String.eqb (c_platform c) "Win32" || mem "-m32" (command_words Bash (field (env ++ r_env r) "CXXFLAGS")).
(** The test is run, for 32 bits or not, in a configuration. *)
Definition tested (r : run) (bits32 : bool) (cfg : string) : Prop :=
  exists pre env d post env' c,
    r_actions r = pre ++ (env, Build d cfg (Some "run-option-test")) :: post /\
    configured_in d pre = Some (env', c) /\ narrow r env' c = bits32.
(** The jobs that run the test, and those that run it for 32 bits as well. *)
Definition testing_jobs : list string := ["linux"; "linux-libcpp"; "windows"; "intel-compiler"].
Definition narrow_jobs : list string := ["linux"; "windows"].

(** * Installation *)

(** The library was installed from a build directory that was configured for it: as root, unless on Windows. *)
Definition installed (r : run) (pre : list (list (string * string) * action)) : Prop :=
  exists a env d b env' c, pre = a ++ (env, Install d (negb (String.prefix "windows" (r_system r)))) :: b /\
    configured_in d a = Some (env', c) /\ c_source c = "." /\ set_by c "OPTION_INSTALL" = Some "TRUE".

(** How the words of a command are written: as they are, between quotes, or for PowerShell with a backtick before a
    character; [q] says whether the text begins inside quotes. *)
Inductive spells (sh : shell) : bool -> string -> string -> Prop :=
| spells_end : spells sh false "" ""
| spells_plain q c t w : c <> """"%char -> (c = " "%char -> q = true) -> (sh = PowerShell -> c <> "`"%char) ->
    spells sh q t w -> spells sh q (String c t) (String c w)
| spells_escaped q c t w : sh = PowerShell -> spells sh q t w -> spells sh q (String "`" (String c t)) (String c w)
| spells_quote q t w : spells sh (negb q) t w -> spells sh q (String """" t) w.
(** One entry of a matrix: for every list, one of its items. *)
Definition chosen (c : string * string) (p : string * yaml) : Prop :=
  fst c = fst p /\ exists y, In y (list_of (snd p)) /\ snd c = text y.
(** The files that ClangCL is told to link on Windows, after the quotes have been taken away. *)
Definition runtime_libraries : list string :=
  ["$env:ProgramFiles/LLVM/lib/clang/18/lib/windows/clang_rt.asan-x86_64.lib";
   "$env:ProgramFiles/LLVM/lib/clang/18/lib/windows/clang_rt.asan_cxx-x86_64.lib";
   "clang_rt.ubsan_standalone_cxx-x86_64.lib"; "clang_rt.ubsan_standalone-x86_64.lib"].
(** The major versions of each line of README.md 158-162. *)
Definition listed_versions : list (list string) :=
  [["14"; "13"; "12"; "11"]; ["18"; "17"; "16"; "15"; "14"; "13"; "12"; "11"; "10"; "9"]; ["19"]; ["17"]; ["2024"]].
