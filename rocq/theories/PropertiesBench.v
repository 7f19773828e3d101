(** Property C100: the sources of the benchmark. *)
From Coq Require Import NArith ZArith Bool List Ascii String.
From Verif Require Import CMakeLang CMakeFiles CMakeRules CMakeSpec CMakeRun CMakeUse CMakeLemmas PropertiesCMake.
From Verif Require Import PyText BenchSpec.
From Verif Require Bench BenchFacts BenchBuildFacts.
Import ListNotations.
Open Scope string_scope.
Open Scope list_scope.

(** Numbers are read as they are written. *)
Theorem C100_numbers : forall n,
  Bench.py_int (Bench.py_str n) = Some (Z.of_N n) /\ Bench.py_int ("+"%char :: Bench.py_str n) = Some (Z.of_N n) /\
  Bench.py_int ("-"%char :: Bench.py_str n) = Some (- Z.of_N n)%Z.
Proof. exact BenchFacts.numbers. Qed.
Print Assumptions C100_numbers.
Example C100_numbers_ex : Bench.py_str 2000%N = txt "2000" /\ Bench.py_int (txt " 2_000 ") = Some 2000%Z /\
  Bench.py_int (txt "2__0") = None /\ Bench.py_int (txt "-") = None.
Proof. repeat split. Qed.

(** The words that are numbers. *)
Theorem C100_literals : forall s z, Bench.py_int s = Some z <-> literal (strip s) z.
Proof. exact BenchFacts.literals. Qed.
Print Assumptions C100_literals.
Example C100_literals_ex : literal (strip (txt " -1_2 ")) (-12).
Proof. apply C100_literals. reflexivity. Qed.

(** A file that the script writes declares as many types as it was asked for, each before its use, and an option of each. *)
Theorem C100_written : forall mode path number more out content,
  Bench.generate (mode :: path :: number :: more) = Bench.Wrote out content ->
  out = strip path /\ exists z ds, Bench.py_int number = Some z /\ In (strip mode) [txt "opt::option"; txt "std::optional"] /\
    file_states content ds /\ compiles ds /\ counts (strip mode) ds (Z.to_nat z) /\
    nth_error ds 0 = Some (Include (if same_text (strip mode) (txt "opt::option") then txt "opt/option.hpp" else txt "optional")).
Proof. exact BenchFacts.written. Qed.
Print Assumptions C100_written.
Example C100_written_ex : Bench.generate [txt "opt::option"; txt " a.cpp "; txt "2"] =
  Bench.Wrote (txt "a.cpp") (txt "#include <opt/option.hpp>" ++ ["010"%char] ++
    txt "struct S0 { int x; };" ++ ["010"%char] ++ txt "opt::option<S0> b0;" ++ ["010"%char] ++
    txt "struct S1 { int x; };" ++ ["010"%char] ++ txt "opt::option<S1> b1;" ++ ["010"%char]).
Proof. reflexivity. Qed.

(** It writes one exactly for the two classes and a number. *)
Theorem C100_writes : forall mode path number more,
  In (strip mode) [txt "opt::option"; txt "std::optional"] -> Bench.py_int number <> None ->
  exists content, Bench.generate (mode :: path :: number :: more) = Bench.Wrote (strip path) content.
Proof. exact BenchFacts.writes. Qed.
Print Assumptions C100_writes.
Theorem C100_refuses : forall args out content, Bench.generate args = Bench.Wrote out content ->
  exists mode path number more, args = mode :: path :: number :: more /\
    In (strip mode) [txt "opt::option"; txt "std::optional"] /\ Bench.py_int number <> None.
Proof. exact BenchFacts.refuses. Qed.
Print Assumptions C100_refuses.
(** Otherwise it names the class that it does not know, or raises an exception. *)
Theorem C100_stops : forall mode path number more z, Bench.py_int number = Some z ->
  ~ In (strip mode) [txt "opt::option"; txt "std::optional"] ->
  Bench.generate (mode :: path :: number :: more) = Bench.Stopped (txt "Invalid mode: " ++ strip mode).
Proof. exact BenchFacts.stops. Qed.
Print Assumptions C100_stops.
Theorem C100_raises : forall args, Bench.generate args = Bench.Raised <->
  (List.length args < 3)%nat \/ exists mode path number more, args = mode :: path :: number :: more /\ Bench.py_int number = None.
Proof. exact BenchFacts.raises. Qed.
Print Assumptions C100_raises.
Example C100_refuses_ex : Bench.generate [txt "boost::optional"; txt "a.cpp"; txt "2"] = Bench.Stopped (txt "Invalid mode: boost::optional") /\
  Bench.generate [txt "opt::option"; txt "a.cpp"; txt "two"] = Bench.Raised /\ Bench.generate [txt "opt::option"] = Bench.Raised.
Proof. repeat split. Qed.

(** The two files differ in the header and in the class only. *)
Theorem C100_comparable : forall p p' k more more' out out' a b,
  Bench.generate (txt "opt::option" :: p :: k :: more) = Bench.Wrote out a ->
  Bench.generate (txt "std::optional" :: p' :: k :: more') = Bench.Wrote out' b ->
  exists ds ds', file_states a ds /\ file_states b ds' /\ map (with_class (txt "std::optional")) (tl ds) = tl ds'.
Proof. exact BenchFacts.comparable. Qed.
Print Assumptions C100_comparable.
Example C100_comparable_ex : exists a b,
  Bench.generate [txt "opt::option"; txt "a.cpp"; txt "2000"] = Bench.Wrote (txt "a.cpp") a /\
  Bench.generate [txt "std::optional"; txt "b.cpp"; txt "2000"] = Bench.Wrote (txt "b.cpp") b.
Proof.
  destruct (C100_writes (txt "opt::option") (txt "a.cpp") (txt "2000") []) as [a A]; [now left|discriminate|].
  destruct (C100_writes (txt "std::optional") (txt "b.cpp") (txt "2000") []) as [b B]; [right; now left|discriminate|].
  exists a, b. split; [exact A|exact B].
Qed.

(** Every command of the build that has an output calls the script with words for which it writes that output, with 2000
    types; both are sources of the targets of the benchmark. *)
Theorem C100_commands : forall h e r c l, configures h e r -> In (Said c ("OUTPUT" :: l)) r ->
  exists out python args content ds type,
    l = out :: "COMMAND" :: python :: "/src/benchmark/generate.py" :: args ++ ["VERBATIM"] /\
    Bench.generate (map txt args) = Bench.Wrote (txt out) content /\
    file_states content ds /\ compiles ds /\ counts (txt type) ds (Z.to_nat 2000) /\
    In (type, out) [("opt::option", generated "opt_option"); ("std::optional", generated "std_optional")].
Proof. exact BenchBuildFacts.benchmark_written. Qed.
Print Assumptions C100_commands.
Theorem C100_sources : forall h e r, configures h e r ->
  on e "OPTION_INSTALL" false = false -> on e "OPTION_BENCHMARK" false = true -> h_python h <> None ->
  forall t n, In (t, n) [("build-benchmark-opt-option", "opt_option"); ("build-benchmark-std-optional", "std_optional")] ->
  sources_of t r = [generated n] /\ exists l, In (Said "add_custom_command" ("OUTPUT" :: generated n :: l)) r.
Proof. exact BenchBuildFacts.benchmark_sources. Qed.
Print Assumptions C100_sources.
Example C100_sources_ex : let e := with_gcc true [("OPTION_BENCHMARK", "TRUE")] in
  configures linux e (expected linux e) /\ on e "OPTION_INSTALL" false = false /\ on e "OPTION_BENCHMARK" false = true /\
  h_python linux <> None.
Proof. cbv zeta. split; [apply configures_at; proper_at|]. split; [reflexivity|]. split; [reflexivity|discriminate]. Qed.
