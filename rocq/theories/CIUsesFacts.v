(** Proofs about the runs that are about a compiler of the README. *)
From Coq Require Import Bool List Ascii String.
From Verif Require Import CMakeLang CILang CISpec CIDoc.
Import ListNotations.
Open Scope string_scope.
Open Scope list_scope.

Theorem uses_exact i line major lib r env c : nth_error readme_compilers i = Some line ->
  (uses line major lib r env c = true <->
   match i with
   | 0 => c_toolset c = "" /\ field (env ++ r_env r) "CXX" = ("g++-" ++ major)%string
   | 1 => c_toolset c = "" /\ field (env ++ r_env r) "CXX" = ("clang++-" ++ major)%string /\
          lib = (if mem "--stdlib=libc++" (command_words Bash (field (env ++ r_env r) "CXXFLAGS")) then "libc++" else "libstdc++")
   | 2 => c_toolset c = "v143"
   | 3 => c_toolset c = "ClangCL"
   | _ => field (env ++ r_env r) "CXX" = "icpx"
   end).
Proof.
  destruct i as [|[|[|[|[|i]]]]]; cbn [nth_error readme_compilers]; intros H; try (now destruct i); injection H as <-; unfold uses; cbv zeta.
  - change (String.eqb (family "- GCC: 14.0.1, 13.2.0, 12.3.0, 11.4.0") "GCC") with true. cbv iota.
    rewrite andb_true_iff, !String.eqb_eq. reflexivity.
  - match goal with |- context [if String.eqb (family ?l) "GCC" then _ else _] => change (String.eqb (family l) "GCC") with false; change (String.eqb (family l) "Clang") with true end.
    cbv iota. rewrite !andb_true_iff, !String.eqb_eq. intuition congruence.
  - match goal with |- context [if String.eqb (family ?l) "GCC" then _ else _] => change (String.eqb (family l) "GCC") with false; change (String.eqb (family l) "Clang") with false;
      change (String.eqb (family l) "MSVC") with true; change (toolset l) with "v143" end.
    cbv iota. now rewrite String.eqb_eq.
  - match goal with |- context [if String.eqb (family ?l) "GCC" then _ else _] => change (String.eqb (family l) "GCC") with false; change (String.eqb (family l) "Clang") with false;
      change (String.eqb (family l) "MSVC") with false; change (String.eqb (family l) "ClangCL") with true end.
    cbv iota. now rewrite String.eqb_eq.
  - match goal with |- context [if String.eqb (family ?l) "GCC" then _ else _] => change (String.eqb (family l) "GCC") with false; change (String.eqb (family l) "Clang") with false;
      change (String.eqb (family l) "MSVC") with false; change (String.eqb (family l) "ClangCL") with false; change (String.eqb (family l) "IntelLLVM") with true end.
    cbv iota. rewrite andb_true_l. now rewrite String.eqb_eq.
Qed.
