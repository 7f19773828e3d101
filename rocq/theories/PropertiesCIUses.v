(** When a run of the workflow is about a compiler of the README (C92). *)
From Coq Require Import Bool List Ascii String.
From Verif Require Import CMakeLang CILang CISpec CIDoc CIUsesFacts.
Import ListNotations.
Open Scope string_scope.
Open Scope list_scope.

(** The compiler, its major version and, for Clang, the standard library; or the toolset of Visual Studio. *)
Theorem C92_uses : forall i line major lib r env c, nth_error readme_compilers i = Some line ->
  (uses line major lib r env c = true <->
   match i with
   | 0 => c_toolset c = "" /\ field (env ++ r_env r) "CXX" = ("g++-" ++ major)%string
   | 1 => c_toolset c = "" /\ field (env ++ r_env r) "CXX" = ("clang++-" ++ major)%string /\
          lib = (if mem "--stdlib=libc++" (command_words Bash (field (env ++ r_env r) "CXXFLAGS")) then "libc++" else "libstdc++")
   | 2 => c_toolset c = "v143"
   | 3 => c_toolset c = "ClangCL"
   | _ => field (env ++ r_env r) "CXX" = "icpx"
   end).
Proof. exact uses_exact. Qed.
Print Assumptions C92_uses.
Example C92_uses_ex : nth_error readme_compilers 4 = Some "- IntelLLVM: 2024.2.1" /\
  nth_error readme_compilers 2 = Some "- MSVC: 19.40.33813.0 (VS v143)".
Proof. split; reflexivity. Qed.
