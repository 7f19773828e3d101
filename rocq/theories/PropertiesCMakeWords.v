(** Properties of the comparisons in the CMake files (C83). *)
From Coq Require Import Bool List Ascii String NArith.
From Verif Require Import CMakeLang CMakeWordsFacts.
Import ListNotations.
Open Scope string_scope.
Open Scope list_scope.

(** VERSION_LESS: the first component that differs decides; components that are missing are 0. *)
Theorem C83_versions : forall a b, version_less a b = true <->
  exists i, (nth i (map component (split_at "." a)) 0 < nth i (map component (split_at "." b)) 0)%N /\
    forall j, (j < i)%nat -> nth j (map component (split_at "." a)) 0%N = nth j (map component (split_at "." b)) 0%N.
Proof. exact versions_first. Qed.
Print Assumptions C83_versions.
Example C83_versions_ex : map component (split_at "." "3.14.2") = [3; 14; 2]%N /\
  version_less "3.9" "3.14.2" = true /\ version_less "4.0" "3.14.2" = false /\ version_less "3.14" "3.14.0.1" = true /\
  version_less "3.14.0" "3.14" = false.
Proof. repeat split. Qed.

(** The constants of if(). *)
Theorem C83_constants : forall s,
  (is_false s = true <->
    In (upper s) [""; "0"; "OFF"; "NO"; "FALSE"; "N"; "IGNORE"; "NOTFOUND"] \/ exists p, upper s = (p ++ "-NOTFOUND")%string) /\
  (is_true_constant s = true <->
    In (upper s) ["1"; "ON"; "YES"; "TRUE"; "Y"] \/ exists n, number s = Some n /\ n <> 0%N).
Proof. intros s. split; [exact (false_constants s)|exact (true_constants s)]. Qed.
Print Assumptions C83_constants.
Example C83_constants_ex : is_false "n" = true /\ is_false "pfr-notfound" = true /\ is_true_constant "on" = true /\
  is_true_constant "12" = true /\ is_false "x" = false /\ is_true_constant "x" = false.
Proof. repeat split. Qed.

(** The patterns of MATCHES that are interpreted have no special characters, except bars between alternatives. *)
Theorem C83_patterns : forall p, plain_pattern p = true <->
  forall c, In c (list_ascii_of_string p) -> ~ In c (list_ascii_of_string "^$.[]-*+?()\").
Proof. exact patterns. Qed.
Print Assumptions C83_patterns.
Example C83_patterns_ex : plain_pattern "GNU|Clang" = true /\ plain_pattern "Clan." = false.
Proof. split; reflexivity. Qed.

(** The files that are read at most once begin with include_guard. *)
Theorem C83_guards : forall b, guard b = true <-> exists args rest, b = Do "include_guard" args :: rest.
Proof. exact guards. Qed.
Print Assumptions C83_guards.
Example C83_guards_ex : guard [Do "include_guard" []] = true /\ guard [] = false.
Proof. split; reflexivity. Qed.
