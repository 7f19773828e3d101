(** Numbers are read as they are written: by the script of the code generation test (C66) and by CMake (C83). *)
From Coq Require Import NArith List Ascii String.
From Verif Require Import NumeralSpec NumeralFacts.
From Verif Require PyText CMakeLang.
Import ListNotations.

Theorem C66_numbers : forall s n, PyText.parse_int s = Some n <-> decimal s n.
Proof. exact parse_int_exact. Qed.
Print Assumptions C66_numbers.
Example C66_numbers_ex : PyText.parse_int (PyText.txt "014") = Some 14%N /\ PyText.parse_int (PyText.txt "1x") = None.
Proof. split; reflexivity. Qed.

(** A component of a version: the number at its beginning, or 0. *)
Theorem C83_components : forall w n rest, decimal w n -> match rest with EmptyString => True | String c _ => ~ In c numerals end ->
  CMakeLang.component (string_of_list_ascii w ++ rest) = n.
Proof. exact component_exact. Qed.
Print Assumptions C83_components.
Theorem C83_components_none : forall c r, ~ In c numerals -> CMakeLang.component (String c r) = 0%N.
Proof. exact component_none. Qed.
Print Assumptions C83_components_none.
Example C83_components_ex : decimal (list_ascii_of_string "24") 24%N /\ CMakeLang.component "24-rc1" = 24%N /\ CMakeLang.component "rc" = 0%N.
Proof. split; [apply C66_numbers; reflexivity|split; reflexivity]. Qed.
