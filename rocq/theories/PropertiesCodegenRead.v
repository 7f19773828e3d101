(** Property C66, continued: the script reads the listings that the comments of sample.cpp state. *)
From Coq Require Import PeanoNat NArith Bool List Ascii String.
From Verif Require Import PyText Codegen ExamplesSpec CodegenRead CodegenReadFacts.
Import ListNotations.
Open Scope nat_scope.
Open Scope list_scope.

(** A heading is an at sign, a name, perhaps a condition in braces, and a colon. *)
Theorem C66_heading : forall s n c, header s = Some (n, c) <-> heading s n c.
Proof. exact header_some. Qed.
Print Assumptions C66_heading.
Theorem C66_no_heading : forall s, header s = None <-> no_heading s.
Proof. exact header_none. Qed.
Print Assumptions C66_no_heading.

(** For any file: a listing for every heading, with its line number, in the order of the file, with the instructions
    that stand between it and the next heading.  Only an instruction before the first heading is an error. *)
Theorem C66_listings_read : forall file ss, parse_expected file = Some ss <-> ~ orphan file /\ states file ss.
Proof. exact expected_some. Qed.
Print Assumptions C66_listings_read.
Theorem C66_orphan : forall file, parse_expected file = None <-> orphan file.
Proof. exact expected_none. Qed.
Print Assumptions C66_orphan.
(** No two lists of listings are stated by the same file. *)
Theorem C66_one_reading : forall file ss ss', states file ss -> states file ss' -> ss = ss'.
Proof. exact states_one. Qed.
Print Assumptions C66_one_reading.

Example C66_heading_ex : heading (txt "@f {gcc <10} : x") (txt "f") (Some (txt "gcc <10")).
Proof. apply header_some. vm_compute. reflexivity. Qed.
(** The longest condition, and the shortest name.  Empty braces are part of the name. *)
Example C66_heading_longest : heading (txt "@f {a}: {b}:") (txt "f") (Some (txt "a}: {b")) /\ heading (txt "@a::b:") (txt "a") None /\
  heading (txt "@f {}:") (txt "f {}") None.
Proof. split; [|split]; apply header_some; vm_compute; reflexivity. Qed.
Example C66_no_heading_ex : no_heading (txt "@f {gcc}") /\ no_heading (txt "@:") /\ no_heading (txt "ret").
Proof. split; [|split]; apply header_none; vm_compute; reflexivity. Qed.
Example C66_states_ex :
  states (map txt ["#include <x>"; "//$ @f {MSVC}:"; "//$ ret"; "// no"; "//$ nop"; "//$ @g:"]%string)
    [mksection 2 (txt "f") (Some (txt "msvc")) [(3, txt "ret"); (5, txt "nop")]; mksection 6 (txt "g") None []].
Proof. apply expected_states. vm_compute. reflexivity. Qed.
Example C66_orphan_ex : orphan (map txt ["//$ ret"; "//$ @g:"]%string).
Proof. apply expected_none. vm_compute. reflexivity. Qed.
