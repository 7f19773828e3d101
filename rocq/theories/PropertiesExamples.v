(** Property C67: the script that checks the example programs. *)
From Coq Require Import ZArith NArith Bool List Ascii String.
From Verif Require Import PyText Examples ExamplesSpec ExamplesFacts.
Import ListNotations.
Open Scope N_scope.

(** With a program for every file (examples/CMakeLists.txt adds to both lists at once), the script ends with
    success if and only if every program ends normally and prints, line by line, what is written beside its source. *)
Theorem C67_check : forall files targets, List.length files = List.length targets ->
  succeeds files targets = true <-> Forall2 as_written files targets.
Proof. exact succeeds_all. Qed.
Print Assumptions C67_check.

(** Files without a program, and programs without a file, are ignored. *)
Theorem C67_extra : forall files targets, List.length files = List.length targets ->
  forall fs rs, succeeds (files ++ fs) targets = succeeds files targets /\ succeeds files (targets ++ rs) = succeeds files targets.
Proof. exact succeeds_extra. Qed.
Print Assumptions C67_extra.

(** Which lines a text has, what is written beside a line and what a number is, is unambiguous. *)
Theorem C67_lines : forall s, exists ls, file_lines s ls /\ forall ms, file_lines s ms -> ms = ls.
Proof. intros s. exists (readlines s). exact (conj (readlines_lines s) (fun ms H => file_lines_unique s ms H _ (readlines_lines s))). Qed.
Print Assumptions C67_lines.
Theorem C67_annotations : forall ls, exists es, annotations ls es /\ forall es', annotations ls es' -> es' = es.
Proof.
  intros ls. exists (map snd (expected_from 0 ls)).
  exact (conj (proj2 (annotations_expected ls _ 0) eq_refl) (fun es' H => proj1 (annotations_expected ls es' 0) H)).
Qed.
Print Assumptions C67_annotations.
Theorem C67_printed : forall s, exists ls, printed s ls /\ forall ms, printed s ms -> ms = ls.
Proof. intros s. exists (splitlines s). exact (conj (splitlines_printed s) (fun ms H => printed_unique s ms H _ (splitlines_printed s))). Qed.
Print Assumptions C67_printed.

Definition nl : text := [ascii_of_N 10].
Definition source : text := txt "f(); //$ 1 " ++ nl ++ txt "// nothing" ++ nl ++ txt "g(); //$ [number]" ++ nl ++ txt "h(); //$" ++ nl.
Example C67_ex :
  map snd (expected_lines source) = [txt "1"; txt "[number]"; txt ""] /\
  succeeds [source] [mkrun 0 (txt "1" ++ nl ++ txt "-20_0" ++ nl ++ nl)] = true /\
  succeeds [source] [mkrun 1 (txt "1" ++ nl ++ txt "-200" ++ nl ++ nl)] = false /\
  succeeds [source] [mkrun 0 (txt "1" ++ nl ++ txt "x" ++ nl ++ nl)] = false /\
  succeeds [source] [mkrun 0 (txt "1" ++ nl ++ txt "2" ++ nl)] = false /\
  succeeds [source] [mkrun 0 (txt "1" ++ nl ++ txt "2" ++ nl ++ nl ++ txt "3")] = false /\
  check_one [] (mkrun 0 (txt "3")) = Raises.
Proof. repeat split; vm_compute; reflexivity. Qed.
Example C67_spec_ex : fits (txt "[number]") (txt "-1_0") /\ fits (txt "[nullptr]") (txt "00") /\ ~ fits (txt "[number]") (txt "1__0").
Proof.
  rewrite <- !line_ok_spec by (vm_compute; reflexivity). repeat split; try (vm_compute; reflexivity). vm_compute. discriminate.
Qed.
Example C67_extra_ex : succeeds [source; txt "f(); //$ never printed"] [mkrun 0 (txt "1" ++ nl ++ txt "2" ++ nl ++ nl)] = true.
Proof. vm_compute. reflexivity. Qed.
