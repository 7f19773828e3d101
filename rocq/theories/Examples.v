(** The script that checks the example programs.

    Models: examples/check.py.  A file is its text; a program is its exit code and what it printed.
    Simplifications: as in PyText.v; there are no carriage returns (Python's text mode turns them into newlines). *)
From Coq Require Import ZArith NArith Bool List Ascii String.
From Verif Require Import PyText.
Import ListNotations.
Open Scope N_scope.

(** readlines: the newline stays with its line. *)
Fixpoint readlines (s : text) : list text :=
  match s with
  | [] => []
  | c :: r =>
      if code c =? 10 then [c] :: readlines r
      else match readlines r with l :: ls => (c :: l) :: ls | [] => [[c]] end
  end.

(** str.splitlines: the characters that end a line, which is then left out. *)
Definition ends_line (c : ascii) : bool := ((10 <=? code c) && (code c <=? 13)) || ((28 <=? code c) && (code c <=? 30)).
Fixpoint splitlines (s : text) : list text :=
  match s with
  | [] => []
  | c :: r =>
      if ends_line c then [] :: splitlines r
      else match splitlines r with l :: ls => (c :: l) :: ls | [] => [[c]] end
  end.

(** 11-13: int(s); white space around it, a sign, digits with single underscores between them. *)
Fixpoint int_digits (need : bool) (s : text) (n : N) : option N :=
  match s with
  | [] => if need then None else Some n
  | c :: r =>
      if is_digit c then int_digits false r (10 * n + digit c)
      else if Ascii.eqb c "_" && negb need then int_digits true r n
      else None
  end.
Definition try_int (s : text) : option Z :=
  match strip s with
  | c :: r =>
      if Ascii.eqb c "-" then option_map (fun n => - Z.of_N n)%Z (int_digits true r 0)
      else if Ascii.eqb c "+" then option_map Z.of_N (int_digits true r 0)
      else option_map Z.of_N (int_digits true (c :: r) 0)
  | [] => None
  end.

(** 23-24 *)
Definition prefix : text := txt "//$".
Fixpoint expected_from (idx : N) (ls : list text) : list (N * text) :=
  match ls with
  | [] => []
  | l :: ls =>
      match partition_after prefix l with
      | [] => expected_from (idx + 1) ls
      | e => (idx + 1, strip e) :: expected_from (idx + 1) ls
      end
  end.
Definition expected_lines (file : text) : list (N * text) := expected_from 0 (readlines file).

(** 26-34 *)
Definition line_ok (expected received : text) : bool :=
  if same_text expected (txt "[number]") && match try_int received with Some _ => true | None => false end then true
  else if same_text expected (txt "[nullptr]")
          && (match try_int received with Some z => Z.eqb z 0 | None => false end || same_text received (txt "(nil)")) then true
  else same_text expected received.

Record run_result : Type := mkrun { returncode : Z; stdout : text }.

Inductive verdict : Type := Good | Bad | Raises.     (* Raises: an exception ends the script, with an error *)

(** 15-41 for one program *)
Definition check_one (file : text) (r : run_result) : verdict :=
  if negb (Z.eqb (returncode r) 0) then Bad
  else
    let received := map strip (splitlines (stdout r)) in
    let expected := expected_lines file in
    let lines_ok := forallb (fun p => line_ok (snd (fst p)) (snd p)) (combine expected received) in
    if Nat.ltb (List.length received) (List.length expected) then Bad
    else if Nat.ltb (List.length expected) (List.length received) then
      match expected with [] => Raises | _ => Bad end     (* expected_lines[-1], 40 *)
    else if lines_ok then Good else Bad.

(** 15, 43-46: True for "Completed successfully".  zip stops at the end of the shorter list. *)
Fixpoint check_all (has_error : bool) (l : list (text * run_result)) : bool :=
  match l with
  | [] => negb has_error
  | (f, r) :: l =>
      match check_one f r with
      | Good => check_all has_error l
      | Bad => check_all true l
      | Raises => false
      end
  end.
Definition succeeds (files : list text) (targets : list run_result) : bool := check_all false (combine files targets).
