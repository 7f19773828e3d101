(** The script that writes the sources of the compile-time benchmark.

    Models: benchmark/generate.py 1-31.

    Simplifications: text is ASCII (PyText); the output file can be opened and written. *)
From Coq Require Import NArith ZArith Bool List Ascii String.
From Verif Require Import PyText.
Import ListNotations.
Open Scope N_scope.

(** int(s): white space around, a sign, digits with single underscores between them. *)
Fixpoint int_digits (s : text) (after_digit : bool) (n : N) : option N :=
  match s with
  | [] => if after_digit then Some n else None
  | c :: r =>
      if is_digit c then int_digits r true (10 * n + digit c)
      else if Ascii.eqb c "_" && after_digit then int_digits r false n
      else None
  end.
Definition py_int (s : text) : option Z :=
  match strip s with
  | "-"%char :: r => option_map (fun n => (- Z.of_N n)%Z) (int_digits r false 0)
  | "+"%char :: r => option_map Z.of_N (int_digits r false 0)
  | r => option_map Z.of_N (int_digits r false 0)
  end.

(** str(i) for i >= 0. *)
Fixpoint decimal_from (fuel : nat) (n : N) (rest : text) : text :=
  match fuel with
  | O => rest
  | S f =>
      let rest := ascii_of_N (48 + n mod 10) :: rest in
      if n <? 10 then rest else decimal_from f (n / 10) rest
  end.
Definition py_str (n : N) : text := decimal_from (S (N.size_nat n)) n [].

(** 7-16: prologue and class name. *)
Definition generation_table (mode : text) : option (text * text) :=
  if same_text mode (txt "opt::option") then Some (txt "#include <opt/option.hpp>", txt "opt::option")
  else if same_text mode (txt "std::optional") then Some (txt "#include <optional>", txt "std::optional")
  else None.

Definition newline : ascii := "010"%char.

(** One turn of the loop 28-30. *)
Definition turn (class_name : text) (i : N) : text :=
  txt "struct S" ++ py_str i ++ txt " { int x; };" ++ [newline] ++
  class_name ++ txt "<S" ++ py_str i ++ txt "> b" ++ py_str i ++ txt ";" ++ [newline].

Definition range (z : Z) : list N := map N.of_nat (seq 0 (Z.to_nat z)).

Inductive outcome : Type :=
| Raised                           (* IndexError or ValueError *)
| Stopped (said : text)            (* sys.exit(1) *)
| Wrote (path content : text).

(** The words after the name of the script. *)
Definition generate (args : list text) : outcome :=
  match args with
  | mode :: path :: number :: _ =>
      match py_int number with
      | None => Raised
      | Some n =>
          match generation_table (strip mode) with
          | None => Stopped (txt "Invalid mode: " ++ strip mode)
          | Some (prologue, class_name) =>
              Wrote (strip path) (prologue ++ [newline] ++ flat_map (turn class_name) (range n))
          end
      end
  | _ => Raised
  end.
