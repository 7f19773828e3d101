(** The parser of the disassembly in the code generation test.

    Models: test/codegen/run.py 34-51 (parse_disassembly).  The newline appended to each instruction is left out, as
    it is in Codegen.v.  Regular expressions are written out as functions. *)
From Coq Require Import NArith Bool List Ascii String.
From Verif Require Import PyText Examples Codegen.
Import ListNotations.
Open Scope N_scope.
Open Scope list_scope.

(** p in s *)
Fixpoint contains (p s : text) : bool :=
  match after_prefix p s with
  | Some _ => true
  | None => match s with [] => false | _ :: s => contains p s end
  end.

(** \w of re, for ASCII. *)
Definition word_char (c : ascii) : bool :=
  is_digit c || ((65 <=? code c) && (code c <=? 90)) || ((97 <=? code c) && (code c <=? 122)) || Ascii.eqb c "_".

(** 38: re.match(r'<.*?(\S+)\(.*\)>', line), group 1.  From a place on, (\S+)\(.*\)>: the longest name. *)
Definition closes (s : text) : bool :=
  match s with
  | c :: t => Ascii.eqb c "(" && contains (txt ")>") t
  | [] => false
  end.
Fixpoint name_here (s : text) : option text :=
  match s with
  | [] => None
  | c :: r =>
      if is_space c then None
      else match name_here r with
           | Some n => Some (c :: n)
           | None => if closes r then Some [c] else None
           end
  end.
(** .*? is as short as possible. *)
Fixpoint name_after (s : text) : option text :=
  match name_here s with
  | Some n => Some n
  | None => match s with [] => None | _ :: r => name_after r end
  end.
Definition function_name (line : text) : option text :=
  match line with
  | c :: r => if Ascii.eqb c "<" then name_after r else None
  | [] => None
  end.

(** 44: re.sub(r'\s+', ' ', s); the flag: after white space. *)
Fixpoint collapse (after : bool) (s : text) : text :=
  match s with
  | [] => []
  | c :: r =>
      if is_space c then (if after then collapse true r else " "%char :: collapse true r)
      else c :: collapse false r
  end.
(** s.partition(c)[0] *)
Fixpoint partition_before (c : ascii) (s : text) : text :=
  match s with
  | [] => []
  | x :: r => if Ascii.eqb x c then [] else x :: partition_before c r
  end.

(** hex(n) *)
Definition hex_char (d : N) : ascii := ascii_of_N (if d <? 10 then 48 + d else 87 + d).
Fixpoint hex_from (fuel : nat) (n : N) (acc : text) : text :=
  match fuel with
  | O => acc
  | S fuel => let acc := hex_char (n mod 16) :: acc in if n <? 16 then acc else hex_from fuel (n / 16) acc
  end.
Definition py_hex (n : N) : text := txt "0x" ++ hex_from (S (N.size_nat n)) n [].

(** 47: re.sub(r'(\W|\A)(\d+)(\W|\Z)', ...).  Between matches: may a match begin at this place (at the start or
    behind a character that is not of a word and not yet part of a match), or has one begun, with these digits. *)
Inductive place : Type := Free | Stuck | Number (digits : text).
Fixpoint convert (p : place) (s : text) : text :=
  match s with
  | [] => match p with Number ds => py_hex (digits_value ds) | _ => [] end
  | c :: r =>
      match p with
      | Free =>
          if is_digit c then convert (Number [c]) r
          else if word_char c then c :: convert Stuck r else c :: convert Free r
      | Stuck => if word_char c then c :: convert Stuck r else c :: convert Free r
      | Number ds =>
          if is_digit c then convert (Number (ds ++ [c])) r
          else if word_char c then ds ++ c :: convert Stuck r
          else py_hex (digits_value ds) ++ c :: convert Stuck r
      end
  end.

(** 40-49: the instruction added for a line that is not the start of a function. *)
Definition starts_with (p s : text) : bool := match after_prefix p s with Some _ => true | None => false end.
Definition filtered (i : text) : bool :=
  contains (txt "endbr64") i || contains (txt "endbr32") i || contains (txt "nop") i.
Definition instruction (line : text) : option text :=
  let i := strip line in
  match i with
  | [] => None
  | _ =>
      if starts_with (txt "Disassembly of section") i then None
      else if filtered i then None
      else
        let cleaned := strip (partition_before "#" (collapse false i)) in
        match cleaned with
        | [] => None
        | _ => Some (convert Free cleaned)
        end
  end.

(** 35-49: disasm_target_list, the last entry first. *)
Definition add_line (l : disassembly) (line : text) : disassembly :=
  match function_name line with
  | Some n => (n, []) :: l
  | None =>
      match l with
      | [] => []
      | (n, is) :: l' =>
          match instruction line with
          | Some i => (n, is ++ [i]) :: l'
          | None => l
          end
      end
  end.
(** 34-51: of equal names the dictionary keeps the last, which is what looking up in this list finds. *)
Definition parse_disassembly (raw : text) : disassembly := fold_left add_line (splitlines raw) [].
