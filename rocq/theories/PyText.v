(** The string functions that the scripts of the repository use (test/codegen/run.py, examples/check.py).

    Simplification: text is ASCII, so white space is the six ASCII characters and digits are 0 to 9. *)
From Coq Require Import NArith Bool List Ascii String.
Import ListNotations.
Open Scope N_scope.

Definition text : Type := list ascii.
Definition txt (s : string) : text := list_ascii_of_string s.

Definition code (c : ascii) : N := N_of_ascii c.
Definition is_space (c : ascii) : bool := ((9 <=? code c) && (code c <=? 13)) || (code c =? 32).
Definition is_digit (c : ascii) : bool := (48 <=? code c) && (code c <=? 57).
Definition digit (c : ascii) : N := code c - 48.

Fixpoint same_text (a b : text) : bool :=
  match a, b with
  | [], [] => true
  | x :: a, y :: b => Ascii.eqb x y && same_text a b
  | _, _ => false
  end.

(** str.lstrip, str.strip *)
Fixpoint lstrip (s : text) : text :=
  match s with
  | c :: r => if is_space c then lstrip r else s
  | [] => []
  end.
Definition strip (s : text) : text := rev (lstrip (rev (lstrip s))).

(** What follows p if s begins with p. *)
Fixpoint after_prefix (p s : text) : option text :=
  match p, s with
  | [], _ => Some s
  | x :: p, y :: s => if Ascii.eqb x y then after_prefix p s else None
  | _, [] => None
  end.

(** s.partition(p)[2]: what follows the first p, nothing if there is none. *)
Fixpoint partition_after (p s : text) : text :=
  match after_prefix p s with
  | Some r => r
  | None => match s with [] => [] | _ :: s => partition_after p s end
  end.

(** s.split(c) *)
Fixpoint split (c : ascii) (s : text) : list text :=
  match s with
  | [] => [[]]
  | x :: s =>
      if Ascii.eqb x c then [] :: split c s
      else match split c s with w :: ws => (x :: w) :: ws | [] => [[x]] end
  end.

(** s.lower() *)
Definition lower_char (c : ascii) : ascii :=
  if (65 <=? code c) && (code c <=? 90) then ascii_of_N (code c + 32) else c.
Definition lower (s : text) : text := map lower_char s.

(** int(s), for the numbers that occur: digits only.  None: ValueError. *)
Definition digits_value (s : text) : N := fold_left (fun n c => 10 * n + digit c) s 0.
Definition parse_int (s : text) : option N :=
  match s with
  | [] => None
  | _ => if forallb is_digit s then Some (digits_value s) else None
  end.

(** The place before the last c: (what is before it, what is from it on).  None: c does not occur. *)
Fixpoint rfind (c : ascii) (s : text) : option (text * text) :=
  match s with
  | [] => None
  | x :: r =>
      match rfind c r with
      | Some (a, b) => Some (x :: a, b)
      | None => if Ascii.eqb x c then Some ([], s) else None
      end
  end.
