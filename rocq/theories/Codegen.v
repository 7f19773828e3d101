(** The checker of generated code: which listing of test/codegen/sample.cpp a compiler is held to, and when
    the check succeeds.

    Models: test/codegen/run.py 53-75 (parse_expected_disassembly), 83-126 (versions and conditions), 128-139
    (compare_disassembly) and 141-170 (check_disassembly).  An exception or sys.exit(1) in the middle ends the run.
    Not modelled: running llvm-objdump (17-32).  Its output is given as the table that the parser returns (34-51, see
    Disasm.v).  Printed messages are left out. *)
From Coq Require Import NArith Bool List Ascii String.
From Verif Require Import PyText.
Import ListNotations.
Open Scope N_scope.

(** * Reading the expected listings *)

(** 61: the rest of [@(.+?)\s*(?:{(.+)})?\s*:] behind the name.  [group s] looks for the last closing brace that
    is followed by spaces and a colon; the group has at least one character. *)
Definition ends (s : text) : bool := match lstrip s with c :: _ => Ascii.eqb c ":" | [] => false end.
Fixpoint group (s : text) : option text :=
  match s with
  | [] => None
  | c :: r =>
      match group r with
      | Some g => Some (c :: g)
      | None =>
          match r with
          | d :: r' => if Ascii.eqb d "}" && ends r' then Some [c] else None
          | [] => None
          end
      end
  end.
(** Some None: a header without conditions. *)
Definition header_tail (s : text) : option (option text) :=
  let s := lstrip s in
  match s with
  | c :: r =>
      if Ascii.eqb c "{" then match group r with Some g => Some (Some g) | None => None end
      else if Ascii.eqb c ":" then Some None else None
  | [] => None
  end.
(** The shortest name, of at least one character. *)
Fixpoint name_and_tail (s : text) : option (text * option text) :=
  match s with
  | [] => None
  | c :: r =>
      match header_tail r with
      | Some conds => Some ([c], conds)
      | None => match name_and_tail r with Some (n, conds) => Some (c :: n, conds) | None => None end
      end
  end.
Definition header (s : text) : option (text * option text) :=
  match s with
  | c :: r => if Ascii.eqb c "@" then name_and_tail r else None
  | [] => None
  end.

Record section : Type := mksection {
  line : nat;                     (* of the header *)
  name : text;
  conditions : option text;       (* in lower case *)
  body : list (nat * text) }.     (* line numbers and instructions, without the newline *)

(** 53-75.  [done]: the sections finished so far; [current]: the one being read, its body in reverse.
    None: an instruction before the first header (section is None, 70). *)
Definition close (s : section) : section := mksection (line s) (name s) (conditions s) (rev (body s)).
Fixpoint parse_from (idx : nat) (lines : list text) (current : option section) : option (list section) :=
  match lines with
  | [] => Some (match current with Some s => [close s] | None => [] end)
  | l :: lines =>
      match strip (partition_after (txt "//$") l) with
      | [] => parse_from (S idx) lines current
      | exp =>
          match header exp with
          | Some (n, conds) =>
              match parse_from (S idx) lines (Some (mksection idx n (option_map lower conds) [])) with
              | Some later => Some (match current with Some s => close s :: later | None => later end)
              | None => None
              end
          | None =>
              match current with
              | Some s => parse_from (S idx) lines (Some (mksection (line s) (name s) (conditions s) ((idx, exp) :: body s)))
              | None => None
              end
          end
      end
  end.
Definition parse_expected (file : list text) : option (list section) := parse_from 1 file None.

(** * Versions and conditions *)

Definition version : Type := list N.

Fixpoint parse_ints (ws : list text) : option version :=
  match ws with
  | [] => Some []
  | w :: ws =>
      match parse_int w, parse_ints ws with
      | Some n, Some v => Some (n :: v)
      | _, _ => None
      end
  end.
(** 87-88 *)
Definition incomplete_version (s : text) : option version := parse_ints (split "." s).
(** 83-85: filled up with zeros to four numbers. *)
Definition pad (v : version) : version := v ++ repeat 0 (4 - List.length v).
Definition compiler_version (s : text) : option version := option_map pad (incomplete_version s).

(** Comparison of tuples. *)
Fixpoint vlt (a b : version) : bool :=
  match a, b with
  | x :: a, y :: b => (x <? y) || ((x =? y) && vlt a b)
  | [], _ :: _ => true
  | _, [] => false
  end.
Fixpoint veq (a b : version) : bool :=
  match a, b with
  | x :: a, y :: b => (x =? y) && veq a b
  | [], [] => true
  | _, _ => false
  end.
Definition vle (a b : version) : bool := vlt a b || veq a b.

(** 91-95: a trailing version, if what follows the last space begins like one.  Without a space rfind gives -1
    and cond[:-1], cond[-1:] are the condition without its last character and that character. *)
Definition starts_version (c : ascii) : bool := Ascii.eqb c "<" || Ascii.eqb c ">" || is_digit c.
Definition find_condition_version (cond : text) : text * text :=
  match rfind " " cond with
  | Some (before, from) =>
      match from with
      | _ :: c :: _ => if starts_version c then (before, strip from) else (cond, [])
      | _ => (cond, [])
      end
  | None =>
      match cond with
      | c :: _ => if starts_version c then (removelast cond, strip [last cond c]) else (cond, [])
      | [] => (cond, [])
      end
  end.

(** 108: [([\d\.]+)\.\.<?([\d\.]+)$], the first group as long as possible. *)
Definition number_char (c : ascii) : bool := is_digit c || Ascii.eqb c ".".
Definition range_tail (s : text) : option text :=
  match after_prefix (txt "..") s with
  | Some r =>
      let r := match r with c :: r' => if Ascii.eqb c "<" then r' else r | [] => [] end in
      match r with
      | [] => None
      | _ => if forallb number_char r then Some r else None
      end
  | None => None
  end.
Fixpoint range_from (s : text) : option (text * text) :=
  match s with
  | [] => None
  | c :: r =>
      if number_char c then
        match range_from r with
        | Some (a, b) => Some (c :: a, b)
        | None => match range_tail r with Some b => Some ([c], b) | None => None end
        end
      else None
  end.

Definition with_version (s : text) (f : version -> bool) : option bool := option_map f (compiler_version s).

(** 97-114.  None: ValueError. *)
Definition check_version (specified : version) (v : text) : option bool :=
  match v with
  | [] => Some true
  | c :: r =>
      match after_prefix (txt "<=") v with
      | Some r => with_version r (fun b => vle specified b)
      | None =>
          match after_prefix (txt ">=") v with
          | Some r => with_version r (fun b => vle b specified)
          | None =>
              if Ascii.eqb c "<" then with_version r (fun b => vlt specified b)
              else if Ascii.eqb c ">" then with_version r (fun b => vlt b specified)
              else
                match range_from v with
                | Some (a, b) =>
                    match compiler_version a, compiler_version b with
                    | Some a, Some b => Some (vle a specified && vlt specified b)
                    | _, _ => None
                    end
                | None => option_map (fun w => veq (firstn (List.length w) specified) w) (incomplete_version v)
                end
          end
      end
  end.

(** A compiler: what CMake passes as the fourth and fifth argument. *)
Definition known (ids : list text) (id : text) : bool := existsb (same_text id) ids.
Fixpoint match_any (ids : list text) (specified : version) (conds : list text) : option bool :=
  match conds with
  | [] => Some false
  | c :: conds =>
      let '(needed, v) := find_condition_version (strip c) in
      if forallb (known ids) (map strip (split "&" needed)) then
        match check_version specified v with
        | Some true => Some true
        | Some false => match_any ids specified conds
        | None => None
        end
      else match_any ids specified conds
  end.
(** 116-126 *)
Definition match_condition (ids : list text) (specified : version) (conds : text) : option bool :=
  match_any ids specified (split "," conds).

(** * The check *)

(** 128-139: lines beyond the end of one listing are compared with nothing, so the listings match when they
    are equal. *)
Fixpoint same_listing (expected received : list text) : bool :=
  match expected, received with
  | [], [] => true
  | e :: es, r :: rs => same_text e r && same_listing es rs
  | _, _ => false
  end.

Section Check.
Context (ids : list text) (specified : version) (expected : list section).

(** 150-156: does the check look at this section?  A section without conditions is skipped if one with conditions
    for the same function matches.  any() stops at the first match. *)
Fixpoint any_match (n : text) (ss : list section) : option bool :=
  match ss with
  | [] => Some false
  | s :: ss =>
      match conditions s with
      | Some c =>
          if same_text (name s) n then
            match match_condition ids specified c with
            | Some false => any_match n ss
            | r => r
            end
          else any_match n ss
      | None => any_match n ss
      end
  end.
Definition selected (s : section) : option bool :=
  match conditions s with
  | Some c => match_condition ids specified c
  | None => option_map negb (any_match (name s) expected)
  end.

(** The disassembly: function names and instructions. *)
Definition disassembly : Type := list (text * list text).
Fixpoint listing_of (n : text) (d : disassembly) : option (list text) :=
  match d with
  | [] => None
  | (m, l) :: d => if same_text m n then Some l else listing_of n d
  end.

(** 160: a listing of [disable] only counts as checked. *)
Definition disabled (s : section) : bool :=
  match body s with
  | (_, l) :: _ => same_text (strip l) (txt "[disable]")
  | [] => false
  end.

(** 141-170: the number of functions checked and whether all listings match; None if the run ends early. *)
Fixpoint check_from (received : disassembly) (ss : list section) : option (nat * bool) :=
  match ss with
  | [] => Some (O, true)
  | s :: ss =>
      match listing_of (name s) received with
      | None => None
      | Some l =>
          match selected s with
          | None => None
          | Some false => check_from received ss
          | Some true =>
              match check_from received ss with
              | None => None
              | Some (n, ok) =>
                  Some (S n, (disabled s || same_listing (map snd (body s)) l) && ok)
              end
          end
      end
  end.
Definition check (received : disassembly) : option (nat * bool) := check_from received expected.
End Check.
