(** The scan of the pretty-printed function name that finds the largest named enumerator.

    Models: include/opt/option.hpp 846-920 (max_enum_value_impl2, max_enum_value_impl1, max_enum_value)
    and 257-261 (OPTION_CURRENT_FUNCTION), which Types.v replaces by the list of named values.

    A char pointer into the name is the rest of the text; reading the terminating zero is allowed,
    reading behind it is undefined.  How a compiler prints the template arguments is not in the
    repository: [render] is what GCC, Clang and MSVC print, with the names and numbers as parameters. *)
From Coq Require Import NArith Bool List Ascii String.
From Verif Require Import Outcome Words Types.
Import ListNotations.
Open Scope N_scope.

Definition text : Type := list ascii.
Definition txt (s : string) : text := list_ascii_of_string s.

(** The branches of the preprocessor: 849, 853, 864-877. *)
Inductive dialect : Type := Gcc | Clang12 | Clang13 | Msvc.

Definition is (c d : ascii) : bool := Ascii.eqb c d.
Definition is_digit (c : ascii) : bool := (48 <=? N_of_ascii c) && (N_of_ascii c <=? 57).

(** [*it], where the text may be at its terminating zero. *)
Definition head (s : text) : ascii := match s with [] => zero | c :: _ => c end.

(** 854, 856, 887 (start) and 867, 870, 876, 895 (loop): does an unnamed value begin here? *)
Definition unnamed_at (d : dialect) (c : ascii) : bool :=
  match d with
  | Clang12 => is_digit c
  | _ => is c "("
  end.

(** 851, 884-886: the text after the opening bracket.  None: the bracket is missing. *)
Fixpoint after (c : ascii) (s : text) : option text :=
  match s with
  | [] => None
  | x :: s => if is x c then Some s else after c s
  end.

(** [current -= 1] in uintmax_t. *)
Definition less (current : N) : N := wsub umax_base current 1.

(** The result of the loops: Some current on break, None on return 0. *)

(** 890-897.  A '}' before the next comma ends the search. *)
Fixpoint gcc_loop (current : N) (s : text) : res (option N) :=
  match s with
  | [] => UB
  | c :: s =>
      if is c "," then
        match s with
        | [] => UB
        | _ :: s => if is (head s) "(" then gcc_loop (less current) s else Ok (Some current)
        end
      else if is c "}" then Ok None else gcc_loop current s
  end.

(** 860-878 with the MSVC branch. *)
Fixpoint msvc_loop (current : N) (s : text) : res (option N) :=
  match s with
  | [] => Ok None
  | c :: s =>
      if is c "," then
        if is (head s) "(" then msvc_loop (less current) s else Ok (Some current)
      else msvc_loop current s
  end.

(** 860-878 with the branch of Clang up to 12. *)
Fixpoint clang12_loop (current : N) (s : text) : res (option N) :=
  match s with
  | [] => Ok None
  | c :: s =>
      if is c "," then
        match s with
        | [] => UB
        | _ :: s => if is_digit (head s) then clang12_loop (less current) s else Ok (Some current)
        end
      else clang12_loop current s
  end.

(** 860-878 with the branch of later Clang.  [closing]: the search is for ')' (871), not ','. *)
Fixpoint clang13_loop (closing : bool) (current : N) (s : text) : res (option N) :=
  match s with
  | [] => if closing then UB else Ok None
  | c :: s =>
      if closing then
        if is c ")" then
          if is (head s) ":" then Ok (Some current) else clang13_loop false (less current) s
        else clang13_loop true current s
      else if is c "," then
        match s with
        | [] => UB
        | _ :: s => if is (head s) "(" then clang13_loop true current s else Ok (Some current)
        end
      else clang13_loop false current s
  end.

Definition loop (d : dialect) : N -> text -> res (option N) :=
  match d with
  | Gcc => gcc_loop
  | Clang12 => clang12_loop
  | Clang13 => clang13_loop false
  | Msvc => msvc_loop
  end.

(** 899-908 in uintmax_t. *)
Definition round64 (current : N) : N :=
  let c := less current in
  let c := N.lor c (N.shiftr c 1) in
  let c := N.lor c (N.shiftr c 2) in
  let c := N.lor c (N.shiftr c 4) in
  let c := N.lor c (N.shiftr c 8) in
  to_umax (c + 1).

(** max_enum_value_impl2. *)
Definition scan (d : dialect) (max : N) (name : text) : res N :=
  match after (match d with Gcc => "{" | _ => "<" end)%char name with
  | None => UB
  | Some start =>
      if unnamed_at d (head start) then
        match loop d (less max) start with
        | Ok (Some current) => Ok (round64 current)
        | Ok None => Ok 0
        | Verify => Verify
        | UB => UB
        end
      else Ok 0
  end.

(** What the compiler prints for max_enum_value_impl2<static_cast<E>(max - 1), ..., static_cast<E>(0)>.
    [type_name] is E, [number k] its digits, [name_of k] the enumerator with the value k if there is one. *)
Section Render.
Context (d : dialect) (type_name : text) (number : N -> text) (name_of : N -> option text).

Definition cast (k : N) : text :=
  match d with
  | Clang12 => number k
  | _ => "("%char :: type_name ++ ")"%char :: number k
  end.
Definition argument (k : N) : text := match name_of k with Some n => n | None => cast k end.
Definition separator : text := match d with Msvc => txt "," | _ => txt ", " end.

(** The arguments with values below k, each after a separator, and what follows. *)
Fixpoint more (k : nat) (rest : text) : text :=
  match k with
  | O => rest
  | S k => separator ++ argument (N.of_nat k) ++ more k rest
  end.

Definition render (before behind : text) (max : nat) : text :=
  before ++ (match d with Gcc => "{" | _ => "<" end)%char ::
  argument (N.of_nat (max - 1)) ++ more (max - 1) ((match d with Gcc => "}" | _ => ">" end)%char :: behind).
End Render.
