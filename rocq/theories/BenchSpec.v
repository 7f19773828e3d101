(** What a source of the benchmark should be. *)
From Coq Require Import NArith ZArith Bool List Ascii String.
From Verif Require Import PyText.
Import ListNotations.

(** The lines of C++ that occur. *)
Inductive decl : Type :=
| Include (header : text)
| Struct (name : text)
| Variable_of (class_name type name : text).

Definition letters : text :=
  txt "abcdefghijklmnopqrstuvwxyzABCDEFGHIJKLMNOPQRSTUVWXYZ_".
Definition numerals : text := txt "0123456789".
(** Decimal numbers: digits with at most one underscore between two of them; with or without a sign. *)
Inductive integer : text -> N -> Prop :=
| integer_digit c k : nth_error numerals k = Some c -> integer [c] (N.of_nat k)
| integer_next w n c k : integer w n -> nth_error numerals k = Some c -> integer (w ++ [c]) (10 * n + N.of_nat k)
| integer_apart w n c k : integer w n -> nth_error numerals k = Some c -> integer (w ++ ["_"%char; c]) (10 * n + N.of_nat k).
Inductive literal : text -> Z -> Prop :=
| literal_plain w n : integer w n -> literal w (Z.of_N n)
| literal_plus w n : integer w n -> literal ("+"%char :: w) (Z.of_N n)
| literal_minus w n : integer w n -> literal ("-"%char :: w) (- Z.of_N n).

Definition identifier (w : text) : Prop :=
  exists c r, w = c :: r /\ In c letters /\ forall d, In d r -> In d (letters ++ numerals).

Inductive states : text -> decl -> Prop :=
| states_include h : states (txt "#include <" ++ h ++ txt ">") (Include h)
| states_struct n : identifier n -> states (txt "struct " ++ n ++ txt " { int x; };") (Struct n)
| states_variable c t n : identifier t -> identifier n -> states (c ++ txt "<" ++ t ++ txt "> " ++ n ++ txt ";") (Variable_of c t n).

(** A file is lines that each end with a newline. *)
Inductive file_states : text -> list decl -> Prop :=
| states_nothing : file_states [] []
| states_line l d rest ds : states l d -> file_states rest ds -> file_states (l ++ "010"%char :: rest) (d :: ds).

Definition names (ds : list decl) : list text :=
  flat_map (fun d => match d with Include _ => [] | Struct n => [n] | Variable_of _ _ n => [n] end) ds.
(** It compiles: nothing is declared twice, and types are declared before they are used. *)
Definition compiles (ds : list decl) : Prop :=
  NoDup (names ds) /\
  forall a c t n b, ds = a ++ Variable_of c t n :: b -> In (Struct t) a.

(** Every variable is an option of a type of its own. *)
Definition counts (cls : text) (ds : list decl) (k : nat) : Prop :=
  List.length (filter (fun d => match d with Struct _ => true | _ => false end) ds) = k /\
  List.length (filter (fun d => match d with Variable_of _ _ _ => true | _ => false end) ds) = k /\
  (forall c t n, In (Variable_of c t n) ds -> c = cls) /\
  (forall a b c c' t n n', In (Variable_of c t n) a -> In (Variable_of c' t n') b -> ds <> a ++ b).

(** The same lines for another class. *)
Definition with_class (cls : text) (d : decl) : decl :=
  match d with Variable_of _ t n => Variable_of cls t n | d => d end.
