(** What it means that a program prints the lines written beside its source. *)
From Coq Require Import ZArith NArith Bool List Ascii String.
From Verif Require Import PyText Examples.
Import ListNotations.
Open Scope N_scope.

Definition newline : ascii := ascii_of_N 10.

(** A text and its lines: each ends with a newline, except perhaps the last, which then is not empty. *)
Inductive file_lines : text -> list text -> Prop :=
| no_lines : file_lines [] []
| last_line l : l <> [] -> ~ In newline l -> file_lines l [l]
| next_line l s ls : ~ In newline l -> file_lines s ls -> file_lines (l ++ newline :: s) ((l ++ [newline]) :: ls).

(** The same for what a program prints, without the ends of the lines. *)
Definition line_end (c : ascii) : Prop := In c (map ascii_of_N [10; 11; 12; 13; 28; 29; 30]).
Inductive printed : text -> list text -> Prop :=
| nothing : printed [] []
| unfinished l : l <> [] -> (forall c, In c l -> ~ line_end c) -> printed l [l]
| finished l c s ls : (forall d, In d l -> ~ line_end d) -> line_end c -> printed s ls -> printed (l ++ c :: s) (l :: ls).

(** No white space at either end. *)
Definition blank (s : text) : Prop := forall c, In c s -> is_space c = true.
Definition trimmed (s t : text) : Prop :=
  exists a b, s = a ++ t ++ b /\ blank a /\ blank b /\
    (forall c r, t = c :: r -> is_space c = false) /\ (forall r c, t = r ++ [c] -> is_space c = false).

(** What is written beside a line: the text after the first mark, if there is any (a newline counts). *)
Definition mark : text := txt "//$".
Definition without_mark (l : text) : Prop := forall a b, l <> a ++ mark ++ b.
Definition beside (l e : text) : Prop :=
  exists a b, l = a ++ mark ++ b /\ (forall a' b', l = a' ++ mark ++ b' -> (List.length a <= List.length a')%nat) /\
    b <> [] /\ trimmed b e.
Definition not_beside (l : text) : Prop := without_mark l \/ exists a, l = a ++ mark /\ forall a' b', l = a' ++ mark ++ b' -> (List.length a <= List.length a')%nat.
Inductive annotations : list text -> list text -> Prop :=
| no_annotations : annotations [] []
| annotated l e ls es : beside l e -> annotations ls es -> annotations (l :: ls) (e :: es)
| unannotated l ls es : not_beside l -> annotations ls es -> annotations (l :: ls) es.

(** Decimal numbers as Python reads them. *)
Inductive digits : text -> list N -> Prop :=
| one_digit c n : n < 10 -> c = ascii_of_N (48 + n) -> digits [c] [n]
| more_digits c n s ns : n < 10 -> c = ascii_of_N (48 + n) -> digits s ns -> digits (c :: s) (n :: ns)
| underscore c n s ns : n < 10 -> c = ascii_of_N (48 + n) -> digits s ns -> digits (c :: "_"%char :: s) (n :: ns).
Definition numeral (s : text) (ns : list N) : Prop := digits s ns \/ exists t, digits t ns /\ (s = "-"%char :: t \/ s = "+"%char :: t).
Definition number (s : text) : Prop := exists ns, numeral s ns.
Definition zero (s : text) : Prop := exists ns, numeral s ns /\ forall n, In n ns -> n = 0.

(** A printed line fits the expected one. *)
Definition fits (expected received : text) : Prop :=
  expected = received \/ (expected = txt "[number]" /\ number received) \/
  (expected = txt "[nullptr]" /\ (zero received \/ received = txt "(nil)")).

(** The program ends normally and prints, line by line, what is written beside its source. *)
Definition as_written (file : text) (r : run_result) : Prop :=
  returncode r = 0%Z /\
  exists ls es out rs, file_lines file ls /\ annotations ls es /\ printed (stdout r) out /\ Forall2 trimmed out rs /\ Forall2 fits es rs.
