(** Numbers in decimal notation. *)
From Coq Require Import NArith List Ascii String.
Import ListNotations.

Definition numerals : list ascii := list_ascii_of_string "0123456789".
Inductive decimal : list ascii -> N -> Prop :=
| decimal_digit c k : nth_error numerals k = Some c -> decimal [c] (N.of_nat k)
| decimal_next w n c k : decimal w n -> nth_error numerals k = Some c -> decimal (w ++ [c]) (10 * n + N.of_nat k).
