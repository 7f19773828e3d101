(** Programs that use an option as a range.

    Models: include/opt/option.hpp 2404-2506 (option_iterator), 2980-2993 (begin, end), through Iter; the
    iterators are declared random access iterators (2412) and, in C++20, contiguous iterators (2410).

    A program starts with begin() and end(), makes iterators from iterators, asks questions about them and
    may ask std::to_address for the pointer behind one, which calls operator-> (contiguous iterators are used
    in this way by std::span, std::ranges::data and by standard libraries that copy bytes).  What it does next
    may depend on every answer. *)
From Coq Require Import NArith ZArith Bool List.
From Verif Require Import Outcome Iter.
Import ListNotations.
Open Scope Z_scope.
Open Scope res_scope.

(** it + n, n + it, it - n, ++it, --it, it++, it--; it += n and it -= n are like the first and the third. *)
Inductive move : Type := Plus (n : Z) | LeftPlus (n : Z) | Minus (n : Z) | Inc | Dec | PostInc | PostDec.
Inductive rel : Type := CEq | CNe | CLt | CGt | CLe | CGe.

(** [i], [j]: the number of an iterator or pointer, in the order in which they were made; begin() is 0 and
    end() is 1.  A move adds an iterator, a post-increment adds the old and the new one. *)
Inductive prog (R : Type) : Type :=
| Done (r : R)
| Move (m : move) (i : nat) (k : prog R)
| Distance (i j : nat) (k : Z -> prog R)
| Compare (c : rel) (i j : nat) (k : bool -> prog R)
| Star (i : nat) (k : N -> prog R)
| Index (i : nat) (n : Z) (k : N -> prog R)
| ToAddress (i : nat) (k : prog R)
| PStar (i : nat) (k : N -> prog R)
| PDistance (i j : nat) (k : Z -> prog R).
Arguments Done {R} r.
Arguments Move {R} m i k.
Arguments Distance {R} i j k.
Arguments Compare {R} c i j k.
Arguments Star {R} i k.
Arguments Index {R} i n k.
Arguments ToAddress {R} i k.
Arguments PStar {R} i k.
Arguments PDistance {R} i j k.

(** An iterator that was never made cannot be used. *)
Definition reg {A} (l : list A) (i : nat) : res A :=
  match nth_error l i with Some a => Ok a | None => UB end.

Definition do_move (m : move) (p : iptr) : res (list iptr) :=
  match m with
  | Plus n => let* q := it_add p n in Ok [q]
  | LeftPlus n => let* q := add_it n p in Ok [q]
  | Minus n => let* q := it_sub p n in Ok [q]
  | Inc => let* q := it_inc p in Ok [q]
  | Dec => let* q := it_dec p in Ok [q]
  | PostInc => let* q := it_inc_post p in Ok [fst q; snd q]
  | PostDec => let* q := it_dec_post p in Ok [fst q; snd q]
  end.

Definition do_compare (c : rel) (p q : iptr) : res bool :=
  match c with
  | CEq => Ok (it_eq p q)
  | CNe => Ok (it_ne p q)
  | CLt => it_lt p q
  | CGt => it_gt p q
  | CLe => it_le p q
  | CGe => it_ge p q
  end.

(** [its]: the iterators; [ps]: the pointers. *)
Fixpoint run {R} (p : prog R) (its ps : list iptr) : res R :=
  match p with
  | Done r => Ok r
  | Move m i k => let* a := reg its i in let* l := do_move m a in run k (its ++ l) ps
  | Distance i j k => let* a := reg its i in let* b := reg its j in let* n := it_diff a b in run (k n) its ps
  | Compare c i j k => let* a := reg its i in let* b := reg its j in let* x := do_compare c a b in run (k x) its ps
  | Star i k => let* a := reg its i in let* o := it_star a in run (k o) its ps
  | Index i n k => let* a := reg its i in let* o := it_index a n in run (k o) its ps
  | ToAddress i k => let* a := reg its i in let* q := it_arrow a in run k its (ps ++ [q])
  | PStar i k => let* a := reg ps i in let* o := p_deref a in run (k o) its ps
  | PDistance i j k => let* a := reg ps i in let* b := reg ps j in let* n := p_diff a b in run (k n) its ps
  end.
