(** The project's own tests of the type traits of option<T>, run in the model.

    test/meta.test.cpp asks std::is_copy_constructible and the like of options of small classes, and
    which constructors and assignments take part in overload resolution.  Here the same questions are
    put to the functions of Select.v and Constraints.v.  These are tests of the model, not properties
    of it. *)
From Coq Require Import NArith Bool List.
From Verif Require Import Words Types Select Constraints Convert.
Import ListNotations.
Open Scope bool_scope.

(** * Special members.  The implicit members of each class are worked out by the rules of C++17. *)

Definition cc f := f_cc (option_flags f).
Definition ca f := f_ca (option_flags f).
Definition mc f := f_mc (option_flags f).
Definition ma f := f_ma (option_flags f).
Definition tcc f := f_tcc (option_flags f).
Definition tca f := f_tca (option_flags f).
Definition tmc f := f_tmc (option_flags f).
Definition tma f := f_tma (option_flags f).
Definition nmc f := f_nmc (option_flags f).
Definition nma f := f_nma (option_flags f).

Definition all_trivial : flags :=
  mkflags false true true true true true true true true true true true true true.
(** int *)
Definition int_ : flags := all_trivial.
(** 20: the deleted copy constructor suppresses both move members; the copy assignment stays. *)
Definition non_copy_constructible : flags :=
  mkflags false true false true false true false true false true false true false true.
(** 25 *)
Definition non_trivially_copy_constructible : flags :=
  mkflags false true true true true true false true false true false true false true.
(** 30: the copy members are deleted. *)
Definition non_move_constructible : flags :=
  mkflags false true false false false false false false false false false false false false.
(** 35 *)
Definition non_trivially_move_constructible : flags :=
  mkflags false true false false true false false false false false false false false false.
(** 188 *)
Definition non_copy_assignable : flags :=
  mkflags false true true false true false true false true false true false true false.
(** 193 *)
Definition non_trivially_copy_assignable : flags :=
  mkflags false true true true true true true false true false true false true false.
(** 200 *)
Definition non_trivially_destructible : flags :=
  mkflags false false true true true true false true false true true true true true.
(** 205 *)
Definition non_move_assignable : flags := non_move_constructible.
(** 210: no move constructor is declared and the copy constructor is deleted. *)
Definition non_trivially_move_assignable : flags :=
  mkflags false true false false false true false false false false false false false false.
(** 233 *)
Definition noexcept_move_assignable_and_constructible : flags :=
  mkflags false true false false true true false false false false false false true true.

(** 86-93: copy constructor *)
Example copy_constructor :
  (cc int_, cc non_trivially_copy_constructible, cc non_copy_constructible,
   tcc non_copy_constructible, tcc non_trivially_copy_constructible)
  = (true, true, false, false, false).
Proof. reflexivity. Qed.
(** 94-105: move constructor *)
Example move_constructor :
  (mc int_, mc non_trivially_move_constructible, mc non_move_constructible,
   tmc non_trivially_move_constructible, tmc non_move_constructible,
   nmc int_, nmc non_trivially_move_constructible)
  = (true, true, false, false, false, true, false).
Proof. reflexivity. Qed.
(** 246-257: copy assignment *)
Example copy_assignment :
  (ca int_, ca non_copy_constructible, ca non_copy_assignable,
   tca int_, tca non_trivially_copy_constructible, tca non_trivially_copy_assignable,
   tca non_trivially_destructible, tca non_copy_constructible, tca non_copy_assignable)
  = (true, false, false, true, false, false, false, false, false).
Proof. reflexivity. Qed.
(** 258-274: move assignment *)
Example move_assignment :
  (ma int_, ma non_move_constructible, ma non_move_assignable,
   tma int_, tma non_trivially_move_constructible, tma non_trivially_move_assignable,
   tma non_trivially_destructible, tma non_move_constructible, tma non_move_assignable)
  = (true, false, false, true, false, false, false, false, false).
Proof. reflexivity. Qed.
Example nothrow_move_assignment :
  (nma int_, nma non_trivially_move_assignable, nma non_trivially_move_constructible,
   nma noexcept_move_assignable_and_constructible)
  = (true, false, false, true).
Proof. reflexivity. Qed.

(** * Constraints *)

Definition int_t : ctype := plain (Named 0).
Definition float_t : ctype := plain (Named 1).
Definition tag_t : ctype := plain (Named 2).
Definition anything : ctype := plain (Named 3).               (* constructible_from_anything *)
Definition explicit_anything : ctype := plain (Named 4).      (* explicit_constructible_from_anything *)
Definition not_constructible : ctype := plain (Named 5).      (* non_constructible_from_anything *)
Definition tag_and_anything : ctype := plain (Named 6).       (* constructible_from_tag_and_anything *)
Definition not_assignable : ctype := plain (Named 7).         (* non_assignable_from_anything *)
Definition both_anything : ctype := plain (Named 8).          (* constructible_and_assignable_from_anything *)
Definition s1_t : ctype := plain (Named 9).                   (* 137: s1(int) *)
Definition s2_t : ctype := plain (Named 10).                  (* 143: s2(int, float) *)
Definition int_list : ctype := plain (Named 11).              (* std::initializer_list<int> *)

Definition is_ (a b : ctype) : bool := same (remove_cvref a) b.
Definition arithmetic (t : ctype) : bool := is_ t int_t || is_ t float_t.

(** What a C++17 compiler answers about these classes. *)
Definition constructible_ (t : ctype) (args : list ctype) : bool :=
  if is_reference t then
    match args with
    | [a] => is_ a (remove_cvref t)    (* only used of int& and const int& below *)
    | _ => false
    end
  else match args with
  | [] => is_ t int_t || is_ t anything || is_ t explicit_anything || is_ t both_anything
          || is_ t tag_t || is_ t not_assignable
  | [a] =>
      is_ a t || (is_ t int_t && arithmetic a) || is_ t anything || is_ t explicit_anything
      || is_ t both_anything || (is_ t tag_and_anything && is_ a tag_t) || (is_ t s1_t && arithmetic a)
  | a :: rest =>
      is_ t anything || is_ t explicit_anything || is_ t both_anything
      || (is_ t tag_and_anything && is_ a tag_t)
      || (is_ t s2_t && Nat.eqb (length rest) 1 && forallb arithmetic args)
  end.
Definition convertible_ (u t : ctype) : bool := constructible_ t [u] && negb (is_ t explicit_anything && negb (is_ u t)).
Definition assignable_ (t u : ctype) : bool :=
  if is_ t not_assignable then false
  else is_ t both_anything || (is_ t int_t && arithmetic u)
       || (convertible_ u (remove_reference t)).
Definition braces_ (t : ctype) (args : list ctype) : bool := constructible_ t args.
Definition L17 : lang :=
  mklang false constructible_ braces_ (fun _ => false) convertible_ assignable_
    (fun u t => same (remove_cv u) (remove_cv t) && implb (match u with ct _ c _ _ => c end) (match t with ct _ c _ _ => c end)).

(** The options that an option<T> can be converted from: the argument seen as option<u>. *)
Definition option_arg (a : ctype) : option ctype :=
  match remove_cvref a with ct _ _ _ (OptionOf u) => Some u | _ => None end.
(** const U& or U&&, as the converting constructors get it. *)
Definition content (a u : ctype) : ctype :=
  match a with ct LRef _ _ _ | ct _ true _ _ => const_lref u | _ => rref u end.

(** std::is_constructible_v<opt::option<t>, a> for one argument; [ex]: explicit constructors only. *)
Definition from1 (ex : bool) (t a : ctype) : bool := one_argument L17 ex t a.
Definition constructible1 t a := from1 true t a || from1 false t a.
Definition convertible1 a t := from1 false t a.
Definition constructible_args t a b rest := args_ctor L17 t a b rest.
Definition constructible_in_place t args := in_place_ctor L17 t in_place_t args.
Definition assignable1 t a :=
  value_assign L17 t a
  || match option_arg a with Some u => option_assign L17 t u (content a u) | None => false end
  || from1 false t a.

Definition oint : ctype := option_of int_t.
Definition const_int_ref : ctype := const_lref int_t.

(** 106-121 *)
Example converting_constructors :
  (constructible1 anything (const_lref oint), constructible1 not_constructible (const_lref oint),
   constructible1 explicit_anything (const_lref oint), convertible1 (const_lref oint) explicit_anything,
   convertible1 (const_lref oint) anything,
   constructible1 anything (rref oint), constructible1 not_constructible (rref oint),
   constructible1 explicit_anything (rref oint), convertible1 (rref oint) explicit_anything,
   convertible1 (option_of (rref int_t)) anything)
  = (true, false, true, false, true, true, false, true, false, true).
Proof. reflexivity. Qed.
(** 122-147 *)
Example from_args :
  (constructible1 anything const_int_ref, constructible1 anything (rref int_t),
   constructible_args anything const_int_ref (const_lref float_t) [],
   constructible_args anything const_int_ref (rref float_t) [],
   constructible1 tag_and_anything const_int_ref, constructible1 tag_and_anything int_t,
   constructible1 tag_and_anything tag_t, constructible_args tag_and_anything tag_t const_int_ref [],
   constructible_args tag_and_anything tag_t int_t [float_t],
   constructible1 s1_t const_int_ref, convertible1 const_int_ref s1_t,
   constructible_args s2_t const_int_ref (const_lref float_t) [])
  = (true, true, true, true, false, false, true, true, true, true, true, true).
Proof. reflexivity. Qed.
(** 148-165 *)
Example from_in_place :
  (constructible_in_place anything [int_t], constructible_in_place anything [int_t; float_t],
   constructible_in_place anything [],
   constructible_in_place tag_and_anything [int_t], constructible_in_place tag_and_anything [int_t; float_t],
   constructible_in_place tag_and_anything [tag_t], constructible_in_place tag_and_anything [tag_t; int_t],
   constructible_in_place tag_and_anything [tag_t; int_t; float_t],
   constructible_in_place anything [int_list], constructible_in_place anything [int_list; int_t],
   constructible_in_place tag_and_anything [int_list], constructible_in_place tag_and_anything [int_list; int_t])
  = (true, true, true, false, false, true, true, true, true, true, false, false).
Proof. reflexivity. Qed.
(** 166-183 *)
Example from_value :
  (constructible1 anything const_int_ref, constructible1 anything int_t,
   constructible1 not_constructible const_int_ref, constructible1 not_constructible int_t,
   constructible1 tag_and_anything const_int_ref, constructible1 tag_and_anything int_t,
   constructible1 tag_and_anything (const_lref tag_t), constructible1 tag_and_anything (rref tag_t))
  = (true, true, false, false, false, false, true, true).
Proof. reflexivity. Qed.
Example from_value_reference :
  (constructible1 (lref int_t) (lref int_t), constructible1 const_int_ref (lref int_t),
   constructible1 const_int_ref const_int_ref, constructible1 (lref int_t) int_t,
   constructible1 const_int_ref int_t)
  = (true, true, true, false, false).
Proof. reflexivity. Qed.
(** 275-293 *)
Example assignments :
  (assignable1 int_t int_t, assignable1 not_constructible int_t, assignable1 not_assignable int_t,
   assignable1 both_anything s1_t,
   assignable1 both_anything (const_lref oint), assignable1 not_constructible (const_lref oint),
   assignable1 not_assignable (const_lref oint),
   assignable1 both_anything (rref oint), assignable1 not_constructible oint, assignable1 not_assignable oint)
  = (true, false, false, true, true, false, false, true, false, false).
Proof. reflexivity. Qed.
