(** Functions that look at options: comparisons, hash, stream input and output.

    Models: include/opt/option.hpp 3737-3785 (option with option), 3787-3834 (option with none),
    3836-3895 (option with value), 4068-4079 (std::hash), 3515-3574 (io).

    [op] stands for T1's operator with T2; it gets the two contained objects and may throw. *)
From Coq Require Import NArith Bool List.
From Verif Require Import Outcome Words Lifetime Api.
Import ListNotations.
Open Scope N_scope.

(** The built-in operators on bool, which promotes to int. *)
Definition b_eq (l r : bool) : bool := Bool.eqb l r.
Definition b_ne (l r : bool) : bool := negb (Bool.eqb l r).
Definition b_lt (l r : bool) : bool := negb l && r.
Definition b_le (l r : bool) : bool := negb l || r.
Definition b_gt (l r : bool) : bool := l && negb r.
Definition b_ge (l r : bool) : bool := l || negb r.

(** The object behind get(), used in an expression. *)
Definition operand {W} {C : cls W} {A} (c : cell C) (k : raw C -> out A) : out A :=
  match a_get C c with
  | Ret r => k r
  | Exn _ => Undef
  | Abort => Abort
  | Undef => Undef
  end.

Section Compare.
Context {W W' : Type} {C : cls W} {D : cls W'}.

(** The common body of the six operators; each says which operator of T and of bool it uses. *)
Definition c_compare (op : raw C -> raw D -> out bool) (bop : bool -> bool -> bool) (l : cell C) (r : cell D) : out bool :=
  check (o_has C l) (fun hl => check (o_has D r) (fun hr =>
    if hl && hr then operand l (fun x => operand r (fun y => op x y)) else Ret (bop hl hr))).

Definition c_eq (op : raw C -> raw D -> out bool) (l : cell C) (r : cell D) : out bool := c_compare op b_eq l r.
Definition c_ne (op : raw C -> raw D -> out bool) (l : cell C) (r : cell D) : out bool := c_compare op b_ne l r.
Definition c_lt (op : raw C -> raw D -> out bool) (l : cell C) (r : cell D) : out bool := c_compare op b_lt l r.
Definition c_le (op : raw C -> raw D -> out bool) (l : cell C) (r : cell D) : out bool := c_compare op b_le l r.
Definition c_gt (op : raw C -> raw D -> out bool) (l : cell C) (r : cell D) : out bool := c_compare op b_gt l r.
Definition c_ge (op : raw C -> raw D -> out bool) (l : cell C) (r : cell D) : out bool := c_compare op b_ge l r.
End Compare.

Section WithNone.
Context {W : Type} {C : cls W}.
Implicit Types c : cell C.

(** 3787-3834; [_none] is option op none, [none_] is none op option. *)
Definition eq_none c : out bool := check (o_has C c) (fun h => Ret (negb h)).
Definition none_eq c : out bool := check (o_has C c) (fun h => Ret (negb h)).
Definition ne_none c : out bool := check (o_has C c) (fun h => Ret h).
Definition none_ne c : out bool := check (o_has C c) (fun h => Ret h).
Definition lt_none c : out bool := Ret false.
Definition none_lt c : out bool := check (o_has C c) (fun h => Ret h).
Definition le_none c : out bool := check (o_has C c) (fun h => Ret (negb h)).
Definition none_le c : out bool := Ret true.
Definition gt_none c : out bool := check (o_has C c) (fun h => Ret h).
Definition none_gt c : out bool := Ret false.
Definition ge_none c : out bool := Ret true.
Definition none_ge c : out bool := check (o_has C c) (fun h => Ret (negb h)).
End WithNone.

Section WithValue.
Context {W : Type} {C : cls W} {X : Type}.

(** 3836-3895: option op value. *)
Definition c_value (op : raw C -> X -> out bool) (empty : bool) (l : cell C) (x : X) : out bool :=
  check (o_has C l) (fun h => if h then operand l (fun r => op r x) else Ret empty).
(** value op option. *)
Definition value_c (op : X -> raw C -> out bool) (empty : bool) (x : X) (r : cell C) : out bool :=
  check (o_has C r) (fun h => if h then operand r (fun y => op x y) else Ret empty).

Definition eq_value (op : raw C -> X -> out bool) := c_value op false.
Definition value_eq (op : X -> raw C -> out bool) := value_c op false.
Definition ne_value (op : raw C -> X -> out bool) := c_value op true.
Definition value_ne (op : X -> raw C -> out bool) := value_c op true.
Definition lt_value (op : raw C -> X -> out bool) := c_value op true.
Definition value_lt (op : X -> raw C -> out bool) := value_c op false.
Definition le_value (op : raw C -> X -> out bool) := c_value op true.
Definition value_le (op : X -> raw C -> out bool) := value_c op false.
Definition gt_value (op : raw C -> X -> out bool) := c_value op false.
Definition value_gt (op : X -> raw C -> out bool) := value_c op true.
Definition ge_value (op : raw C -> X -> out bool) := c_value op false.
Definition value_ge (op : X -> raw C -> out bool) := value_c op true.
End WithValue.

(** 4068-4079: std::hash<option<T>>; [h] is std::hash<T>. *)
Definition c_hash {W} {C : cls W} (h : raw C -> out N) (c : cell C) : out N :=
  check (o_has C c) (fun b => if b then operand c h else Ret 0).

(** 3515-3574.  The stream is the world; inserting and extracting are callbacks on the object, the
    alternative [alt] lives beside the stream. *)
Section Io.
Context {W : Type} (C : cls W) {St A : Type}.

(** os << io(x). *)
Definition io_out (put : raw C -> St -> out St) (c : cell C) (s : St) : out St :=
  check (o_has C c) (fun h => if h then operand c (fun r => put r s) else Ret s).

(** os << io(x, alt). *)
Definition io_out2 (put : raw C -> St -> out St) (alt : St -> out St) (c : cell C) (s : St) : out St :=
  check (o_has C c) (fun h => if h then operand c (fun r => put r s) else alt s).

(** is >> io(x, alt). *)
Definition io_in2 (take : raw C -> St -> out (raw C * St)) (take_alt : A -> St -> out (A * St))
  (c : cell C) (sa : A * St) : out (cell C * (A * St)) :=
  check (o_has C c) (fun h =>
    if h then o_with_value C (fun r (sa : A * St) =>
                match take r (snd sa) with
                | Ret (r', s') => Ret (r', (fst sa, s'))
                | Exn (r', s') => Exn (r', (fst sa, s'))
                | Abort => Abort
                | Undef => Undef
                end) c sa
    else match take_alt (fst sa) (snd sa) with
         | Ret p => Ret (c, p)
         | Exn p => Exn (c, p)
         | Abort => Abort
         | Undef => Undef
         end).
End Io.
