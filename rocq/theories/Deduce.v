(** Class template argument deduction for opt::option, and the expressions that use it.

    Models: include/opt/option.hpp 3272-3273 (the deduction guide), 2832-2901 (the constructors, each of which
    gives an implicit guide), 2814-2824 (types that an option cannot hold), 3350 (the use in zip), and the
    "code equivalents" of docs/reference.md that use deduction: 941-947 (map), 1117-1123 (zip), 1626-1633 (unzip).

    [over.match.class.deduct], [over.match.best], [temp.deduct.call], [temp.func.order], for the initializer
    option{e} or option(e) with one argument.  With two or more arguments no guide can deduce T: it occurs in
    the parameters of no such constructor. *)
From Coq Require Import List Bool Arith.
From Verif Require Import Results.
Import ListNotations.

(** The parameter of a guide: T, option<T>, or something in which T does not occur (a template parameter of the
    constructor itself, opt::none_t, option<U>). *)
Inductive pattern := WholeT | OptionT | WithoutT.

(** [g_kind]: by value, const&, or &&.  [g_user]: written as a deduction guide.  [g_copy]: the copy deduction
    candidate. *)
Record guide := { g_kind : kind; g_pattern : pattern; g_user : bool; g_copy : bool }.

Definition guides : list guide :=
  [ {| g_kind := Val; g_pattern := WithoutT; g_user := false; g_copy := false |}    (* 2836 option(none_t) *)
  ; {| g_kind := LRef; g_pattern := OptionT; g_user := false; g_copy := false |}    (* 2838 option(const option&) *)
  ; {| g_kind := RRef; g_pattern := OptionT; g_user := false; g_copy := false |}    (* 2840 option(option&&) *)
  ; {| g_kind := RRef; g_pattern := WithoutT; g_user := false; g_copy := false |}   (* 2844, 2848 option(U&&) *)
  ; {| g_kind := Val; g_pattern := WithoutT; g_user := false; g_copy := false |}    (* 2860 option(const InPlaceT) *)
  ; {| g_kind := LRef; g_pattern := WithoutT; g_user := false; g_copy := false |}   (* 2876, 2883 option(const option<U>&) *)
  ; {| g_kind := RRef; g_pattern := WithoutT; g_user := false; g_copy := false |}   (* 2890, 2897 option(option<U>&&) *)
  ; {| g_kind := Val; g_pattern := OptionT; g_user := false; g_copy := true |}      (* the copy deduction candidate *)
  ; {| g_kind := Val; g_pattern := WholeT; g_user := true; g_copy := false |} ].    (* 3273 option(T) *)

(** What a guide deduces for T from the expression e; None: it is not viable. *)
Definition deduce (g : guide) (e : qty) : option qty :=
  match g_pattern g with
  | WithoutT => None
  | WholeT => Some (remove_cvref e)
  | OptionT =>
      match q_base e with
      | Opt t =>
          match g_kind g with
          | RRef => if negb (is_lref e) && negb (q_const e) then Some t else None
          | _ => Some t
          end
      | _ => None
      end
  end.

(** Binding an rvalue to && is better than binding it to const& ([over.ics.rank] 3.2.3); all other conversions
    are identities. *)
Definition better_conversion (g h : guide) : bool :=
  match g_kind g, g_kind h with RRef, LRef => true | _, _ => false end.
Definition more_specialized (g h : guide) : bool :=
  match g_pattern g, g_pattern h with OptionT, WholeT => true | _, _ => false end.

Definition better (g h : guide) : bool :=
  if better_conversion g h then true
  else if better_conversion h g then false
  else if more_specialized g h then true
  else if more_specialized h g then false
  else if g_user g && negb (g_user h) then true
  else if g_user h && negb (g_user g) then false
  else g_copy g && negb (g_copy h).

Definition viable (e : qty) (g : guide) : bool := match deduce g e with Some _ => true | None => false end.

(** Each element with the other elements. *)
Fixpoint picks {A} (before after : list A) : list (A * list A) :=
  match after with
  | [] => []
  | a :: rest => (a, before ++ rest) :: picks (before ++ [a]) rest
  end.

(** The guide that is better than all other viable ones; None: there is none or the choice is ambiguous. *)
Definition best (e : qty) : option guide :=
  match filter (fun p => forallb (better (fst p)) (snd p)) (picks [] (filter (viable e) guides)) with
  | [(g, _)] => Some g
  | _ => None
  end.

Section Banned.
(** The classes opt::none_t and std::in_place_t. *)
Context (banned : nat -> bool).

(** 2814-2821. *)
Definition may_hold (t : qty) : bool := match q_base t with Obj n => negb (banned n) | _ => true end.

(** option{e}: the T of option<T>, and how the option is made from e: from the value through 2844-2850, or as a
    copy of the option e. *)
Definition ctad (e : qty) : option qty :=
  do g <- best e; do t <- deduce g e; if may_hold t then Some (Q false Val (Opt t)) else None.

Definition ctad_value (e : qty) : option (qty * how) :=
  do r <- ctad e;
  match q_base e with
  | Opt _ => do h <- inits r e; Some (r, h)
  | _ => do h <- inits (remove_cvref e) (match e with Q c Val b => Q c RRef b | _ => e end); Some (r, h)
  end.

(** std::tuple{e...}: the guide tuple(UTypes...) and the copy deduction candidate.  Pairs are left out. *)
Definition tuple_ctad (l : list qty) : qty :=
  match l with
  | [Q _ _ (Tup m)] => Q false Val (Tup m)
  | _ => Q false Val (Tup (map remove_cvref l))
  end.

(** 941-947: opt::option{fn(get())}, for a function that returns R. *)
Definition doc_map (R : qty) : option qty := ctad R.

(** 1117-1123: std::tuple{options.get()...}, in the option that is returned. *)
Definition doc_zip (l : list (self * qty)) : option qty :=
  do es <- traverse (fun p => get_of (fst p) (snd p)) l; Some (Q false Val (Opt (tuple_ctad es))).

(** 1626-1633: opt::option{opt->first} for the first or second member, of type E. *)
Definition doc_unzip_element (s : self) (T E : qty) : option qty :=
  do p <- arrow_of s T; ctad (dot (add_lref p) E).

(** 3350: the type of opt::option{result_tuple{...}}. *)
Definition zip_return (l : list qty) : option qty := ctad (Q false Val (Tup l)).
End Banned.
