(** Which specialisation of option_traits is used.

    Models: include/opt/option_fwd.hpp 12-16 (the primary templates, declared only), include/opt/option.hpp 1760-1786 (the primary
    definition and the one for sentinel_option_traits), 3956-3957, 3997-3998, 4015-4016, 4035-4036 (sentinel, sentinel_f,
    member, enforce), together with the specialisations of the user.

    Partial specialisations are chosen as the language does it: those that match, and one has to be more specialised than all
    others.  Those here are not ordered: their second argument depends on the first.  A specialisation is chosen when it is first
    needed; whether sentinel_option_traits<T> is complete is asked at this point and never again. *)
From Coq Require Import Bool List Arith.
Import ListNotations.

Inductive wrapper : Type := Sentinel | SentinelF | Member | Enforce.
Inductive type : Type := Class (n : nat) | Wrapped (w : wrapper) (t : type).

(** A translation unit, as far as it matters. *)
Inductive event : Type :=
| Explicit (t : type)               (* template<> struct opt::option_traits<t> { ... }; *)
| Hook (t : type)                   (* template<> struct opt::sentinel_option_traits<t> { ... }; *)
| Partial (p : type -> bool)        (* template<class T> struct opt::option_traits<T, std::enable_if_t<p<T>>> { ... }; *)
| Use (t : type).                   (* opt::option<t> is needed *)

Inductive choice : Type := Builtin | ByHook | ByWrapper (w : wrapper) | ByPartial (p : type -> bool) | ByUser.

Record unit_state := mkunit {
  explicit : list type;
  hooks : list type;
  partials : list (type -> bool);
  chosen : list (type * choice)
}.
Definition empty_unit : unit_state := mkunit [] [] [] [].

Definition wrapper_eqb (a b : wrapper) : bool :=
  match a, b with Sentinel, Sentinel | SentinelF, SentinelF | Member, Member | Enforce, Enforce => true | _, _ => false end.
Fixpoint type_eqb (a b : type) : bool :=
  match a, b with
  | Class m, Class n => Nat.eqb m n
  | Wrapped v s, Wrapped w t => wrapper_eqb v w && type_eqb s t
  | _, _ => false
  end.
Definition known (t : type) (l : list type) : bool := existsb (type_eqb t) l.
Fixpoint choice_of (t : type) (l : list (type * choice)) : option choice :=
  match l with [] => None | (u, c) :: l => if type_eqb t u then Some c else choice_of t l end.

(** The partial specialisations that match. *)
Definition candidates (s : unit_state) (t : type) : list choice :=
  (if known t (hooks s) then [ByHook] else []) ++
  (match t with Wrapped w _ => [ByWrapper w] | Class _ => [] end) ++
  map ByPartial (filter (fun p => p t) (partials s)).

(** None: it does not compile. *)
Definition choose (s : unit_state) (t : type) : option choice :=
  if known t (explicit s) then Some ByUser
  else match candidates s t with [] => Some Builtin | [c] => Some c | _ => None end.
Definition unit_step (s : unit_state) (e : event) : option unit_state :=
  match e with
  | Explicit t =>
      if known t (explicit s) then None
      else match choice_of t (chosen s) with
           | Some _ => None
           | None => Some (mkunit (t :: explicit s) (hooks s) (partials s) (chosen s))
           end
  | Hook t => if known t (hooks s) then None else Some (mkunit (explicit s) (t :: hooks s) (partials s) (chosen s))
  | Partial p => Some (mkunit (explicit s) (hooks s) (p :: partials s) (chosen s))
  | Use t =>
      match choice_of t (chosen s) with
      | Some _ => Some s
      | None => match choose s t with
                | Some c => Some (mkunit (explicit s) (hooks s) (partials s) ((t, c) :: chosen s))
                | None => None
                end
      end
  end.
Fixpoint translate (s : unit_state) (es : list event) : option unit_state :=
  match es with [] => Some s | e :: es => match unit_step s e with Some s => translate s es | None => None end end.
