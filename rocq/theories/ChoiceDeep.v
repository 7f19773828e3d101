(** Traits that need the traits of another type.

    Models: include/opt/option.hpp 4015-4030 (member: traits of the type of the member, 4020) and 4035-4050 (enforce: traits of the
    wrapped type, 4038).  In [Wrapped Member t] t stands for the type of the member.  The traits of sentinel and sentinel_f
    (3956-3970, 3997-4010) need no others.  A specialisation of the user is taken to need none. *)
From Coq Require Import Bool List.
From Verif Require Import Choice.
Import ListNotations.

Definition needs_inner (w : wrapper) : bool := match w with Member | Enforce => true | Sentinel | SentinelF => false end.
Fixpoint use_deep (s : unit_state) (t : type) : option unit_state :=
  match choice_of t (chosen s) with
  | Some _ => Some s
  | None =>
      match unit_step s (Use t) with
      | None => None
      | Some s' =>
          match t, choice_of t (chosen s') with
          | Wrapped w u, Some (ByWrapper _) => if needs_inner w then use_deep s' u else Some s'
          | _, _ => Some s'
          end
      end
  end.
Definition step_deep (s : unit_state) (e : event) : option unit_state :=
  match e with Use t => use_deep s t | e => unit_step s e end.
Fixpoint translate_deep (s : unit_state) (es : list event) : option unit_state :=
  match es with [] => Some s | e :: es => match step_deep s e with Some s => translate_deep s es | None => None end end.
