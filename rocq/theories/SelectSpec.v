(** What the documentation says about the special members (docs/reference.md 42-87, 215-222,
    239-303), and which combinations of type traits exist. *)
From Coq Require Import Bool.
From Verif Require Import Select Lifetime.
Open Scope bool_scope.

(** A trivial operation exists and does not throw; trivially constructible includes trivially
    destructible; references are copied and moved trivially. *)
Definition coherent (f : flags) : bool :=
  implb (f_tcc f) (f_cc f && f_ncc f && f_td f) && implb (f_tmc f) (f_mc f && f_nmc f && f_td f) &&
  implb (f_tca f) (f_ca f && f_nca f) && implb (f_tma f) (f_ma f && f_nma f) &&
  implb (f_ncc f) (f_cc f) && implb (f_nmc f) (f_mc f) && implb (f_nca f) (f_ca f) && implb (f_nma f) (f_ma f) &&
  implb (f_ref f) (f_tcc f && f_tmc f && f_td f).

Definition doc_deleted (f : flags) (k : kind) : bool :=
  negb (f_ref f) &&
  match k with
  | CopyCtor => negb (f_cc f)
  | MoveCtor => negb (f_mc f)
  | CopyAssign => negb (f_cc f) || negb (f_ca f)
  | MoveAssign => negb (f_mc f) || negb (f_ma f)
  end.

Definition doc_trivial (f : flags) (k : kind) : bool :=
  f_ref f ||
  match k with
  | CopyCtor => f_tcc f
  | MoveCtor => f_tmc f
  | CopyAssign => f_tca f && f_tcc f && f_td f
  | MoveAssign => f_tma f && f_tmc f && f_td f
  end.

(** The documentation of move assignment leaves references out. *)
Definition doc_noexcept (f : flags) (k : kind) : bool :=
  match k with
  | CopyCtor => f_ref f || f_ncc f
  | MoveCtor => f_ref f || f_nmc f
  | CopyAssign => f_ref f || (f_nca f && f_ncc f)
  | MoveAssign => f_nma f && f_nmc f
  end.

(** T can be copied and moved. *)
Definition regular (f : flags) : bool := negb (f_ref f) && f_cc f && f_ca f && f_mc f && f_ma f.

(** The traits that the lifetime model of a class uses. *)
Definition describes {W} (f : flags) (C : cls W) : Prop :=
  td C = f_td f /\ tcc C = f_tcc f /\ tca C = f_tca f /\ tmc C = f_tmc f /\ tma C = f_tma f.
