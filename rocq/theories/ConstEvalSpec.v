(** What a program with options means when an option is just an [option V], and which programs each
    standard evaluates at compile time. *)
From Coq Require Import NArith List Bool Arith.
From Verif Require Import Types History ConstEval.
Import ListNotations.

Section Spec.
Context {V : Type} (left : V -> V).

(** Variables: not declared, or declared with this optional value. *)
Definition astate : Type := list (option (option V)).
Definition look (a : astate) (x : nat) : option (option V) := match nth_error a x with Some o => o | None => None end.
Definition fresh (a : astate) (x : nat) : bool := match nth_error a x with Some None => true | _ => false end.
Definition bind_ (a : astate) (x : nat) (o : option V) : astate := put a x (Some o).

Definition new (a : astate) (x : nat) (o : option V) : option (astate * list (seen V)) :=
  if fresh a x then Some (bind_ a x o, []) else None.
Definition on (a : astate) (x : nat) (k : option V -> option (astate * list (seen V))) : option (astate * list (seen V)) :=
  match look a x with Some o => k o | None => None end.
Definition on2 (a : astate) (x y : nat) (k : option V -> option V -> option (astate * list (seen V)))
  : option (astate * list (seen V)) :=
  if Nat.eqb x y then None else on a x (fun o => on a y (fun o' => k o o')).

(** None: the text names a variable that is not there, or reads the value of an empty option. *)
Definition ideal (s : stmt V) (a : astate) : option (astate * list (seen V)) :=
  match s with
  | New x o | NewConv x o => new a x o
  | NewCopy x y => on a y (fun o => new a x o)
  | NewMap x y f => on a y (fun o => new a x (option_map f o))
  | NewMove x y => on a y (fun o => if fresh a x then Some (bind_ (bind_ a y (option_map left o)) x o, []) else None)
  | NewTake x y => on a y (fun o => if fresh a x then Some (bind_ (bind_ a y None) x o, []) else None)
  | Destroy x => on a x (fun _ => Some (put a x None, []))
  | Reset x => on a x (fun _ => Some (bind_ a x None, []))
  | Set_ x v | Emplace x v => on a x (fun _ => Some (bind_ a x (Some v), []))
  | SetConv x o => on a x (fun _ => Some (bind_ a x o, []))
  | TryEmplace x v => on a x (fun o => Some (bind_ a x (match o with Some u => Some u | None => Some v end), []))
  | CopyAssign x y => on2 a x y (fun _ o => Some (bind_ a x o, []))
  | MoveAssign x y => on2 a x y (fun _ o => Some (bind_ (bind_ a y (option_map left o)) x o, []))
  | Swap x y => on2 a x y (fun o o' => Some (bind_ (bind_ a y o) x o', []))
  | Has x => on a x (fun o => Some (a, [SawHas (match o with Some _ => true | None => false end)]))
  | Get x => on a x (fun o => match o with Some v => Some (a, [SawValue v]) | None => None end)
  end.

(** A program, together with a condition on every statement and a note kept for every variable. *)
Fixpoint means (fits : stmt V -> astate -> list bool -> bool) (note : stmt V -> astate -> list bool -> list bool)
  (p : list (stmt V)) (a : astate) (w : list bool) : option (list (seen V)) :=
  match p with
  | [] => Some []
  | s :: p =>
      if fits s a w then
        match ideal s a with
        | Some (a', l) => option_map (app l) (means fits note p a' (note s a w))
        | None => None
        end
      else None
  end.

(** C++20: every program that makes sense. *)
Definition means20 (p : list (stmt V)) (n : nat) : option (list (seen V)) :=
  means (fun _ _ _ => true) (fun _ _ w => w) p (repeat None n) (repeat false n).

(** C++17.  [tcc], [tca], [tmc], [tma]: which operations of T are trivial; [scalar]; [sw]: swap(a, b) is usable.
    An option is warm when its storage has held a T. *)
Section Cxx17.
Context (tcc tca tmc tma scalar sw : bool).
Definition warm (w : list bool) (x : nat) : bool := nth x w false.
Definition full (a : astate) (x : nat) : bool := match look a x with Some (Some _) => true | _ => false end.

(** A value is created in the storage of x: x must be warm. *)
Definition fits17 (s : stmt V) (a : astate) (w : list bool) : bool :=
  let creates (b : bool) (x : nat) := implb b (tma && warm w x) in
  match s with
  | NewConv x (Some _) => false
  | NewCopy x y => implb (full a y) tcc
  | NewMove x y | NewTake x y => implb (full a y) tmc
  | Set_ x _ => creates (scalar || negb (full a x)) x
  | SetConv x (Some _) => creates (negb (full a x)) x
  | CopyAssign x y => creates (negb (tcc && tca) && full a y && negb (full a x)) x
  | MoveAssign x y => creates (negb (tmc && tma) && full a y && negb (full a x)) x
  | Emplace x _ => creates true x
  | TryEmplace x _ => creates (negb (full a x)) x
  | Swap x y =>
      if full a x && full a y then sw
      else creates (full a x) y && creates (full a y) x
  | _ => true
  end.
(** A new option is warm when it gets a value; trivial copies are as warm as their source, in both senses. *)
Definition note17 (s : stmt V) (a : astate) (w : list bool) : list bool :=
  match s with
  | New x o => put w x (match o with Some _ => true | None => false end)
  | NewConv x _ => put w x false
  | NewCopy x y => put w x (tcc && warm w y)
  | NewMove x y | NewTake x y => put w x (tmc && warm w y)
  | NewMap x y _ => put w x (full a y)
  | CopyAssign x y => if tcc && tca then put w x (warm w y) else w
  | MoveAssign x y => if tmc && tma then put w x (warm w y) else w
  | Destroy x => put w x false
  | _ => w
  end.
Definition means17 (p : list (stmt V)) (n : nat) : option (list (seen V)) :=
  means fits17 note17 p (repeat None n) (repeat false n).
End Cxx17.

(** Types whose option is stored without a flag.  [builds]: set_level creates the object. *)
Section Traits.
Context (cxx20 tcc tca tmc tma td scalar sw builds : bool) (vacant : V -> bool).
(** An empty option can be made; a value can be created over an old one; a value can be reset. *)
Definition makes : bool := cxx20 && builds.
Definition creates : bool := cxx20 || tma.
Definition resets : bool := td || cxx20 && builds.
Definition fits_traits (s : stmt V) (a : astate) (w : list bool) : bool :=
  match s with
  | New _ (Some v) => negb (vacant v)
  | New _ None | NewConv _ None => makes
  | NewConv _ (Some v) => makes && (creates && negb (vacant v))
  | NewCopy _ y => tcc || makes && implb (full a y) creates
  | NewMove _ y => tmc || makes && implb (full a y) creates
  | NewTake _ y => (tmc || makes && implb (full a y) creates) && implb (full a y) resets
  | NewMap _ y f => match look a y with Some (Some v) => negb (vacant (f v)) | Some None => makes | None => true end
  | Reset x | SetConv x None => implb (full a x) resets
  | Set_ x v => implb (scalar || negb (full a x)) creates && negb (vacant v)
  | SetConv x (Some v) => implb (negb (full a x)) creates && negb (vacant v)
  | CopyAssign x y =>
      implb (negb (tcc && tca && td) && full a y && negb (full a x)) creates &&
      implb (negb (tcc && tca && td) && negb (full a y) && full a x) resets
  | MoveAssign x y =>
      implb (negb (tmc && tma && td) && full a y && negb (full a x)) creates &&
      implb (negb (tmc && tma && td) && negb (full a y) && full a x) resets
  | Emplace x v => implb (full a x) resets && (creates && negb (vacant v))
  | TryEmplace x v => implb (negb (full a x)) (creates && negb (vacant v))
  | Swap x y =>
      if full a x && full a y then cxx20 || sw else implb (full a x || full a y) (creates && resets)
  | _ => true
  end.
Definition means_traits (p : list (stmt V)) (n : nat) : option (list (seen V)) :=
  means fits_traits (fun _ _ w => w) p (repeat None n) (repeat false n).
End Traits.
End Spec.

(** Statements that have to know whether there is a value, or to leave none. *)
Definition asks {V} (s : stmt V) : bool :=
  match s with
  | New _ None | NewConv _ _ | NewTake _ _ | NewMap _ _ _ | Reset _ | SetConv _ _ | Emplace _ _ | TryEmplace _ _
  | Swap _ _ | Has _ => true
  | _ => false
  end.

(** Trivial copies and moves need a trivial destructor, and a trivial move is a copy. *)
Record sane {V} (T : literal V) : Prop := {
  s_tcc : l_tcc T = true -> l_td T = true;
  s_tmc : l_tmc T = true -> l_td T = true;
  s_left : l_tmc T = true -> forall v, l_left T v = v }.
Arguments s_tcc {V T} s. Arguments s_tmc {V T} s. Arguments s_left {V T} s.

(** [T] describes the type t: a flag is stored exactly if t has no levels, and the traits are t's. *)
Definition describes {V} (T : literal V) (t : ty) : Prop :=
  match l_traits T with
  | None => max_level t = 0%N
  | Some tr => max_level t <> 0%N /\ usable tr = evaluable t
  end.

(** The object that the level of a t is kept in, step by step: the first element, the wrapped object, the pointed-to member,
    the second member of a pair unless the first has more levels, the first field with the most levels. *)
Inductive keeps_level_in : ty -> ty -> Prop :=
| keeps_here t : keeps_level_in t t
| keeps_array n t u : keeps_level_in t u -> keeps_level_in (TArray n t) u
| keeps_complex t u : keeps_level_in t u -> keeps_level_in (TComplex t) u
| keeps_member o t n a u : keeps_level_in t u -> keeps_level_in (TMember o t n a) u
| keeps_enforce t u : keeps_level_in t u -> keeps_level_in (TEnforce t) u
| keeps_first o1 t1 o2 t2 n a u :
    (max_level t2 < max_level t1)%N -> keeps_level_in t1 u -> keeps_level_in (TPair o1 t1 o2 t2 n a) u
| keeps_second o1 t1 o2 t2 n a u :
    (max_level t1 <= max_level t2)%N -> keeps_level_in t2 u -> keeps_level_in (TPair o1 t1 o2 t2 n a) u
| keeps_field fs n a i o t u :
    nth_error fs i = Some (o, t) ->
    (forall j o' t', nth_error fs j = Some (o', t') -> max_level t' <= max_level t)%N ->
    (forall j o' t', (j < i)%nat -> nth_error fs j = Some (o', t') -> max_level t' < max_level t)%N ->
    keeps_level_in t u -> keeps_level_in (TTuple fs n a) u.
(** Level kept in the value itself and compared with ==. *)
Definition compared (t : ty) : Prop :=
  match t with TEnumSent _ _ | TSentTraits _ _ | TSentinel _ _ | TCustom _ _ _ _ _ _ => True | _ => False end.
